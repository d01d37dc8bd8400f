(** Which text the groups of a pattern capture. *)
From Coq Require Import List NArith ZArith Bool Ascii String Lia Arith.
From Verif Require Import PyBase PyStr PyRe L_Base L_Re.
Import ListNotations.
Local Open Scope list_scope.

Fixpoint capless (r : re) : bool :=
  match r with
  | RCap _ _ => false
  | RSeq a b | RAlt a b => capless a && capless b
  | RStar _ a => capless a
  | _ => true
  end.
Lemma star_caps g step : (forall st st', In st' (step st) -> st_caps st' = st_caps st) ->
  forall fuel st st', In st' (star_runs g step fuel st) -> st_caps st' = st_caps st.
Proof.
  intros H fuel. induction fuel as [|f IH]; intros st st' Hin; cbn [star_runs] in Hin.
  - destruct Hin as [<-|[]]. reflexivity.
  - assert (K : st' = st \/
      In st' (flat_map (fun st' => if st_pos st <? st_pos st' then star_runs g step f st' else []) (step st))).
    { destruct g; [apply in_app_or in Hin as [Hin|[<-|[]]]; auto|destruct Hin as [<-|Hin]; auto]. }
    destruct K as [->|K]; [reflexivity|].
    apply in_flat_map in K as (m & Hm & K). destruct (st_pos st <? st_pos m); [|destruct K].
    apply IH in K. rewrite K. apply H, Hm.
Qed.
Lemma capless_caps r : capless r = true -> forall st st', In st' (runs r st) -> st_caps st' = st_caps st.
Proof.
  induction r as [p| |a IHa b IHb|a IHa b IHb|g a IHa|n a IHa| | |a IHa]; intros C st st' H; cbn [runs capless] in *.
  - destruct (st_rest st); [destruct H|]. destruct (p c); [|destruct H]. destruct H as [<-|[]]. reflexivity.
  - destruct H as [<-|[]]. reflexivity.
  - apply andb_true_iff in C as [Ca Cb]. apply in_flat_map in H as (m & Hm & H). rewrite (IHb Cb _ _ H). now apply IHa.
  - apply andb_true_iff in C as [Ca Cb]. apply in_app_or in H as [H|H]; [now apply IHa|now apply IHb].
  - revert H. apply star_caps. now apply IHa.
  - discriminate.
  - destruct (st_pos st); [destruct H as [<-|[]]; reflexivity|destruct H].
  - destruct (st_rest st) as [|c [|d t]]; [destruct H as [<-|[]]; reflexivity| |destruct H].
    destruct (N.eqb c chr_newline); [destruct H as [<-|[]]; reflexivity|destruct H].
  - destruct (runs a st); [destruct H as [<-|[]]; reflexivity|destruct H].
Qed.

(** a match of a sequence of which the second part is captured and the third is not *)
Lemma seq_captured a n b c st st' : capless b = true -> capless c = true ->
  In st' (runs (RSeq a (RSeq (RCap n b) c)) st) ->
  exists m w r, acc a (st_pos st) (st_rest st) (w ++ r) /\ acc b m (w ++ r) r /\ acc c (m + List.length w) r (st_rest st')
    /\ group n st' = Some w.
Proof.
  intros Cb Cc H. cbn [runs] in H. apply in_flat_map in H as (m1 & H1 & H). apply in_flat_map in H as (m2 & H2 & H).
  apply in_map_iff in H2 as (m & E2 & H2). subst m2.
  pose proof (runs_advance _ _ _ H2) as (w & Ew & Pw).
  exists (st_pos m1), w, (st_rest m).
  destruct (runs_acc a st) as [Ha _]. destruct (runs_acc b m1) as [Hb _]. 
  specialize (Ha _ H1). specialize (Hb _ H2). rewrite Ew in Ha, Hb.
  pose proof (proj1 (runs_acc c _) _ H) as Hc. cbn [st_pos st_rest] in Hc. rewrite Pw in Hc.
  split; [exact Ha|]. split; [exact Hb|]. split; [exact Hc|].
  unfold group. rewrite (capless_caps _ Cc _ _ H). cbn [st_caps find fst]. rewrite Nat.eqb_refl.
  f_equal. rewrite Pw, Ew. replace (st_pos m1 + List.length w - st_pos m1) with (List.length w) by lia.
  now rewrite firstn_app, Nat.sub_diag, firstn_all, firstn_O, app_nil_r.
Qed.
(** the first group of a sequence stays what it was *)
Lemma re_match_in r s st : re_match r s = Some st -> In st (runs r (start s)).
Proof. unfold re_match. destruct (runs r (start s)) as [|x l]; [discriminate|]. intros [= ->]. now left. Qed.
Lemma re_match_none r s : re_match r s = None -> forall s', ~ acc r 0 s s'.
Proof.
  unfold re_match. intros H s' A. destruct (runs_acc r (start s)) as [_ K]. apply K in A as (st' & Hin & _).
  destruct (runs r (start s)); [destruct Hin|discriminate].
Qed.
Lemma acc_assoc a b c pos s s' : acc (RSeq a (RSeq b c)) pos s s' <-> acc (RSeq (RSeq a b) c) pos s s'.
Proof.
  cbn. split.
  - intros (m1 & A & m2 & B & C). exists m2. split; [eauto|].
    assert (L1 : List.length m1 <= List.length s).
    { destruct (runs_acc a (mkst pos s [])) as [_ K]. apply K in A as (x & Hx & <-). apply runs_advance, advance_pos in Hx as [_ Hx]. exact Hx. }
    assert (L2 : List.length m2 <= List.length m1).
    { destruct (runs_acc b (mkst (pos + (List.length s - List.length m1)) m1 [])) as [_ K]. apply K in B as (x & Hx & <-).
      apply runs_advance, advance_pos in Hx as [_ Hx]. exact Hx. }
    replace (pos + (List.length s - List.length m2)) with (pos + (List.length s - List.length m1) + (List.length m1 - List.length m2)) by lia. exact C.
  - intros (m2 & (m1 & A & B) & C). exists m1. split; [exact A|]. exists m2. split; [exact B|].
    assert (L1 : List.length m1 <= List.length s).
    { destruct (runs_acc a (mkst pos s [])) as [_ K]. apply K in A as (x & Hx & <-). apply runs_advance, advance_pos in Hx as [_ Hx]. exact Hx. }
    assert (L2 : List.length m2 <= List.length m1).
    { destruct (runs_acc b (mkst (pos + (List.length s - List.length m1)) m1 [])) as [_ K]. apply K in B as (x & Hx & <-).
      apply runs_advance, advance_pos in Hx as [_ Hx]. exact Hx. }
    replace (pos + (List.length s - List.length m1) + (List.length m1 - List.length m2)) with (pos + (List.length s - List.length m2)) by lia. exact C.
Qed.
Lemma runs_assoc a b c st : runs (RSeq a (RSeq b c)) st = runs (RSeq (RSeq a b) c) st.
Proof.
  cbn. induction (runs a st) as [|x l IH]; cbn; [reflexivity|]. rewrite IH, flat_map_app. reflexivity.
Qed.
