(** The language of a regular expression, independent of the matcher's search
    order, and language lemmas for the patterns of the code. *)
From Coq Require Import List NArith ZArith Bool Ascii String Lia Arith.
From Verif Require Import PyBase PyStr PyRe L_Base.
Import ListNotations.
Local Open Scope list_scope.

(** [acc r pos s s']: r can match at position pos in front of s and leave s' *)
Inductive star_acc (R : nat -> pystr -> pystr -> Prop) : nat -> pystr -> pystr -> Prop :=
| star_nil pos s : star_acc R pos s s
| star_step pos s s' s'' :
    R pos s s' -> List.length s' < List.length s ->
    star_acc R (pos + (List.length s - List.length s')) s' s'' -> star_acc R pos s s''.

Fixpoint acc (r : re) (pos : nat) (s s' : pystr) : Prop :=
  match r with
  | RChar p => exists c, s = c :: s' /\ p c = true
  | REps => s' = s
  | RSeq a b => exists m, acc a pos s m /\ acc b (pos + (List.length s - List.length m)) m s'
  | RAlt a b => acc a pos s s' \/ acc b pos s s'
  | RStar _ a => star_acc (acc a) pos s s'
  | RCap _ a => acc a pos s s'
  | RBol => pos = 0 /\ s' = s
  | REol => s' = s /\ (s = [] \/ s = [chr_newline])
  | RNot a => s' = s /\ ~ exists m, acc a pos s m
  end.

(** results are suffixes of the input and the position advances accordingly *)
Definition advance (st st' : rst) : Prop :=
  exists w, st_rest st = w ++ st_rest st' /\ st_pos st' = st_pos st + List.length w.

Lemma advance_refl st : advance st st.
Proof. exists []. cbn. split; [reflexivity|lia]. Qed.
Lemma advance_trans a b c : advance a b -> advance b c -> advance a c.
Proof.
  intros (w & E & P) (v & E' & P'). exists (w ++ v). rewrite E, E', app_assoc, app_length. split; [reflexivity|lia].
Qed.

Lemma star_runs_advance g step :
  (forall st st', In st' (step st) -> advance st st') ->
  forall fuel st st', In st' (star_runs g step fuel st) -> advance st st'.
Proof.
  intros H fuel. induction fuel as [|f IH]; intros st st' Hin; cbn [star_runs] in Hin.
  - destruct Hin as [<-|[]]. apply advance_refl.
  - assert (K : st' = st \/
      In st' (flat_map (fun st' => if st_pos st <? st_pos st' then star_runs g step f st' else []) (step st))).
    { destruct g; [apply in_app_or in Hin as [Hin|[<-|[]]]; auto|destruct Hin as [<-|Hin]; auto]. }
    destruct K as [->|K]; [apply advance_refl|].
    apply in_flat_map in K as (m & Hm & K). destruct (st_pos st <? st_pos m); [|destruct K].
    eapply advance_trans; [apply H, Hm|apply IH, K].
Qed.

Lemma runs_advance r : forall st st', In st' (runs r st) -> advance st st'.
Proof.
  induction r as [p| |a IHa b IHb|a IHa b IHb|g a IHa|n a IHa| | |a IHa]; intros st st' H; cbn [runs] in H.
  - destruct (st_rest st) as [|c t] eqn:E; [destruct H|]. destruct (p c); [|destruct H].
    destruct H as [<-|[]]. exists [c]. rewrite E. cbn. split; [reflexivity|lia].
  - destruct H as [<-|[]]. apply advance_refl.
  - apply in_flat_map in H as (m & Hm & H). eapply advance_trans; eauto.
  - apply in_app_or in H as [H|H]; auto.
  - revert H. apply star_runs_advance, IHa.
  - apply in_map_iff in H as (m & <- & Hm). apply IHa in Hm as (w & E & P). exists w. cbn. auto.
  - destruct (st_pos st); [destruct H as [<-|[]]; apply advance_refl|destruct H].
  - destruct (st_rest st) as [|c [|d t]]; [destruct H as [<-|[]]; apply advance_refl| |destruct H].
    destruct (N.eqb c chr_newline); [destruct H as [<-|[]]; apply advance_refl|destruct H].
  - destruct (runs a st); [destruct H as [<-|[]]; apply advance_refl|destruct H].
Qed.

Lemma advance_pos st st' : advance st st' ->
  st_pos st' = st_pos st + (List.length (st_rest st) - List.length (st_rest st')) /\
  List.length (st_rest st') <= List.length (st_rest st).
Proof. intros (w & E & P). rewrite E, P, app_length. split; lia. Qed.

Lemma runs_acc r : forall st,
  (forall st', In st' (runs r st) -> acc r (st_pos st) (st_rest st) (st_rest st')) /\
  (forall s', acc r (st_pos st) (st_rest st) s' -> exists st', In st' (runs r st) /\ st_rest st' = s').
Proof.
  induction r as [p| |a IHa b IHb|a IHa b IHb|g a IHa|n a IHa| | |a IHa]; intros st; cbn [runs acc].
  - destruct (st_rest st) as [|c t]; split.
    + intros st' [].
    + intros s' (c & [=] & _).
    + intros st' H. destruct (p c) eqn:Hc; [|destruct H]. destruct H as [<-|[]]. exists c. cbn. auto.
    + intros s' (c' & [= <- <-] & Hc). rewrite Hc. eexists. split; [left; reflexivity|reflexivity].
  - split; [intros st' [<-|[]]; reflexivity|intros s' ->; exists st; cbn; auto].
  - split.
    + intros st' H. apply in_flat_map in H as (m & Hm & H). exists (st_rest m).
      pose proof (advance_pos _ _ (runs_advance _ _ _ Hm)) as [Hp _].
      split; [now apply IHa|]. rewrite <- Hp. now apply IHb.
    + intros s' (m & Ha & Hb). destruct (IHa st) as [_ IHa2]. destruct (IHa2 _ Ha) as (sm & Hin & <-).
      pose proof (advance_pos _ _ (runs_advance _ _ _ Hin)) as [Hp _]. rewrite <- Hp in Hb.
      destruct (IHb sm) as [_ IHb2]. destruct (IHb2 _ Hb) as (st' & Hin' & E).
      exists st'. split; [apply in_flat_map; eauto|exact E].
  - split.
    + intros st' H. apply in_app_or in H as [H|H]; [left; now apply IHa|right; now apply IHb].
    + intros s' [H|H].
      * destruct (IHa st) as [_ IHa2]. destruct (IHa2 _ H) as (st' & Hin & E). exists st'.
        split; [apply in_or_app; auto|exact E].
      * destruct (IHb st) as [_ IHb2]. destruct (IHb2 _ H) as (st' & Hin & E). exists st'.
        split; [apply in_or_app; auto|exact E].
  - assert (K : forall fuel st, List.length (st_rest st) <= fuel ->
      (forall st', In st' (star_runs g (runs a) fuel st) -> star_acc (acc a) (st_pos st) (st_rest st) (st_rest st')) /\
      (forall s', star_acc (acc a) (st_pos st) (st_rest st) s' ->
                  exists st', In st' (star_runs g (runs a) fuel st) /\ st_rest st' = s')).
    { clear st. induction fuel as [|f IHf]; intros st Hf; cbn [star_runs].
      - split.
        + intros st' [<-|[]]. constructor.
        + intros s' H. exists st. split; [cbn; auto|]. inversion H as [|? ? m ? Hm Hl Hr]; subst; [reflexivity|].
          destruct (st_rest st); cbn in *; lia.
      - assert (E : forall st', In st' (if g
              then flat_map (fun st' => if st_pos st <? st_pos st' then star_runs g (runs a) f st' else []) (runs a st) ++ [st]
              else st :: flat_map (fun st' => if st_pos st <? st_pos st' then star_runs g (runs a) f st' else []) (runs a st))
            <-> st' = st \/ exists m, In m (runs a st) /\ st_pos st < st_pos m /\ In st' (star_runs g (runs a) f m)).
        { intros st'.
          assert (F : In st' (flat_map (fun st' => if st_pos st <? st_pos st' then star_runs g (runs a) f st' else []) (runs a st))
                  <-> exists m, In m (runs a st) /\ st_pos st < st_pos m /\ In st' (star_runs g (runs a) f m)).
          { rewrite in_flat_map. split; intros (m & Hm & H); exists m; (split; [exact Hm|]).
            - destruct (Nat.ltb_spec (st_pos st) (st_pos m)); [auto|destruct H].
            - destruct H as [Hlt H]. apply Nat.ltb_lt in Hlt. now rewrite Hlt. }
          destruct g.
          - rewrite in_app_iff, F. cbn. intuition.
          - cbn. rewrite F. intuition. }
        split.
        + intros st' H. apply E in H as [->|(m & Hm & Hlt & H)]; [constructor|].
          pose proof (advance_pos _ _ (runs_advance _ _ _ Hm)) as [Hp Hl].
          destruct (IHf m) as [IH1 _]; [lia|].
          econstructor; [apply IHa, Hm|lia|]. rewrite <- Hp. now apply IH1.
        + intros s' H. inversion H as [|? ? m' ? Hm Hl Hr]; subst.
          * exists st. split; [apply E; auto|reflexivity].
          * destruct (IHa st) as [_ IHa2]. destruct (IHa2 _ Hm) as (m & Hin & <-).
            pose proof (advance_pos _ _ (runs_advance _ _ _ Hin)) as [Hp _]. rewrite <- Hp in Hr.
            destruct (IHf m) as [_ IH2]; [lia|]. destruct (IH2 _ Hr) as (st' & Hin' & Es).
            exists st'. split; [|exact Es]. apply E. right. exists m. repeat split; auto. lia. }
    apply K. lia.
  - split.
    + intros st' H. apply in_map_iff in H as (m & <- & Hm). cbn. now apply IHa.
    + intros s' H. destruct (IHa st) as [_ IHa2]. destruct (IHa2 _ H) as (m & Hin & <-).
      eexists. split; [apply in_map_iff; exists m; split; [reflexivity|exact Hin]|reflexivity].
  - split.
    + intros st' H. destruct (st_pos st); [|destruct H]. destruct H as [<-|[]]. auto.
    + intros s' [Hp ->]. rewrite Hp. exists st. cbn. auto.
  - split.
    + intros st' H. destruct (st_rest st) as [|c [|d t]] eqn:Es; [|destruct (N.eqb_spec c chr_newline)|]; cbn in H.
      * destruct H as [<-|[]]. auto.
      * destruct H as [<-|[]]. subst. auto.
      * destruct H.
      * destruct H.
    + intros s' [-> [E|E]]; rewrite E; cbn; exists st; auto.
  - split.
    + intros st' H. destruct (runs a st) as [|m ms] eqn:Er; [|destruct H]. destruct H as [<-|[]].
      split; [reflexivity|]. intros (s' & Hs). destruct (IHa st) as [_ IHa2]. destruct (IHa2 _ Hs) as (x & Hx & _).
      rewrite Er in Hx. destruct Hx.
    + intros s' [-> Hn]. destruct (runs a st) as [|m ms] eqn:Er; [exists st; cbn; auto|].
      exfalso. apply Hn. exists (st_rest m). destruct (IHa st) as [IHa1 _]. apply IHa1. rewrite Er. cbn. auto.
Qed.

(** ** match and fullmatch *)
Lemma matches_acc r s : matches r s = true <-> exists s', acc r 0 s s'.
Proof.
  unfold matches, re_match. destruct (runs_acc r (start s)) as [H1 H2]. cbn in H1, H2. split.
  - destruct (runs r (start s)) as [|st l] eqn:E; [discriminate|]. intros _.
    exists (st_rest st). apply H1. cbn. auto.
  - intros (s' & H). destruct (H2 _ H) as (st & Hin & _). destruct (runs r (start s)); [destruct Hin|reflexivity].
Qed.
Lemma fullmatches_acc r s : fullmatches r s = true <-> acc r 0 s [].
Proof.
  unfold fullmatches, re_fullmatch. destruct (runs_acc r (start s)) as [H1 H2]. cbn in H1, H2. split.
  - destruct (find _ _) as [st|] eqn:E; [|discriminate]. intros _. apply find_some in E as [Hin E].
    destruct (st_rest st) eqn:Er; [|discriminate]. specialize (H1 _ Hin). now rewrite Er in H1.
  - intros H. destruct (H2 _ H) as (st & Hin & E). destruct (find _ _) as [st'|] eqn:F; [reflexivity|].
    eapply find_none in F; [|exact Hin]. rewrite E in F. discriminate.
Qed.

(** ** pieces *)
Lemma acc_seq a b pos s s' :
  acc (RSeq a b) pos s s' <-> exists m, acc a pos s m /\ acc b (pos + (List.length s - List.length m)) m s'.
Proof. reflexivity. Qed.
Lemma acc_bol_seq b s s' : acc (RSeq RBol b) 0 s s' <-> acc b 0 s s'.
Proof.
  rewrite acc_seq. split.
  - intros (m & [_ ->] & H). now rewrite Nat.sub_diag in H.
  - intros H. exists s. split; [cbn; auto|]. now rewrite Nat.sub_diag.
Qed.
Lemma acc_char p pos s s' : acc (RChar p) pos s s' <-> exists c, s = c :: s' /\ p c = true.
Proof. reflexivity. Qed.
Lemma acc_eol pos s s' : acc REol pos s s' <-> s' = s /\ (s = [] \/ s = [chr_newline]).
Proof. reflexivity. Qed.
Lemma acc_lit w pos s s' : acc (RLit w) pos s s' <-> s = w ++ s'.
Proof.
  revert pos s; induction w as [|c w IH]; intros pos s; cbn [RLit].
  - cbn. split; congruence.
  - rewrite acc_seq. split.
    + intros (m & (d & -> & E) & H). apply IH in H as ->. apply N.eqb_eq in E as <-. reflexivity.
    + intros ->. exists (w ++ s'). split; [exists c; split; [reflexivity|apply N.eqb_refl]|]. now apply IH.
Qed.
Lemma acc_rep_char n p pos s s' :
  acc (RRep n (RChar p)) pos s s' <-> exists w, s = w ++ s' /\ List.length w = n /\ forallb p w = true.
Proof.
  revert pos s; induction n as [|n IH]; intros pos s; cbn [RRep].
  - cbn. split.
    + intros ->. exists []. auto.
    + intros ([|] & -> & L & _); [reflexivity|discriminate].
  - rewrite acc_seq. split.
    + intros (m & (c & -> & Hc) & H). apply IH in H as (w & -> & L & F).
      exists (c :: w). cbn. rewrite Hc, F, L. auto.
    + intros ([|c w] & -> & L & F); [discriminate|]. cbn in F. apply andb_true_iff in F as [Hc F].
      exists (w ++ s'). split; [exists c; auto|]. apply IH. exists w. cbn in L. auto.
Qed.
Lemma acc_star_char g p pos s s' :
  acc (RStar g (RChar p)) pos s s' <-> exists w, s = w ++ s' /\ forallb p w = true.
Proof.
  cbn [acc]. split.
  - intros H. induction H as [pos s|pos s s' s'' (c & -> & Hc) Hl H (w & -> & F)].
    + exists []. auto.
    + exists (c :: w). cbn. rewrite Hc, F. auto.
  - intros (w & -> & F). revert pos. induction w as [|c w IH]; intros pos; [constructor|].
    cbn in F. apply andb_true_iff in F as [Hc F].
    apply (star_step _ _ _ (w ++ s')); [exists c; auto|cbn; lia|]. apply IH, F.
Qed.
Lemma acc_plus_char g p pos s s' :
  acc (RSeq (RChar p) (RStar g (RChar p))) pos s s'
  <-> exists w, s = w ++ s' /\ w <> [] /\ forallb p w = true.
Proof.
  rewrite acc_seq. split.
  - intros (m & (c & -> & Hc) & H). apply acc_star_char in H as (w & -> & F).
    exists (c :: w). cbn. rewrite Hc, F. repeat split; congruence.
  - intros ([|c w] & -> & Hn & F); [congruence|]. cbn in F. apply andb_true_iff in F as [Hc F].
    exists (w ++ s'). split; [exists c; auto|]. apply acc_star_char. eauto.
Qed.
Lemma acc_opt a pos s s' : acc (ROpt a) pos s s' <-> acc a pos s s' \/ s' = s.
Proof. reflexivity. Qed.
Lemma acc_cap n a pos s s' : acc (RCap n a) pos s s' <-> acc a pos s s'.
Proof. reflexivity. Qed.

Lemma forallb_forall' {A} (p : A -> bool) l : forallb p l = true <-> Forall (fun x => p x = true) l.
Proof. rewrite forallb_forall, Forall_forall. reflexivity. Qed.
Lemma acc_alt a b pos s s' : acc (RAlt a b) pos s s' <-> acc a pos s s' \/ acc b pos s s'.
Proof. reflexivity. Qed.
