(** Lemmas for C64 and C66: what generate_value_pool_replacement does, for every schedule. *)
From Coq Require Import Ascii String List NArith ZArith Bool Lia Arith.
From Verif Require Import PyBase PyStr PyRe M_Components M_Ahb M_Transformation L_Base S_DeepAhb L_ValuePool S_Transformation L_Coroutines.
Import ListNotations.
Local Open Scope list_scope.

Lemma Forall2_list_set {X Y} (P : X -> Y -> Prop) i y xs ys : Forall2 P xs ys -> (forall x, nth_error xs i = Some x -> P x y) -> Forall2 P xs (list_set i y ys).
Proof.
  intros H. revert i. induction H as [|x y' xs ys Hx H IH]; intros i K; [destruct i; constructor|].
  destruct i as [|i]; cbn [list_set]; constructor; auto.
Qed.
Lemma Forall2_nth {X Y} (P : X -> Y -> Prop) xs ys i y : Forall2 P xs ys -> nth_error ys i = Some y -> exists x, nth_error xs i = Some x /\ P x y.
Proof.
  intros H. revert i. induction H as [|x y' xs ys Hx H IH]; intros [|i] N; try discriminate; cbn in *.
  - injection N as <-. eauto.
  - now apply IH.
Qed.
Lemma in_list_set {X} i (x y : X) l : In y (list_set i x l) -> y = x \/ In y l.
Proof.
  revert i. induction l as [|z l IH]; intros [|i]; cbn; try tauto.
  - intros [<-|H]; auto.
  - intros [<-|H]; auto. destruct (IH i H); auto.
Qed.

Section Update.
  (** the mapping of the initial value *)
  Definition initial_mapping (iv av : option pystr) : dictionary := match iv with Some v => dict_set v av [] | None => [] end.
  Definition update : dictionary -> list (pystr * option pystr) -> dictionary :=
    fun m rs => fold_left (fun mapping result => dict_set (fst result) (snd result) mapping) rs m.
  Lemma update_keys rs m k : In k (map fst (update m rs)) <-> In k (map fst m) \/ In k (map fst rs).
  Proof.
    revert m. induction rs as [|[a b] rs IH]; intros m; cbn [update fold_left map fst snd]; [cbn; tauto|]. fold (update (dict_set a b m) rs). rewrite IH.
    assert (E : In k (map fst (dict_set a b m)) <-> k = a \/ In k (map fst m)).
    { destruct (in_dec (list_eq_dec N.eq_dec) a (map fst m)) as [H|H].
      - rewrite dict_set_keys_old by exact H. split; [tauto|]. intros [->|K]; auto.
      - rewrite dict_set_new by exact H. rewrite map_app, in_app_iff. cbn. intuition. }
    rewrite E. cbn. intuition.
  Qed.
  Lemma dict_set_NoDup {V} k (v : V) m : NoDup (map fst m) -> NoDup (map fst (dict_set k v m)).
  Proof.
    intros H. destruct (in_dec (list_eq_dec N.eq_dec) k (map fst m)) as [K|K]; [now rewrite dict_set_keys_old|].
    rewrite dict_set_new by exact K. rewrite map_app. apply NoDup_Add with (a := k) (l := map fst m); [|auto].
    cbn. rewrite <- (app_nil_r (map fst m)) at 1. apply Add_app.
  Qed.
  Lemma update_NoDup rs m : NoDup (map fst m) -> NoDup (map fst (update m rs)).
  Proof. revert m. induction rs as [|[a b] rs IH]; intros m H; [exact H|]. apply (IH (dict_set a b m)). now apply dict_set_NoDup. Qed.
  (** the result of the last entry with the key counts *)
  Lemma update_get rs m k : ~ In k (map fst rs) -> dict_get k (update m rs) = dict_get k m.
  Proof.
    revert m. induction rs as [|[a b] rs IH]; intros m H; [reflexivity|]. cbn in H. transitivity (dict_get k (dict_set a b m)); [apply (IH (dict_set a b m)); tauto|].
    rewrite dict_get_set. destruct (str_eqb_spec k a) as [-> |E]; [tauto|reflexivity].
  Qed.
  Lemma update_function rs m k v : (forall v', In (k, v') rs -> v' = v) -> In k (map fst rs) -> dict_get k (update m rs) = Some v.
  Proof.
    revert m. induction rs as [|[a b] rs IH]; intros m F H; [destruct H|]. destruct (in_dec (list_eq_dec N.eq_dec) k (map fst rs)) as [K|K].
    - apply (IH (dict_set a b m)); [|exact K]. intros v' I. apply F. now right.
    - destruct H as [<-|H]; [|tauto]. cbn [fst] in *. transitivity (dict_get a (dict_set a b m)); [exact (update_get rs (dict_set a b m) a K)|]. rewrite dict_get_set, str_eqb_refl. f_equal. apply F. now left.
  Qed.
  Lemma initial_keys iv av : NoDup (map fst (initial_mapping iv av)).
  Proof. destruct iv; cbn; repeat constructor; auto. Qed.
  Lemma initial_get iv av k : dict_get k (initial_mapping iv av) = match iv with Some v => if str_eqb k v then Some av else None | None => None end.
  Proof. destruct iv; reflexivity. Qed.

End Update.

Section Generation.
  Context {D A : Type}.
  Variable to_edi : A -> co D ref.
  Variable to_app : ref -> co D A.
  Variable edi_get : D -> pystr -> result (option pystr).
  Variable edi_set : D -> pystr -> pystr -> D * option exn.
  Variable app_get : A -> pystr -> result (option pystr).
  Variable app : A.
  Variable path_mapping : list (pystr * pystr).
  Notation step := (generation_step D A to_app edi_set app_get).
  Notation steps := (generation_run D A to_app edi_set app_get).
  Notation start := (start_generation D A to_edi edi_get app_get app path_mapping).
  Notation entry_task := (get_value_pool_mapping D A to_app edi_set app_get).

  Lemma find_path_some o items path npath : find_path o items = Some (path, npath) -> o = Some path /\ In (path, npath) items.
  Proof.
    induction items as [|[a b] r IH]; cbn [find_path]; [discriminate|]. destruct (ostr_eqb (Some a) o) eqn:E.
    - intros [= <- <-]. apply ostr_eqb_eq in E. split; [easy|now left].
    - intros H. destruct (IH H). split; [easy|now right].
  Qed.
  Lemma find_path_none o items : find_path o items = None <-> forall path npath, o = Some path -> ~ In (path, npath) items.
  Proof.
    induction items as [|[a b] r IH]; cbn [find_path]; [split; [intros _ p n _ []|reflexivity]|]. destruct (ostr_eqb (Some a) o) eqn:E.
    - apply ostr_eqb_eq in E. subst o. split; [discriminate|]. intros H. exfalso. apply (H a b eq_refl). now left.
    - rewrite IH. split.
      + intros H p n -> [[= -> ->]|K]; [|now apply (H p n eq_refl)]. assert (X : ostr_eqb (Some p) (Some p) = true) by now apply ostr_eqb_eq. congruence.
      + intros H p n E1 K. apply (H p n E1). now right.
  Qed.

  Definition rest_of_head (p : ValuePool) (r : ref) : co D head :=
    match find_path (vp_discriminator p) path_mapping with
    | None => CRaise ValueError
    | Some (edi_path, non_edi_path) =>
        co_bind (co_of (app_get app non_edi_path)) (fun av =>
        CRead r (fun d => co_bind (co_of (edi_get d edi_path)) (fun iv => CRet (mkHead r edi_path non_edi_path (initial_mapping iv av)))))
    end.
  Lemma start_eq p : start p = GHead (co_bind (to_edi app) (rest_of_head p)).
  Proof. reflexivity. Qed.

  Lemma results_all ts rs : results_of D ts = Some rs <-> ts = map TDone rs.
  Proof.
    revert rs. induction ts as [|t ts IH]; intros rs; cbn [results_of].
    - split; [now intros [= <-]|]. destruct rs; [reflexivity|discriminate].
    - destruct t as [c|r|]; [split; [discriminate|now destruct rs]| |split; [discriminate|now destruct rs]].
      destruct (results_of D ts) as [l|]; split.
      + intros [= <-]. cbn. f_equal. now apply IH.
      + destruct rs as [|r' rs]; [discriminate|]. cbn. intros [= <- H]. f_equal. f_equal. assert (Some l = Some rs) by now apply IH. congruence.
      + discriminate.
      + destruct rs as [|r' rs]; [discriminate|]. cbn. intros [= <- H]. assert (None = Some rs) by now apply IH. discriminate.
  Qed.
  Lemma results_none ts : results_of D ts = None -> ~ In TFailed ts -> exists i c, nth_error ts i = Some (TRun c).
  Proof.
    induction ts as [|t ts IH]; cbn [results_of]; [discriminate|]. destruct t as [c|r|]; intros H N.
    - exists 0, c. reflexivity.
    - destruct (results_of D ts); [discriminate|]. destruct IH as (i & c & E); [reflexivity| |]. { intros K. apply N. now right. }
      exists (S i), c. exact E.
    - destruct N. now left.
  Qed.

  (** ** arbitrary converters *)
  Section Any.
    Variable p : ValuePool.

    Definition key_task (e : ValuePoolEntry) (t : task D) : Prop :=
      match t with
      | TRun c => every_return (fun r => fst r = ve_qualifier e) c
      | TDone r => fst r = ve_qualifier e
      | TFailed => True
      end.
    Lemma entry_key h e : every_return (fun r => fst r = ve_qualifier e) (entry_task h e).
    Proof.
      unfold get_value_pool_mapping. cbn [every_return]. intros d. destruct (edi_set d (h_edi_path h) (ve_qualifier e)) as [d' [ex|]]; cbn [every_return]; [exact Logic.I|]. apply every_bind. intros a. apply every_bind. intros v. reflexivity.
    Qed.
    Definition gather_ok (failed : option exn) (ts : list (task D)) : Prop :=
      Forall2 key_task (vp_pool p) ts /\ (failed = None -> ~ In TFailed ts).
    (** the keys of the final mapping *)
    Definition shape (h : head) (m : dictionary) : Prop :=
      exists rs, map fst rs = qualifiers p /\ m = update (h_mapping h) rs.
    Lemma gather_start h : gather_ok None (map (fun e => TRun (entry_task h e)) (vp_pool p)).
    Proof.
      split.
      - induction (vp_pool p) as [|e l IH]; constructor; auto. apply entry_key.
      - intros _ H. apply in_map_iff in H. destruct H as (e & [=] & _).
    Qed.
    Lemma gather_step h failed ts c s g' s' : gather_ok failed ts -> step p c (GGather h failed ts) s = Some (g', s') ->
      match g' with
      | GHead _ => False
      | GGather h' failed' ts' => h' = h /\ gather_ok failed' ts'
      | GDone (Ok m) => shape h m
      | GDone (Raise e) => failed = Some e
      end.
    Proof.
      intros (F & N) H. destruct c as [|i]; cbn [generation_step] in H.
      - destruct failed as [e|]; [injection H as <- <-; reflexivity|]. destruct (results_of D ts) as [rs|] eqn:R; [|discriminate]. injection H as <- <-.
        exists rs. split; [|reflexivity]. apply results_all in R. subst ts. clear N. unfold qualifiers.
        revert F. generalize (vp_pool p). induction rs as [|r rs IH]; intros l F; inversion F as [|e t l' ts' K F' E1 E2]; subst; cbn; [reflexivity|].
        f_equal; [exact K|now apply IH].
      - destruct (nth_error ts i) as [[c|r|]|] eqn:E; try discriminate. destruct (Forall2_nth _ _ _ _ _ F E) as (e & Ee & K). cbn in K.
        pose proof (every_run _ c s K) as Q. destruct (run c s) as [[r|x|c'] s1]; cbn [fst] in Q; injection H as <- <-; (split; [reflexivity|]); split.
        + apply Forall2_list_set; [exact F|]. intros e' Ee'. replace e' with e by congruence. exact Q.
        + intros E0 I. destruct (in_list_set _ _ _ _ I); [discriminate|now apply N].
        + apply Forall2_list_set; [exact F|]. intros e' Ee'. exact Logic.I.
        + destruct failed; discriminate.
        + apply Forall2_list_set; [exact F|]. intros e' Ee'. replace e' with e by congruence. exact Q.
        + intros E0 I. destruct (in_list_set _ _ _ _ I); [discriminate|now apply N].
    Qed.
    Definition sound (g : generation D) : Prop :=
      match g with GHead _ => True | GGather h failed ts => gather_ok failed ts | GDone _ => True end.
    Lemma sound_step g c s g' s' : sound g -> step p c g s = Some (g', s') -> sound g'.
    Proof.
      intros I H. destruct g as [co|h failed ts|r].
      - destruct c; [|discriminate]. cbn [generation_step] in H. destruct (run co s) as [[h|e|co'] s1]; injection H as <- <-; cbn; auto. apply gather_start.
      - pose proof (gather_step h failed ts c s g' s' I H) as K. destruct g' as [|h' f' ts'|]; cbn; auto. apply K.
      - destruct c; discriminate.
    Qed.
    Lemma sound_steps cs : forall g s g' s', sound g -> steps p cs (g, s) = Some (g', s') -> sound g'.
    Proof.
      induction cs as [|c cs IH]; intros g s g' s' I H; cbn [generation_run fst snd] in H.
      - now injection H as <- <-.
      - destruct (step p c g s) as [[g1 s1]|] eqn:E; [|discriminate]. apply (IH g1 s1 g' s'); [|exact H]. now apply (sound_step g c s g1 s1).
    Qed.
    Lemma sound_progress g s : sound g -> (forall r, g <> GDone r) -> exists c st, step p c g s = Some st.
    Proof.
      intros I N. destruct g as [co|h failed ts|r]; [| |now destruct (N r)].
      - exists Outer. cbn [generation_step]. destruct (run co s) as [[h|e|co'] s1]; eauto.
      - destruct failed as [e|]; [exists Outer; cbn; eauto|]. destruct (results_of D ts) as [rs|] eqn:R; [exists Outer; cbn [generation_step]; rewrite R; eauto|].
        destruct (results_none ts R (proj2 I eq_refl)) as (i & c & E). exists (Inner i). cbn [generation_step]. rewrite E.
        destruct (run c s) as [[r|e|c'] s1]; eauto.
    Qed.

    (** with a converter that creates the EDIFACT data *)
    Variable x : result D.
    Hypothesis H_edi : creates x (to_edi app).
    (** what the head of the function ends with *)
    Definition head_of (r : ref) : result head :=
      let* d := x in
      match find_path (vp_discriminator p) path_mapping with
      | None => Raise ValueError
      | Some (edi_path, non_edi_path) =>
          let* av := app_get app non_edi_path in
          let* iv := edi_get d edi_path in
          Ok (mkHead r edi_path non_edi_path (initial_mapping iv av))
      end.
    (** [own]: the objects created so far *)
    Definition in_head (own : ref -> Prop) (c : co D head) (s : store D) : Prop :=
      exists mine c0, works (fun mine r => mine r) mine x c0 /\ c = co_bind c0 (rest_of_head p) /\ holds mine s /\ forall r, mine r <> None -> own r.
    Lemma head_step own c s o s' : in_head own c s -> run c s = (o, s') ->
      next s <= next s' /\ (forall r, r < next s -> ~ own r -> content s' r = content s r)
      /\ match o with
         | Suspended c' => exists own', in_head own' c' s' /\ forall r, own' r -> own r \/ next s <= r
         | Raised e => exists r, head_of r = Raise e
         | Returned h => head_of (h_data h) = Ok h /\ x = Ok (content s' (h_data h)) /\ h_data h < next s' /\ (own (h_data h) \/ next s <= h_data h)
         end.
    Proof.
      intros (mine & c0 & C & -> & M & O) H. rewrite run_bind in H. unfold head_of. destruct (run c0 s) as [o1 s1] eqn:R.
      destruct (works_run _ mine x c0 C s o1 s1 M R) as (Nx & Fr & mine' & M' & O' & K).
      assert (Fr' : forall r, r < next s -> ~ own r -> content s1 r = content s r).
      { intros r L N. apply Fr; [exact L|]. destruct (mine r) eqn:E; [|reflexivity]. destruct N. apply O. congruence. }
      destruct o1 as [r|e|c1].
      - destruct K as (d & Ex & Er). destruct (M' r d Er) as (L & Cr). assert (Or' : own r \/ next s <= r) by (destruct (O' r); [congruence|auto|auto]).
        unfold rest_of_head in H. rewrite Ex. cbn [bind].
        destruct (find_path (vp_discriminator p) path_mapping) as [[path npath]|].
        2:{ cbn [run] in H. injection H as <- <-. split; [lia|]. split; [exact Fr'|]. now exists 0. }
        destruct (app_get app npath) as [av|e]; cbn [co_of co_bind run bind] in *.
        2:{ injection H as <- <-. split; [lia|]. split; [exact Fr'|]. now exists 0. }
        rewrite Cr in H. destruct (edi_get d path) as [iv|e]; cbn [co_of co_bind run bind] in *; injection H as <- <-; cbn [h_data]; (split; [lia|]); (split; [exact Fr'|]).
        + rewrite Cr. auto.
        + now exists 0.
      - injection H as <- <-. split; [lia|]. split; [exact Fr'|]. exists 0. now rewrite K.
      - injection H as <- <-. split; [lia|]. split; [exact Fr'|]. exists (fun r => mine' r <> None). split.
        + exists mine', c1. auto.
        + intros r N. destruct (O' r N); auto.
    Qed.

    (** the heads of the mapping, whatever the converter back does *)
    Definition shaped (g : generation D) (s : store D) : Prop :=
      match g with
      | GHead c => exists own, in_head own c s
      | GGather h failed ts => (exists r, head_of r = Ok h) /\ gather_ok failed ts
      | GDone (Ok m) => exists r h, head_of r = Ok h /\ shape h m
      | GDone (Raise _) => True
      end.
    Lemma shaped_start s : shaped (start p) s.
    Proof. rewrite start_eq. exists (fun _ => False), (fun _ => None), (to_edi app). repeat split; try discriminate; auto. Qed.
    Lemma shaped_step g c s g' s' : shaped g s -> step p c g s = Some (g', s') -> shaped g' s'.
    Proof.
      intros I H. destruct g as [co|h failed ts|r].
      - destruct I as (own & I). destruct c; [|discriminate]. cbn [generation_step] in H. destruct (run co s) as [o s1] eqn:R. pose proof (head_step own co s o s1 I R) as (_ & _ & K).
        destruct o as [h|e|co']; injection H as <- <-; cbn; auto; [|destruct K as (own' & K & _); now exists own']. split; [exists (h_data h); apply K|apply gather_start].
      - destruct I as ((r & Hr) & I). pose proof (gather_step h failed ts c s g' s' I H) as K. destruct g' as [|h' f' ts'|[m|e]]; cbn; auto; [tauto| |].
        + destruct K as (-> & K). split; eauto.
        + eauto.
      - destruct c; discriminate.
    Qed.
    Lemma shaped_steps cs : forall g s g' s', shaped g s -> steps p cs (g, s) = Some (g', s') -> shaped g' s'.
    Proof.
      induction cs as [|c cs IH]; intros g s g' s' I H; cbn [generation_run fst snd] in H.
      - now injection H as <- <-.
      - destruct (step p c g s) as [[g1 s1]|] eqn:E; [|discriminate]. apply (IH g1 s1 g' s'); [|exact H]. now apply (shaped_step g c s g1 s1).
    Qed.
  End Any.

  (** ** converters that read before they suspend *)
  Section WellBehaved.
    Variable x : result D.
    Hypothesis H_edi : creates x (to_edi app).
    Variable to_application : D -> result A.
    Hypothesis H_app : forall r d, reads_first r d (to_application d) (to_app r).
    Hypothesis H_set : forall d path v d' x, edi_set d path v = (d', x) -> forall w, edi_set d' path w = edi_set d path w.
    Variable p : ValuePool.
    Notation value := (fun d0 h q => application_value d0 to_application edi_set app_get (h_edi_path h) (h_non_edi_path h) q).

    Definition expected d0 h e : result (pystr * option pystr) := bind (value d0 h (ve_qualifier e)) (fun v => Ok (ve_qualifier e, v)).
    (** [town]: the objects that the task has created *)
    Definition task_ok d0 h (town : ref -> Prop) (s : store D) (e : ValuePoolEntry) (t : task D) : Prop :=
      match t with
      | TRun c => c = entry_task h e
                  \/ exists mine, works (fun _ v => Some v) mine (expected d0 h e) c /\ holds mine s /\ forall r, mine r <> None -> town r
      | TDone r => expected d0 h e = Ok r
      | TFailed => True
      end.
    Definition content_ok d0 h (failed : option exn) (ts : list (task D)) (d : D) : Prop :=
      (exists q x, In q (qualifiers p) /\ edi_set d0 (h_edi_path h) q = (d, x) /\ (x = None \/ failed <> None)) \/ (d = d0 /\ Forall2 (fun e t => t = TRun (entry_task h e)) (vp_pool p) ts).
    Record tasks_ok d0 h failed ts (towns : nat -> ref -> Prop) s : Prop := {
      to_content : content_ok d0 h failed ts (content s (h_data h));
      to_tasks : forall i e t, nth_error (vp_pool p) i = Some e -> nth_error ts i = Some t -> task_ok d0 h (towns i) s e t;
      to_length : List.length ts = List.length (vp_pool p);
      to_disjoint : forall i j r, towns i r -> towns j r -> i = j;
      to_objects : forall i r, towns i r -> r <> h_data h /\ r < next s;
      to_none_failed : failed = None -> ~ In TFailed ts;
      to_failed : forall e, failed = Some e -> exists q, In q (qualifiers p) /\ value d0 h q = Raise e
    }.
    Definition final (m : dictionary) : Prop :=
      exists d0 r h rs, x = Ok d0 /\ head_of p x r = Ok h /\ Forall2 (fun e r => expected d0 h e = Ok r) (vp_pool p) rs /\ m = update (h_mapping h) rs.
    Definition explained (e : exn) : Prop :=
      (exists r, head_of p x r = Raise e)
      \/ exists d0 r h q, x = Ok d0 /\ head_of p x r = Ok h /\ In q (qualifiers p) /\ value d0 h q = Raise e.
    (** [own]: the objects that the generation works on *)
    Definition good (own : ref -> Prop) (g : generation D) (s : store D) : Prop :=
      match g with
      | GHead c => in_head p x own c s
      | GGather h failed ts =>
          exists d0 (towns : nat -> ref -> Prop), x = Ok d0 /\ head_of p x (h_data h) = Ok h /\ h_data h < next s /\ own (h_data h) /\ (forall i r, towns i r -> own r) /\ tasks_ok d0 h failed ts towns s
      | GDone (Ok m) => final m
      | GDone (Raise e) => explained e
      end.

    Lemma tasks_start d0 h s : content s (h_data h) = d0 -> tasks_ok d0 h None (map (fun e => TRun (entry_task h e)) (vp_pool p)) (fun _ _ => False) s.
    Proof.
      intros E. constructor; try discriminate; try contradiction.
      - right. split; [exact E|]. induction (vp_pool p) as [|e l IH]; constructor; auto.
      - intros i e t Ne Nt. rewrite nth_error_map, Ne in Nt. injection Nt as <-. now left.
      - apply map_length.
      - intros _ H. apply in_map_iff in H. destruct H as (e & [=] & _).
    Qed.
    (** one step of a task *)
    Lemma task_step d0 h failed ts town i e c s o s' : nth_error (vp_pool p) i = Some e -> nth_error ts i = Some (TRun c) ->
      task_ok d0 h town s e (TRun c) -> content_ok d0 h failed ts (content s (h_data h)) -> h_data h < next s -> ~ town (h_data h) -> run c s = (o, s') ->
      next s <= next s'
      /\ (forall r, r < next s -> r <> h_data h -> ~ town r -> content s' r = content s r)
      /\ match o with
         | Returned v => expected d0 h e = Ok v
         | Raised ex => expected d0 h e = Raise ex
         | Suspended c' => exists mine, works (fun _ v => Some v) mine (expected d0 h e) c' /\ holds mine s' /\ forall r, mine r <> None -> town r \/ next s <= r
         end
      /\ exists q x, In q (qualifiers p) /\ edi_set d0 (h_edi_path h) q = (content s' (h_data h), x) /\ (x = None \/ failed <> None \/ exists ex, o = Raised ex).
    Proof.
      intros Ne Nt K C Hn Nh R. assert (Same : forall w, edi_set (content s (h_data h)) (h_edi_path h) w = edi_set d0 (h_edi_path h) w).
      { intros w. destruct C as [(q & y & _ & E & _)|[-> _]]; [|reflexivity]. now apply (H_set d0 (h_edi_path h) q _ y). }
      assert (K' : c = entry_task h e
                   \/ (exists mine, works (fun _ v => Some v) mine (expected d0 h e) c /\ holds mine s /\ forall r, mine r <> None -> town r)
                      /\ exists q x, In q (qualifiers p) /\ edi_set d0 (h_edi_path h) q = (content s (h_data h), x) /\ (x = None \/ failed <> None)).
      { destruct C as [C|[_ C]]; [destruct K; auto|]. left. destruct (Forall2_nth _ _ _ _ _ C Nt) as (e' & Ne' & [=]). congruence. }
      clear K C. destruct K' as [-> |[(mine & K & M & O) C]].
      - unfold get_value_pool_mapping in R. cbn [run] in R. rewrite Same in R. unfold expected, application_value.
        assert (Iq : In (ve_qualifier e) (qualifiers p)) by (apply in_map; now apply nth_error_In in Ne).
        assert (Other : forall d' r, r <> h_data h -> content (put (h_data h) d' s) r = content s r).
        { intros d' r N. unfold put. cbn. destruct (Nat.eqb_spec r (h_data h)); [congruence|reflexivity]. }
        assert (Cn : forall d', content (put (h_data h) d' s) (h_data h) = d') by (intros d'; unfold put; cbn; now rewrite Nat.eqb_refl).
        destruct (edi_set d0 (h_edi_path h) (ve_qualifier e)) as [d' [ex|]] eqn:E; cbn [co_of co_bind run bind] in R |- *.
        { injection R as <- <-. split; [reflexivity|]. split; [auto|]. split; [reflexivity|]. exists (ve_qualifier e), (Some ex). rewrite Cn. split; [exact Iq|]. split; [exact E|]. eauto. }
        rewrite run_bind in R. destruct (run (to_app (h_data h)) (put (h_data h) d' s)) as [o1 s1] eqn:R1.
        destruct (H_app (h_data h) d' (put (h_data h) d' s) o1 s1 Hn (Cn d') R1) as (Nx & Fr & L). cbn [next put] in Nx, Fr, L.
        assert (Same1 : forall r, r < next s -> r <> h_data h -> content s1 r = content s r) by (intros r Lr Nr; rewrite Fr; [auto|exact Lr]).
        assert (Cq : exists q x0, In q (qualifiers p) /\ edi_set d0 (h_edi_path h) q = (content s1 (h_data h), x0) /\ (x0 = None \/ failed <> None \/ exists ex, o = Raised ex)).
        { exists (ve_qualifier e), None. rewrite Fr by exact Hn. rewrite Cn. auto. }
        destruct o1 as [a|ex|c1].
        + rewrite L. cbn [bind] in *. destruct (app_get a (h_non_edi_path h)) as [v|ex]; cbn [co_of co_bind run bind] in *; injection R as <- <-; (split; [exact Nx|]); (split; [auto|]); auto.
        + rewrite L. injection R as <- <-. split; [exact Nx|]. split; [auto|]. split; [reflexivity|exact Cq].
        + injection R as <- <-. split; [exact Nx|]. split; [auto|]. split; [|exact Cq]. destruct L as (mine & M & O & W). exists mine. split; [|auto].
          replace (bind match to_application d' with Ok a => app_get a (h_non_edi_path h) | Raise e1 => Raise e1 end (fun v => Ok (ve_qualifier e, v)))
            with (bind (to_application d') (fun a => bind (app_get a (h_non_edi_path h)) (fun v => Ok (ve_qualifier e, v)))) by (destruct (to_application d'); reflexivity).
          apply ends_bind; [exact W|]. intros mine1 a. apply ends_bind; [apply ends_of|]. intros mine2 v. now constructor.
      - destruct (works_run _ mine _ c K s o s' M R) as (Nx & Fr & mine' & M' & O' & L).
        assert (Free : forall r, ~ town r -> mine r = None). { intros r N. destruct (mine r) eqn:E; [|reflexivity]. destruct N. apply O. congruence. }
        split; [exact Nx|]. split; [intros r Lr _ N; apply Fr; auto|]. split.
        + destruct o as [v|ex|c']; [|exact L|].
          * destruct L as (y & Ey & [= ->]). exact Ey.
          * exists mine'. split; [exact L|]. split; [exact M'|]. intros r N. destruct (O' r N); auto.
        + destruct C as (q & y & C1 & C2 & C3). exists q, y. rewrite Fr; [tauto|exact Hn|now apply Free].
    Qed.
    (** a task that is not resumed *)
    Lemma task_other d0 h town e t s s' : task_ok d0 h town s e t -> next s <= next s' -> (forall r, r < next s -> town r -> content s' r = content s r) -> task_ok d0 h town s' e t.
    Proof.
      destruct t as [c|r|]; cbn; auto. intros [K|(mine & W & M & O)] L E; [now left|]. right. exists mine. split; [exact W|]. split; [|exact O].
      intros r d Er. destruct (M r d Er) as (Lr & Cr). split; [lia|]. rewrite E; [exact Cr|exact Lr|]. apply O. congruence.
    Qed.

    (** only the own objects are changed, and only new ones become own objects *)
    Definition frame (own : ref -> Prop) (s : store D) (own' : ref -> Prop) (s' : store D) : Prop :=
      next s <= next s'
      /\ (forall r, r < next s -> ~ own r -> content s' r = content s r)
      /\ (forall r, own' r -> own r \/ next s <= r).
    Lemma frame_same own s : frame own s own s.
    Proof. split; [lia|]. split; auto. Qed.

    Lemma expected_raise d0 h e ex : expected d0 h e = Raise ex -> value d0 h (ve_qualifier e) = Raise ex.
    Proof. unfold expected. destruct (application_value _ _ _ _ _ _ _); cbn; congruence. Qed.
    Lemma good_step own g c s g' s' : good own g s -> step p c g s = Some (g', s') -> exists own', good own' g' s' /\ frame own s own' s'.
    Proof.
      intros I H. destruct g as [co|h failed ts|r].
      - destruct c; [|discriminate]. cbn [generation_step] in H. destruct (run co s) as [o s1] eqn:R. pose proof (head_step p x own co s o s1 I R) as (Nx & Fr & K).
        destruct o as [h|e|co']; injection H as <- <-.
        + destruct K as (K & Ex & L & O). exists (fun r => r = h_data h). split.
          * exists (content s1 (h_data h)), (fun _ _ => False). split; [exact Ex|]. split; [exact K|]. split; [exact L|]. split; [reflexivity|]. split; [contradiction|]. now apply tasks_start.
          * split; [exact Nx|]. split; [exact Fr|]. intros r ->. exact O.
        + exists (fun _ => False). split; [left; exact K|]. split; [exact Nx|]. split; [exact Fr|]. intros r [].
        + destruct K as (own' & K & O). exists own'. split; [exact K|]. split; auto.
      - destruct I as (d0 & towns & Ex & Hh & Hn & Ow & Tw & T). destruct c as [|i]; cbn [generation_step] in H.
        + exists own. destruct failed as [e|].
          * injection H as <- <-. destruct (to_failed _ _ _ _ _ _ T e eq_refl) as (q & Iq & V). split; [right; exists d0, (h_data h), h, q; auto|]. apply frame_same.
          * destruct (results_of D ts) as [rs|] eqn:R; [|discriminate]. injection H as <- <-. split; [|apply frame_same].
            exists d0, (h_data h), h, rs. apply results_all in R. subst ts. repeat split; auto. pose proof (to_length _ _ _ _ _ _ T) as Len. rewrite map_length in Len.
            pose proof (to_tasks _ _ _ _ _ _ T) as F. clear - F Len. revert towns F Len. generalize (vp_pool p).
            induction rs as [|r rs IH]; intros [|e l] towns F Len; try discriminate; constructor.
            -- exact (F 0 e _ eq_refl eq_refl).
            -- apply (IH l (fun i => towns (S i))); [|now injection Len]. intros i. exact (F (S i)).
        + destruct (nth_error ts i) as [[c|r|]|] eqn:E; try discriminate.
          assert (Ee : exists e, nth_error (vp_pool p) i = Some e).
          { destruct (nth_error (vp_pool p) i) as [e|] eqn:Ne; [eauto|]. apply nth_error_None in Ne. rewrite <- (to_length _ _ _ _ _ _ T) in Ne. apply nth_error_None in Ne. congruence. }
          destruct Ee as (e & Ee). destruct (run c s) as [o s1] eqn:R.
          destruct (task_step d0 h failed ts (towns i) i e c s o s1 Ee E (to_tasks _ _ _ _ _ _ T i e _ Ee E) (to_content _ _ _ _ _ _ T) Hn) as (Nx & Fr & L & q0 & x0 & Cq & Cn & Cx); [|exact R|].
          { intros K. now destruct (to_objects _ _ _ _ _ _ T i _ K). }
          assert (s' = s1) as -> by (destruct o; congruence).
          exists (fun r => own r \/ next s <= r). split.
          2:{ split; [exact Nx|]. split; [|auto]. intros r Lr Nr. apply Fr; [exact Lr|intros ->; contradiction|]. intros K. apply Nr, (Tw i r K). }
          set (towns' := fun k r => if Nat.eqb k i then towns i r \/ next s <= r < next s1 else towns k r).
          assert (Ob : forall k r, towns' k r -> r <> h_data h /\ r < next s1).
          { intros k r. unfold towns'. destruct (Nat.eqb_spec k i) as [-> |N]; [intros [K|K]; [|lia]|intros K]; pose proof (to_objects _ _ _ _ _ _ T _ _ K); split; tauto || lia. }
          assert (Dj : forall k l r, towns' k r -> towns' l r -> k = l).
          { intros k l r. unfold towns'. destruct (Nat.eqb_spec k i) as [Ek|Nk], (Nat.eqb_spec l i) as [El|Nl]; [congruence|..].
            - intros [K|K] K'; [subst k; exact (to_disjoint _ _ _ _ _ _ T _ _ _ K K')|]. pose proof (to_objects _ _ _ _ _ _ T _ _ K'). lia.
            - intros K' [K|K]; [subst l; exact (to_disjoint _ _ _ _ _ _ T _ _ _ K' K)|]. pose proof (to_objects _ _ _ _ _ _ T _ _ K'). lia.
            - apply (to_disjoint _ _ _ _ _ _ T). }
          assert (Tw' : forall k r, towns' k r -> own r \/ next s <= r).
          { intros k r. unfold towns'. destruct (Nat.eqb_spec k i) as [-> |N]; [intros [K|K]; [|lia]|intros K]; left; exact (Tw _ _ K). }
          assert (Ts : forall t, task_ok d0 h (towns' i) s1 e t -> forall k e1 t1, nth_error (vp_pool p) k = Some e1 -> nth_error (list_set i t ts) k = Some t1 -> task_ok d0 h (towns' k) s1 e1 t1).
          { intros t Ht k e1 t1 N1 N2. rewrite list_set_nth in N2. destruct (Nat.eqb_spec i k) as [<-|N].
            - destruct (Nat.ltb i (List.length ts)); [|discriminate]. injection N2 as <-. replace e1 with e by congruence. exact Ht.
            - unfold towns'. destruct (Nat.eqb_spec k i) as [Ek|_]; [congruence|]. apply (task_other d0 h (towns k) e1 t1 s s1); [exact (to_tasks _ _ _ _ _ _ T k e1 t1 N1 N2)|exact Nx|].
              intros r Lr K. apply Fr; [exact Lr|apply (to_objects _ _ _ _ _ _ T k r K)|]. intros K'. apply N. exact (to_disjoint _ _ _ _ _ _ T _ _ _ K' K). }
          assert (Ln : forall t, List.length (list_set i t ts) = List.length (vp_pool p)) by (intros t; rewrite list_set_length; apply (to_length _ _ _ _ _ _ T)).
          destruct o as [r|ex|c']; injection H as <-; exists d0, towns'; (split; [exact Ex|]); (split; [exact Hh|]); (split; [lia|]); (split; [left; exact Ow|]); (split; [exact Tw'|]); constructor;
            try exact Ob; try exact Dj; try apply Ln.
          * left. exists q0, x0. split; [exact Cq|]. split; [exact Cn|]. destruct Cx as [Cx|[Cx|(ex & [=])]]; auto.
          * apply Ts. exact L.
          * intros E0 I0. destruct (in_list_set _ _ _ _ I0); [discriminate|now apply (to_none_failed _ _ _ _ _ _ T)].
          * apply (to_failed _ _ _ _ _ _ T).
          * left. exists q0, x0. split; [exact Cq|]. split; [exact Cn|]. right. destruct failed; discriminate.
          * apply Ts. exact Logic.I.
          * destruct failed; discriminate.
          * intros ex' Hx. destruct failed as [e0|]; [now apply (to_failed _ _ _ _ _ _ T)|]. injection Hx as <-. exists (ve_qualifier e).
            split; [apply in_map; now apply nth_error_In in Ee|]. now apply expected_raise.
          * left. exists q0, x0. split; [exact Cq|]. split; [exact Cn|]. destruct Cx as [Cx|[Cx|(ex & [=])]]; auto.
          * apply Ts. right. destruct L as (mine & W & M & O). exists mine. split; [exact W|]. split; [exact M|]. intros r N. unfold towns'. rewrite Nat.eqb_refl.
            destruct (O r N) as [K|K]; [now left|right]. split; [exact K|]. destruct (mine r) as [d|] eqn:Er; [|congruence]. now destruct (M r d Er).
          * intros E0 I0. destruct (in_list_set _ _ _ _ I0); [discriminate|now apply (to_none_failed _ _ _ _ _ _ T)].
          * apply (to_failed _ _ _ _ _ _ T).
      - destruct c; discriminate.
    Qed.
    Lemma good_start s : good (fun _ => False) (start p) s.
    Proof. rewrite start_eq. exists (fun _ => None), (to_edi app). repeat split; try discriminate; auto. Qed.
    Lemma good_steps cs : forall own g s g' s', good own g s -> steps p cs (g, s) = Some (g', s') -> exists own', good own' g' s'.
    Proof.
      induction cs as [|c cs IH]; intros own g s g' s' I H; cbn [generation_run fst snd] in H.
      - injection H as <- <-. now exists own.
      - destruct (step p c g s) as [[g1 s1]|] eqn:E; [|discriminate]. destruct (good_step own g c s g1 s1 I E) as (own1 & I1 & _). now apply (IH own1 g1 s1 g' s').
    Qed.
    (** what the function ends with *)
    Definition ended (r : result dictionary) : Prop := match r with Ok m => final m | Raise e => explained e end.
    Lemma good_end cs s r s' : steps p cs (start p, s) = Some (GDone r, s') -> ended r.
    Proof. intros H. destruct (good_steps cs _ _ _ _ _ (good_start s) H) as (own & G). destruct r; exact G. Qed.
    (** other coroutines do not disturb *)
    Lemma good_other own g s s' : good own g s -> next s <= next s' -> (forall r, r < next s -> own r -> content s' r = content s r) -> good own g s'.
    Proof.
      destruct g as [c|h failed ts|[m|e]]; cbn [good]; auto.
      - intros (mine & c0 & C & -> & M & O) L E. exists mine, c0. split; [exact C|]. split; [reflexivity|]. split; [|exact O].
        intros r d Er. destruct (M r d Er) as (Lr & Cr). split; [lia|]. rewrite E; [exact Cr|exact Lr|]. apply O. congruence.
      - intros (d0 & towns & Ex & Hh & Hn & Ow & Tw & T) L E. exists d0, towns. repeat (split; [assumption || lia|]). destruct T as [T1 T2 T3 T4 T5 T6 T7]. constructor; auto.
        + now rewrite (E _ Hn Ow).
        + intros i e t Ne Nt. apply (task_other d0 h (towns i) e t s s'); auto. intros r Lr K. apply E; eauto.
        + intros i r K. destruct (T5 i r K). split; [assumption|lia].
    Qed.

    Lemma head_ok r h : head_of p x r = Ok h -> exists d0 av iv, x = Ok d0 /\ find_path (vp_discriminator p) path_mapping = Some (h_edi_path h, h_non_edi_path h)
      /\ app_get app (h_non_edi_path h) = Ok av /\ edi_get d0 (h_edi_path h) = Ok iv /\ h_mapping h = initial_mapping iv av /\ h_data h = r.
    Proof.
      unfold head_of. intros H. apply bind_ok in H. destruct H as (d0 & Ex & H). destruct (find_path _ _) as [[path npath]|]; [|discriminate].
      apply bind_ok in H. destruct H as (av & Ea & H). apply bind_ok in H. destruct H as (iv & Ei & H). injection H as <-. exists d0, av, iv. cbn. repeat split; auto.
    Qed.
    Lemma final_unique m m' : final m -> final m' -> m = m'.
    Proof.
      intros (d0 & r & h & rs & Ex & Hh & F & ->) (d0' & r' & h' & rs' & Ex' & Hh' & F' & ->). assert (d0' = d0) as -> by congruence.
      assert (E : h_edi_path h' = h_edi_path h /\ h_non_edi_path h' = h_non_edi_path h /\ h_mapping h' = h_mapping h).
      { apply head_ok in Hh, Hh'. destruct Hh as (d & av & iv & E1 & E2 & E3 & E4 & -> & _), Hh' as (d' & av' & iv' & E1' & E2' & E3' & E4' & -> & _).
        rewrite E2 in E2'. injection E2' as E5 E6. rewrite <- E5, <- E6 in *. repeat split; congruence. }
      destruct E as (E1 & E2 & E3). rewrite E3. f_equal.
      assert (Ev : forall e, expected d0 h' e = expected d0 h e) by (intros e; unfold expected; now rewrite E1, E2).
      clear - F F' Ev. revert rs' F'. induction F as [|e r l rs Hr F IH]; intros rs' F'; inversion F' as [|e1 r1 l1 rs1 Hr' F1]; subst; [reflexivity|].
      rewrite Ev in Hr'. f_equal; [congruence|now apply IH].
    Qed.
    Lemma final_mapping m : final m -> exists d0 path npath, x = Ok d0 /\ vp_discriminator p = Some path /\ In (path, npath) path_mapping
      /\ (exists v w, edi_get d0 path = Ok v /\ app_get app npath = Ok w)
      /\ mapping_of d0 to_application edi_get edi_set app_get app path npath p m.
    Proof.
      intros (d0 & r & h & rs & Ex & Hh & F & ->). apply head_ok in Hh. destruct Hh as (d & av & iv & Ed & Fp & Ea & Ei & -> & _).
      assert (d = d0) as -> by congruence. destruct (find_path_some _ _ _ _ Fp) as (Dp & Ip).
      exists d0, (h_edi_path h), (h_non_edi_path h). split; [exact Ex|]. split; [exact Dp|]. split; [exact Ip|]. split; [exists iv, av; auto|].
      assert (Keys : forall k, In k (map fst rs) <-> In k (qualifiers p)).
      { assert (E : map fst rs = qualifiers p).
        { unfold qualifiers. clear - F. induction F as [|e r l rs H F IH]; [reflexivity|]. cbn. f_equal; [|exact IH]. unfold expected in H. apply bind_ok in H. destruct H as (v & _ & [= <-]). reflexivity. }
        intros k. now rewrite E. }
      assert (Vals : forall k v, In (k, v) rs -> value d0 h k = Ok v).
      { clear - F. induction F as [|e r l rs H F IH]; intros k v; [intros []|]. intros [-> |I]; [|now apply IH].
        unfold expected in H. apply bind_ok in H. destruct H as (w & Hw & [= <- <-]). exact Hw. }
      split; [apply update_NoDup, initial_keys|]. intros k v. rewrite (dict_get_NoDup _ k v (update_NoDup rs _ (initial_keys iv av))).
      destruct (in_dec (list_eq_dec N.eq_dec) k (map fst rs)) as [I|I].
      - assert (Iq : In k (qualifiers p)) by now apply Keys. apply in_map_iff in I. destruct I as ([k' v'] & E & I). cbn in E. subst k'. pose proof (Vals _ _ I) as V. cbv beta in V.
        rewrite (update_function rs _ k v').
        + split; [intros [= <-]; left; auto|]. intros [(_ & V')|(N & _)]; [|tauto]. f_equal. congruence.
        + intros w J. pose proof (Vals _ _ J). cbv beta in *. congruence.
        + apply in_map_iff. exists (k, v'). auto.
      - rewrite update_get, initial_get by exact I. assert (Nq : ~ In k (qualifiers p)) by now rewrite <- Keys. rewrite Ei, Ea. destruct iv as [v0|].
        + destruct (str_eqb_spec k v0) as [-> |E]; split; try discriminate.
          * intros [= <-]. right. auto.
          * intros [(J & _)|(_ & _ & [= <-])]; tauto.
          * intros [(J & _)|(_ & [= <-] & _)]; tauto.
        + split; [discriminate|]. intros [(J & _)|(_ & [=] & _)]. tauto.
    Qed.
    Lemma final_head m r : final m -> exists h, head_of p x r = Ok h.
    Proof.
      intros (d0 & r0 & h & rs & Ex & Hh & _). unfold head_of in *. destruct x as [d|]; [|discriminate]. cbn [bind] in *. destruct (find_path _ _) as [[path npath]|]; [|discriminate].
      destruct (app_get app npath); [|discriminate]. cbn [bind] in *. destruct (edi_get d path); [|discriminate]. cbn. eauto.
    Qed.
    Lemma expected_all d0 h (l : list ValuePoolEntry) rs : Forall2 (fun e r => expected d0 h e = Ok r) l rs -> forall q, In q (map ve_qualifier l) -> exists v, value d0 h q = Ok v.
    Proof.
      intros F. induction F as [|e r l rs H F IH]; intros q; [intros []|]. intros [<-|I]; [|now apply IH].
      unfold expected in H. apply bind_ok in H. destruct H as (v & Hv & _). eauto.
    Qed.
    Lemma heads_agree r h r' h' : head_of p x r = Ok h -> head_of p x r' = Ok h' -> h_edi_path h' = h_edi_path h /\ h_non_edi_path h' = h_non_edi_path h /\ h_mapping h' = h_mapping h.
    Proof.
      intros Hh Hh'. apply head_ok in Hh, Hh'. destruct Hh as (d & av & iv & E1 & E2 & E3 & E4 & -> & _), Hh' as (d' & av' & iv' & E1' & E2' & E3' & E4' & -> & _).
      rewrite E2 in E2'. injection E2' as E5 E6. rewrite <- E5, <- E6 in *. repeat split; congruence.
    Qed.
    Lemma final_not_explained m e : final m -> ~ explained e.
    Proof.
      intros Fm [(r & Hr)|(d0 & r & h & q & Ex & Hh & Iq & V)].
      - destruct (final_head m r Fm). congruence.
      - destruct Fm as (d0' & r' & h' & rs & Ex' & Hh' & F & _). assert (d0' = d0) as -> by congruence.
        destruct (expected_all d0 h' _ rs F q Iq) as (v & Hv). destruct (heads_agree r h r' h' Hh Hh') as (E1 & E2 & _). cbv beta in Hv, V. rewrite E1, E2 in Hv. congruence.
    Qed.
    Lemma final_spec m : final m -> exists d0 path npath, x = Ok d0 /\ vp_discriminator p = Some path /\ find_path (vp_discriminator p) path_mapping = Some (path, npath)
      /\ (forall q, In q (qualifiers p) -> exists v, application_value d0 to_application edi_set app_get path npath q = Ok v /\ dict_get q m = Some v).
    Proof.
      intros (d0 & r & h & rs & Ex & Hh & F & ->). pose proof (head_ok _ _ Hh) as (d & av & iv & Ed & Fp & _). destruct (find_path_some _ _ _ _ Fp) as (Dp & Ip).
      exists d0, (h_edi_path h), (h_non_edi_path h). repeat (split; [assumption|]). intros q Iq. destruct (expected_all d0 h _ rs F q Iq) as (v & Hv). exists v. split; [exact Hv|].
      apply update_function.
      - intros v' I. clear Iq. assert (value d0 h q = Ok v'); [|cbv beta in *; congruence]. clear Hv Hh. revert I. induction F as [|e r0 l rs H F IH]; [intros []|]. intros [-> |I]; [|now apply IH].
        unfold expected in H. apply bind_ok in H. destruct H as (w & Hw & [= <- <-]). exact Hw.
      - assert (E : map fst rs = qualifiers p).
        { unfold qualifiers. clear - F. induction F as [|e r l rs H F IH]; [reflexivity|]. cbn. f_equal; [|exact IH]. unfold expected in H. apply bind_ok in H. destruct H as (v & _ & [= <-]). reflexivity. }
        now rewrite E.
    Qed.
    Lemma explained_spec e : explained e -> x = Raise e \/ exists d0, x = Ok d0 /\ reason_to_raise d0 to_application edi_get edi_set app_get app path_mapping p e.
    Proof.
      intros [(r & Hr)|(d0 & r & h & q & Ex & Hh & Iq & V)].
      - unfold head_of in Hr. destruct x as [d0|e0] eqn:Ex; cbn [bind] in Hr; [|left; congruence]. right. exists d0. split; [reflexivity|].
        destruct (find_path (vp_discriminator p) path_mapping) as [[path npath]|] eqn:Fp.
        + right. destruct (find_path_some _ _ _ _ Fp) as (Dp & Ip). exists path, npath. split; [exact Dp|]. split; [exact Ip|].
          destruct (app_get app npath) as [av|e1]; cbn [bind] in Hr; [|left; congruence]. destruct (edi_get d0 path) as [iv|e1]; cbn [bind] in Hr; [discriminate|]. right. left. congruence.
        + left. split; [congruence|]. now apply find_path_none.
      - right. exists d0. split; [exact Ex|]. right. apply head_ok in Hh. destruct Hh as (d & av & iv & Ed & Fp & _). destruct (find_path_some _ _ _ _ Fp) as (Dp & Ip).
        exists (h_edi_path h), (h_non_edi_path h). split; [exact Dp|]. split; [exact Ip|]. right. right. exists q. auto.
    Qed.
    (** the object created by the conversion *)
    Definition left_with (n0 : nat) (old : ref -> D) (g : generation D) (s : store D) : Prop :=
      n0 <= next s /\ (forall r, r < n0 -> content s r = old r)
      /\ match g with
         | GHead _ => True
         | GGather h _ _ => n0 <= h_data h
         | GDone (Ok m) => exists d0 path npath r, x = Ok d0 /\ find_path (vp_discriminator p) path_mapping = Some (path, npath) /\ n0 <= r < next s
                           /\ (vp_pool p <> [] -> exists q, In q (qualifiers p) /\ edi_set d0 path q = (content s r, None))
         | GDone (Raise _) => True
         end.
    Lemma left_step n0 old own g c s g' s' : good own g s -> (forall r, own r -> n0 <= r) -> left_with n0 old g s -> step p c g s = Some (g', s') ->
      left_with n0 old g' s' /\ exists own', good own' g' s' /\ forall r, own' r -> n0 <= r.
    Proof.
      intros G On (L & O & T) H. destruct (good_step own g c s g' s' G H) as (own' & G' & Fn & Fo & Fnew).
      assert (On' : forall r, own' r -> n0 <= r) by (intros r Hr; destruct (Fnew r Hr) as [K|K]; [auto|lia]).
      split; [|exists own'; auto]. split; [lia|]. split.
      - intros r Lr. rewrite Fo; [now apply O|lia|]. intros Hr. specialize (On r Hr). lia.
      - destruct g' as [|h' f' ts'|[m|e]]; auto.
        + destruct G' as (d0 & towns & _ & _ & _ & Ow & _). auto.
        + destruct g as [co|h f ts|r0]; [| |destruct c; discriminate].
          { destruct c; [|discriminate]. cbn [generation_step] in H. destruct (run co s) as [[h|e|co'] s1]; discriminate. }
          destruct c as [|i]; cbn [generation_step] in H.
          2:{ destruct (nth_error ts i) as [[c0|r0|]|]; try discriminate. destruct (run c0 s) as [[r1|e|c1] s1]; discriminate. }
          destruct f as [e|]; [discriminate|]. destruct (results_of D ts) as [rs|] eqn:R; [|discriminate].
          assert (s' = s) as -> by congruence. clear H. destruct G as (d0 & towns & Ex & Hh & Hn & _ & _ & T0). pose proof (to_content _ _ _ _ _ _ T0) as C. pose proof (to_length _ _ _ _ _ _ T0) as F. pose proof (head_ok _ _ Hh) as (d & av & iv & Ed & Fp & _).
          exists d0, (h_edi_path h), (h_non_edi_path h), (h_data h). split; [exact Ex|]. split; [exact Fp|]. split; [lia|]. intros Np.
          destruct C as [(q & y & Iq & C & [-> |Cx])|[_ C]]; [exists q; auto|congruence|]. exfalso. apply results_all in R. subst ts. destruct rs as [|r rs]; [destruct (vp_pool p); [now destruct Np|discriminate]|].
          inversion C as [|? ? ? ? U]; subst. discriminate.
    Qed.
    Lemma left_steps n0 old cs : forall own g s g' s', good own g s -> (forall r, own r -> n0 <= r) -> left_with n0 old g s -> steps p cs (g, s) = Some (g', s') -> left_with n0 old g' s'.
    Proof.
      induction cs as [|c cs IH]; intros own g s g' s' G On I H; cbn [generation_run fst snd] in H.
      - now injection H as <- <-.
      - destruct (step p c g s) as [[g1 s1]|] eqn:E; [|discriminate]. destruct (left_step n0 old own g c s g1 s1 G On I E) as (I1 & own1 & G1 & On1).
        now apply (IH own1 g1 s1 g' s').
    Qed.
  End WellBehaved.
End Generation.
