(** C64-C67: replacing the qualifiers of value pools by the values of the application. *)
From Coq Require Import Ascii String List NArith ZArith Bool Lia Arith.
From Verif Require Import PyBase PyStr PyRe M_Components M_Ahb M_Transformation L_Base S_Text S_FlatAhb S_DeepAhb L_DeepAhb S_ValuePool L_ValuePool C_DeepAhb
  S_Transformation L_Coroutines L_Generation L_Positions L_Transformation L_Race.
Import ListNotations.
Local Open Scope list_scope.

(** no infinite run *)
Definition endless {X} (R : X -> X -> Prop) (x : X) : Prop := exists f : nat -> X, f 0 = x /\ forall n, R (f n) (f (S n)).
Lemma acc_not_endless {X} (R : X -> X -> Prop) (x : X) : Acc (fun y x => R x y) x -> ~ endless R x.
Proof.
  intros Hx. induction Hx as [x _ IH]. intros (f & <- & H). apply (IH (f 1) (H 0)). exists (fun n => f (S n)). auto.
Qed.

Section Generation.
  Context {D A : Type}.
  Variable to_edi : A -> co D ref.
  Variable to_app : ref -> co D A.
  Variable edi_get : D -> pystr -> result (option pystr).
  Variable edi_set : D -> pystr -> pystr -> D * option exn.
  Variable app_get : A -> pystr -> result (option pystr).
  Variable application : A.
  Variable path_mapping : list (pystr * pystr).
  Notation step := (generation_step D A to_app edi_set app_get).
  Notation generation_run := (generation_run D A to_app edi_set app_get).
  Notation start_generation := (start_generation D A to_edi edi_get app_get application path_mapping).

  (** * C64 generate_value_pool_replacement does not depend on the schedule *)
  Theorem C64_mapping initial to_application p s schedule m s' :
    creates initial (to_edi application) -> reads_before_suspending to_application to_app -> overwrites edi_set ->
    generation_run p schedule (start_generation p, s) = Some (GDone (Ok m), s') ->
    exists d path npath, initial = Ok d /\ vp_discriminator p = Some path /\ In (path, npath) path_mapping
      /\ (forall q, In q (qualifiers p) -> exists v, application_value d to_application edi_set app_get path npath q = Ok v)
      /\ mapping_of d to_application edi_get edi_set app_get application path npath p m.
  Proof.
    intros Hc Hr Ho H. apply good_end with (x := initial) (to_application := to_application) in H; [|assumption..]. cbn in H.
    destruct (final_mapping _ _ _ _ _ _ _ _ _ H) as (d & path & npath & E & Dp & Ip & _ & M). exists d, path, npath. repeat (split; [assumption|]).
    split; [|exact M]. destruct M as (_ & M). intros q Iq. destruct (final_spec edi_get edi_set app_get application path_mapping initial to_application p m H) as (d1 & path1 & npath1 & E1 & Dp1 & Fp & V).
    destruct (V q Iq) as (v & Hv & Gv). apply dict_get_In in Gv. apply M in Gv. destruct Gv as [(_ & Gv)|(N & _)]; [eauto|tauto].
  Qed.
  Theorem C64_exceptions initial to_application p s schedule e s' :
    creates initial (to_edi application) -> reads_before_suspending to_application to_app -> overwrites edi_set ->
    generation_run p schedule (start_generation p, s) = Some (GDone (Raise e), s') ->
    initial = Raise e
    \/ exists d, initial = Ok d /\ reason_to_raise d to_application edi_get edi_set app_get application path_mapping p e.
  Proof.
    intros Hc Hr Ho H. apply good_end with (x := initial) (to_application := to_application) in H; [|assumption..]. cbn in H. now apply (explained_spec to_edi edi_get edi_set app_get application path_mapping initial Hc to_application).
  Qed.
  (** if one schedule gives a mapping then all give the same, also if they start with other objects around *)
  Theorem C64_same_for_all_schedules initial to_application p s1 s2 schedule1 schedule2 m r s1' s2' :
    creates initial (to_edi application) -> reads_before_suspending to_application to_app -> overwrites edi_set ->
    generation_run p schedule1 (start_generation p, s1) = Some (GDone (Ok m), s1') ->
    generation_run p schedule2 (start_generation p, s2) = Some (GDone r, s2') ->
    r = Ok m.
  Proof.
    intros Hc Hr Ho H1 H2.
    apply good_end with (x := initial) (to_application := to_application) in H1; [|assumption..].
    apply good_end with (x := initial) (to_application := to_application) in H2; [|assumption..]. cbn in H1, H2.
    destruct r as [m'|e]; [f_equal; symmetry; eapply final_unique; eassumption|]. destruct (final_not_explained to_edi _ _ _ _ _ _ Hc _ _ _ _ H1 H2).
  Qed.
  (** the EDIFACT data created by the conversion is left with a qualifier of the pool; other objects are not changed *)
  Theorem C64_data_left_modified initial to_application p s schedule m s' :
    creates initial (to_edi application) -> reads_before_suspending to_application to_app -> overwrites edi_set ->
    generation_run p schedule (start_generation p, s) = Some (GDone (Ok m), s') ->
    (forall r, r < next s -> content s' r = content s r)
    /\ exists d path npath r, initial = Ok d /\ vp_discriminator p = Some path /\ In (path, npath) path_mapping /\ next s <= r < next s'
       /\ (vp_pool p <> [] -> exists q, In q (qualifiers p) /\ edi_set d path q = (content s' r, None)).
  Proof.
    intros Hc Hr Ho H. pose proof (good_start to_edi to_app edi_get edi_set app_get application path_mapping initial Hc to_application p s) as G.
    assert (L : left_with edi_set path_mapping initial p (next s) (content s) (start_generation p) s) by (split; [lia|]; split; auto; exact I).
    apply (left_steps to_app edi_get edi_set app_get application path_mapping initial to_application Hr Ho p _ _ _ _ _ _ _ _ G (fun _ F => False_ind _ F) L) in H.
    destruct H as (_ & O & d & path & npath & r & E & Fp & B & C). split; [exact O|]. destruct (find_path_some _ _ _ _ Fp) as (Dp & Ip). exists d, path, npath, r. auto.
  Qed.

  (** * C66 the shape of a replacement, for arbitrary conversions back *)
  Theorem C66_keys initial p s schedule m s' :
    creates initial (to_edi application) ->
    generation_run p schedule (start_generation p, s) = Some (GDone (Ok m), s') ->
    exists d path npath edi_value non_edi_value, initial = Ok d /\ vp_discriminator p = Some path /\ In (path, npath) path_mapping
      /\ edi_get d path = Ok edi_value /\ app_get application npath = Ok non_edi_value
      /\ NoDup (map fst m)
      /\ (forall k, In k (map fst m) <-> In k (qualifiers p) \/ edi_value = Some k)
      /\ (forall k, edi_value = Some k -> ~ In k (qualifiers p) -> In (k, non_edi_value) m).
  Proof.
    intros Hc H. pose proof (shaped_start to_edi edi_get app_get application path_mapping p initial Hc s) as G.
    apply (shaped_steps to_app edi_get edi_set app_get application path_mapping p initial _ _ _ _ _ G) in H. cbn in H. destruct H as (r & h & Hh & rs & Ks & ->).
    destruct (head_ok edi_get app_get application path_mapping initial p r h Hh) as (d & av & iv & Ed & Fp & Ea & Ei & -> & _).
    destruct (find_path_some _ _ _ _ Fp) as (Dp & Ip). exists d, (h_edi_path h), (h_non_edi_path h), iv, av. repeat (split; [assumption|]).
    split; [apply update_NoDup, initial_keys|]. split.
    - intros k. rewrite update_keys, Ks. assert (E : In k (map fst (initial_mapping iv av)) <-> iv = Some k); [|tauto].
      destruct iv as [v|]; cbn; [|intuition discriminate]. split; [intros [-> |[]]; reflexivity|]. intros [= ->]. now left.
    - intros k -> N. apply dict_get_In. rewrite update_get, initial_get by now rewrite Ks. now rewrite str_eqb_refl.
  Qed.
  Theorem C66_no_mapping initial p s schedule r s' :
    creates initial (to_edi application) ->
    (forall path npath, vp_discriminator p = Some path -> ~ In (path, npath) path_mapping) ->
    generation_run p schedule (start_generation p, s) = Some (GDone r, s') ->
    r = match initial with Ok _ => Raise ValueError | Raise e => Raise e end.
  Proof.
    intros Hc N H. apply find_path_none in N.
    assert (Hd : forall r0, head_of edi_get app_get application path_mapping p initial r0 = match initial with Ok _ => Raise ValueError | Raise e => Raise e end).
    { intros r0. unfold head_of. rewrite N. destruct initial; reflexivity. }
    assert (Q : forall cs g s0 g' s1, match g with GHead c => exists own, in_head edi_get app_get application path_mapping p initial own c s0 | GGather _ _ _ => False | GDone r => r = match initial with Ok _ => Raise ValueError | Raise e => Raise e end end ->
              generation_run p cs (g, s0) = Some (g', s1) ->
              match g' with GHead c => exists own, in_head edi_get app_get application path_mapping p initial own c s1 | GGather _ _ _ => False | GDone r => r = match initial with Ok _ => Raise ValueError | Raise e => Raise e end end).
    { intros cs. induction cs as [|c cs IH]; intros g s0 g' s1 I R; cbn [M_Transformation.generation_run fst snd] in R; [now injection R as <- <-|].
      destruct (step p c g s0) as [[g1 s2]|] eqn:E; [|discriminate]. apply (IH g1 s2 g' s1); [|exact R]. destruct g as [co|h f ts|r0]; [|destruct I|destruct c; discriminate].
      destruct c; [|discriminate]. cbn [generation_step] in E. destruct (run co s0) as [o s3] eqn:Ro. destruct I as (own & I).
      pose proof (head_step edi_get app_get application path_mapping p initial own co s0 o s3 I Ro) as (_ & _ & K).
      destruct o as [h|e|co']; injection E as <- <-.
      - destruct K as (K & _). rewrite Hd in K. destruct initial; discriminate.
      - destruct K as (r0 & K). rewrite Hd in K. destruct initial; congruence.
      - destruct K as (own' & K & _). eauto. }
    refine (Q schedule _ s (GDone r) s' _ H). rewrite start_eq. exists (fun _ => False). exists (fun _ => None), (to_edi application). repeat split; try discriminate; auto.
  Qed.
  (** no deadlock: as long as there is no result, some coroutine can be resumed, and there is a way to a result *)
  Theorem C66_progress p s schedule g s' :
    generation_run p schedule (start_generation p, s) = Some (g, s') ->
    (forall r, g <> GDone r) -> exists c st, step p c g s' = Some st.
  Proof.
    intros H N. apply (sound_progress to_app edi_set app_get p g s'); [|exact N]. apply (sound_steps to_app edi_set app_get p schedule (start_generation p) s g s'); [|exact H]. exact I.
  Qed.
  (** no livelock *)
  Theorem C66_every_schedule_ends p g s :
    ~ endless (fun st st' => exists c, step p c (fst st) (snd st) = Some st') (g, s).
  Proof.
    apply acc_not_endless. revert s. induction (generation_acc to_app edi_set app_get g) as [g _ IH]. intros s. constructor. intros [g' s'] (c & H). apply IH. exists p, c, s, s'. exact H.
  Qed.
  Theorem C66_a_result_can_be_reached p s schedule g s' :
    generation_run p schedule (start_generation p, s) = Some (g, s') ->
    exists more r s'', generation_run p (schedule ++ more) (start_generation p, s) = Some (GDone r, s'').
  Proof.
    assert (Ap : forall a b st, generation_run p (a ++ b) st = match generation_run p a st with Some st' => generation_run p b st' | None => None end).
    { intros a. induction a as [|c a IH]; intros b st; cbn; [reflexivity|]. destruct (step p c (fst st) (snd st)); auto. }
    intros H. assert (Sd : sound p g) by (apply (sound_steps to_app edi_set app_get p schedule (start_generation p) s g s'); [exact Logic.I|exact H]).
    assert (K : exists more r s'', generation_run p more (g, s') = Some (GDone r, s'')).
    { clear H. revert s' Sd. induction (generation_acc to_app edi_set app_get g) as [g _ IH]. intros s' Sd. destruct g as [co|h f ts|r]; [| |exists [], r, s'; reflexivity].
      all: destruct (sound_progress to_app edi_set app_get p _ s' Sd) as (c & [g1 s1] & E); [discriminate|];
           destruct (IH g1 (ex_intro _ p (ex_intro _ c (ex_intro _ s' (ex_intro _ s1 E)))) s1 (sound_step _ _ _ _ _ _ _ _ _ Sd E)) as (more & r & s'' & R);
           exists (c :: more), r, s''; cbn [M_Transformation.generation_run fst snd]; rewrite E; exact R. }
    destruct K as (more & r & s'' & K). exists more, r, s''. now rewrite Ap, H.
  Qed.
End Generation.
Print Assumptions C64_mapping.
Print Assumptions C64_exceptions.
Print Assumptions C64_same_for_all_schedules.
Print Assumptions C64_data_left_modified.
Print Assumptions C66_keys.
Print Assumptions C66_no_mapping.
Print Assumptions C66_progress.
Print Assumptions C66_every_schedule_ends.
Print Assumptions C66_a_result_can_be_reached.

(** * Examples: data that are dictionaries *)
Definition ex_data := list (pystr * pystr).
Definition ex_get (d : ex_data) (path : pystr) : result (option pystr) := Ok (dict_get path d).
Definition ex_set (d : ex_data) (path value : pystr) : ex_data * option exn := (dict_set path value d, None).
(** the application has other keys and values *)
Definition ex_to_application (d : ex_data) : result ex_data := Ok (map (fun x => (u "app." ++ fst x, u "Z" ++ snd x)) d).
Definition ex_to_edi : ex_data -> co ex_data ref :=
  fun a => CYield (CNew (map (fun x => (skipn 4 (fst x), skipn 1 (snd x))) a) (fun r => CRet r)).
(** reads, then suspends itself *)
Definition ex_early : ref -> co ex_data ex_data := fun r => CRead r (fun d => CYield (co_of (ex_to_application d))).
Lemma ex_creates a : creates (Ok (map (fun x => (skipn 4 (fst x), skipn 1 (snd x))) a)) (ex_to_edi a).
Proof. apply works_later, works_creating. intros r _. apply works_returning. unfold with_object. now rewrite Nat.eqb_refl. Qed.
Lemma ex_reads : reads_before_suspending ex_to_application ex_early.
Proof.
  intros r d s o s' L E R. cbn [ex_early run] in R. rewrite E in R. injection R as <- <-. split; [reflexivity|]. split; [auto|].
  exists (fun _ => None). split; [discriminate|]. split; [congruence|]. now constructor.
Qed.
Lemma ex_overwrites : overwrites ex_set.
Proof.
  intros d path v d' x0 [= <- <-] w. unfold ex_set. f_equal. induction d as [|[k x] d IH]; cbn; [now rewrite str_eqb_refl|].
  destruct (str_eqb_spec path k) as [-> |N]; cbn; [now rewrite str_eqb_refl|]. destruct (str_eqb_spec path k) as [-> |_]; [tauto|]. now rewrite IH.
Qed.
Definition ex_application : ex_data := [(u "app.$[a]", u "ZA1"); (u "app.$[b]", u "ZB9")].
Definition ex_paths : list (pystr * pystr) := [(u "$[a]", u "app.$[a]"); (u "$[b]", u "app.$[b]")].
Definition ex_pool2 : ValuePool := mkPool (Some (u "$[b]")) (u "3035") None None
  [mkEntry (u "B1") (u "first") (u "X"); mkEntry (u "B2") (u "second") (u "X"); mkEntry (u "B3") (u "third") (u "X")].
Definition ex_store : store ex_data := mkStore ex_data (fun _ => []) 0.
Definition ex_start (p : ValuePool) := start_generation ex_data ex_data ex_to_edi ex_get ex_get ex_application ex_paths p.
Example C64_example :
  let m := [(u "B9", Some (u "ZB9")); (u "B1", Some (u "ZB1")); (u "B2", Some (u "ZB2")); (u "B3", Some (u "ZB3"))] in
  option_map fst (generation_run _ _ ex_early ex_set ex_get ex_pool2 [Outer; Outer; Inner 0; Inner 0; Inner 1; Inner 2; Inner 2; Inner 1; Outer] (ex_start ex_pool2, ex_store)) = Some (GDone (Ok m))
  /\ option_map fst (generation_run _ _ ex_early ex_set ex_get ex_pool2 [Outer; Outer; Inner 2; Inner 1; Inner 0; Inner 0; Inner 1; Inner 2; Outer] (ex_start ex_pool2, ex_store)) = Some (GDone (Ok m)).
Proof. vm_compute. auto. Qed.

(** a converter that builds its data step by step: it creates an empty object, suspends itself, then writes one entry after
    the other into it, suspends itself after each of them, and looks at its object again before it returns it *)
Definition ex_entry (x : pystr * pystr) : pystr * pystr := (skipn 4 (fst x), skipn 1 (snd x)).
Fixpoint ex_fill (r : ref) (a : ex_data) : co ex_data ref :=
  match a with
  | [] => CRead r (fun d => if existsb (fun x => str_eqb (snd x) []) d then CRaise ValueError else CRet r)
  | x :: a' => CRead r (fun d => CWrite r (d ++ [ex_entry x]) (CYield (ex_fill r a')))
  end.
Definition ex_slow_to_edi : ex_data -> co ex_data ref := fun a => CNew [] (fun r => CYield (ex_fill r a)).
Lemma ex_fill_works r a : forall mine d, mine r = Some d ->
  works (fun mine r => mine r) mine (if existsb (fun x => str_eqb (snd x) []) (d ++ map ex_entry a) then Raise ValueError else Ok (d ++ map ex_entry a)) (ex_fill r a).
Proof.
  induction a as [|x a IH]; intros mine d E; cbn [ex_fill map]; (eapply works_reading; [exact E|]).
  - rewrite app_nil_r. destruct (existsb _ d); [apply works_raising|now apply works_returning].
  - eapply works_writing; [exact E|]. apply works_later. specialize (IH (with_object mine r (d ++ [ex_entry x])) (d ++ [ex_entry x])).
    rewrite <- app_assoc in IH. apply IH. unfold with_object. now rewrite Nat.eqb_refl.
Qed.
Lemma ex_slow_creates a :
  creates (if existsb (fun x => str_eqb (snd x) []) (map ex_entry a) then Raise ValueError else Ok (map ex_entry a)) (ex_slow_to_edi a).
Proof.
  apply works_creating. intros r _. apply works_later. apply (ex_fill_works r a _ []). unfold with_object. now rewrite Nat.eqb_refl.
Qed.
(** a converter back that makes a copy of the EDIFACT data before it suspends itself, and then works on this copy *)
Definition ex_copying : ref -> co ex_data ex_data := fun r =>
  CRead r (fun d => CNew d (fun copy => CYield (CRead copy (fun d' => CWrite copy [] (CYield (co_of (ex_to_application d'))))))).
Lemma ex_copying_reads : reads_before_suspending ex_to_application ex_copying.
Proof.
  intros r d s o s' L E R. cbn [ex_copying run] in R. rewrite E in R. injection R as <- <-. cbn [next content]. split; [apply Nat.le_succ_diag_r|]. split.
  - intros r' L'. unfold put. cbn. destruct (Nat.eqb_spec r' (next s)) as [-> |N]; [now apply Nat.lt_irrefl in L'|reflexivity].
  - exists (with_object (fun _ => None) (next s) d). split; [|split].
    + intros r' d'. unfold with_object, put. cbn. destruct (Nat.eqb_spec r' (next s)) as [-> |N]; [|discriminate]. intros [= <-]. split; [apply Nat.lt_succ_diag_r|reflexivity].
    + intros r'. unfold with_object. destruct (Nat.eqb_spec r' (next s)) as [-> |N]; [reflexivity|congruence].
    + apply works_reading with (d := d); [unfold with_object; now rewrite Nat.eqb_refl|].
      apply works_writing with (d := d); [unfold with_object; now rewrite Nat.eqb_refl|]. apply works_later. now constructor.
Qed.
Example C64_step_by_step_example :
  let m := [(u "B9", Some (u "ZB9")); (u "B1", Some (u "ZB1")); (u "B2", Some (u "ZB2")); (u "B3", Some (u "ZB3"))] in
  let begin := start_generation ex_data ex_data ex_slow_to_edi ex_get ex_get ex_application ex_paths ex_pool2 in
  option_map fst (generation_run _ _ ex_early ex_set ex_get ex_pool2 [Outer; Outer; Outer; Outer; Inner 2; Inner 1; Inner 0; Inner 0; Inner 1; Inner 2; Outer] (begin, ex_store)) = Some (GDone (Ok m))
  /\ option_map fst (generation_run _ _ ex_copying ex_set ex_get ex_pool2 [Outer; Outer; Outer; Outer; Inner 2; Inner 1; Inner 0; Inner 0; Inner 2; Inner 1; Inner 2; Inner 1; Inner 0; Outer] (begin, ex_store)) = Some (GDone (Ok m)).
Proof. vm_compute. auto. Qed.

(** * C65 with a converter that suspends itself before it reads *)
(** Under the schedule of asyncio (the tasks start in the order of the pool and go on in the same order)
    every qualifier is mapped to the value of the last one, for every pool. *)
Theorem C65_all_get_the_value_of_the_last {D A} edi_get edi_set app_get (application : A) path_mapping to_application (d : D) p s path npath edi_value non_edi_value pool e v :
  overwrites edi_set -> NoDup (map fst path_mapping) ->
  vp_pool p = pool ++ [e] -> vp_discriminator p = Some path -> In (path, npath) path_mapping ->
  edi_get d path = Ok edi_value -> app_get application npath = Ok non_edi_value ->
  (forall q, In q (qualifiers p) -> exists d', edi_set d path q = (d', None)) ->
  application_value d to_application edi_set app_get path npath (ve_qualifier e) = Ok v ->
  let round := map Inner (seq 0 (List.length (vp_pool p))) in
  exists m s',
    generation_run D A (fun r => CYield (CRead r (fun d => co_of (to_application d)))) edi_set app_get p (Outer :: round ++ round ++ [Outer])
      (start_generation D A (fun _ => CNew d (fun r => CRet r)) edi_get app_get application path_mapping p, s) = Some (GDone (Ok m), s')
    /\ forall k w, In (k, w) m <-> (In k (qualifiers p) /\ w = v) \/ (~ In k (qualifiers p) /\ edi_value = Some k /\ w = non_edi_value).
Proof.
  intros Ho ND Ep Dp Ip Ei Ea Es Ev round.
  assert (Fp : find_path (vp_discriminator p) path_mapping = Some (path, npath)).
  { rewrite Dp. clear - ND Ip. induction path_mapping as [|[a b] l IH]; [destruct Ip|]. cbn [find_path]. destruct (ostr_eqb (Some a) (Some path)) eqn:E.
    - apply ostr_eqb_eq in E. injection E as ->. destruct Ip as [[= ->]|I]; [reflexivity|]. inversion ND as [|? ? N _]; subst. destruct N. apply in_map_iff. exists (path, npath). auto.
    - destruct Ip as [[= -> ->]|I]; [|inversion ND; subst; now apply IH]. assert (ostr_eqb (Some path) (Some path) = true) by now apply ostr_eqb_eq. congruence. }
  destruct (race edi_get edi_set app_get application path_mapping to_application d Ho p s path npath edi_value non_edi_value pool e v Ep Fp Ei Ea Es Ev) as (s' & R).
  eexists. exists s'. split; [exact R|]. intros k w.
  assert (Keys : map fst (map (fun q => (q, v)) (qualifiers p)) = qualifiers p) by (rewrite map_map; apply map_id).
  rewrite (dict_get_NoDup _ k w (update_NoDup _ _ (initial_keys edi_value non_edi_value))).
  destruct (in_dec (list_eq_dec N.eq_dec) k (qualifiers p)) as [I|I].
  - rewrite (update_function _ _ k v).
    + split; [intros [= <-]; auto|]. intros [(_ & ->)|(N & _)]; [reflexivity|tauto].
    + intros v' J. apply in_map_iff in J. destruct J as (q & [= _ <-] & _). reflexivity.
    + now rewrite Keys.
  - rewrite update_get, initial_get by now rewrite Keys. destruct edi_value as [v0|].
    + destruct (str_eqb_spec k v0) as [-> |E]; split; try discriminate.
      * intros [= <-]. auto.
      * intros [(J & _)|(_ & _ & ->)]; tauto.
      * intros [(J & _)|(_ & [= <-] & _)]; tauto.
    + split; [discriminate|]. intros [(J & _)|(_ & [=] & _)]. tauto.
Qed.
(** a coroutine that ends with [x] and changes nothing if nothing else runs in between *)
Inductive alone {D X} (s : store D) (x : result X) : co D X -> Prop :=
| alone_returns c v : run c s = (Returned v, s) -> x = Ok v -> alone s x c
| alone_raises c e : run c s = (Raised e, s) -> x = Raise e -> alone s x c
| alone_suspends c c' : run c s = (Suspended c', s) -> alone s x c' -> alone s x c.
(** so the claim of C64 is false for converters that are only known to be correct when they are alone *)
Theorem C65_every_converter_refuted :
  ~ (forall (to_app : ref -> co ex_data ex_data) p schedule m s,
       (forall r s, alone s (ex_to_application (content s r)) (to_app r)) ->
       generation_run _ _ to_app ex_set ex_get p schedule (ex_start p, ex_store) = Some (GDone (Ok m), s) ->
       exists path npath, vp_discriminator p = Some path /\ In (path, npath) ex_paths
         /\ mapping_of (map (fun x => (skipn 4 (fst x), skipn 1 (snd x))) ex_application) ex_to_application ex_get ex_set ex_get ex_application path npath p m).
Proof.
  intros H. set (late := fun r : ref => CYield (CRead r (fun d => co_of (ex_to_application d)))).
  set (p := mkPool (Some (u "$[b]")) (u "3035") None None [mkEntry (u "B1") (u "first") (u "X"); mkEntry (u "B2") (u "second") (u "X")]).
  set (sch := [Outer; Outer; Inner 0; Inner 1; Inner 0; Inner 1; Outer]).
  destruct (generation_run _ _ late ex_set ex_get p sch (ex_start p, ex_store)) as [[g s]|] eqn:R; [|vm_compute in R; discriminate].
  assert (G : g = GDone (Ok [(u "B9", Some (u "ZB9")); (u "B1", Some (u "ZB2")); (u "B2", Some (u "ZB2"))])).
  { assert (E : option_map fst (generation_run _ _ late ex_set ex_get p sch (ex_start p, ex_store)) = Some g) by now rewrite R. vm_compute in E. vm_compute. congruence. }
  subst g. assert (Al : forall r s0, alone s0 (ex_to_application (content s0 r)) (late r)).
  { intros r s0. eapply alone_suspends; [reflexivity|]. eapply alone_returns; reflexivity. }
  destruct (H late p sch _ s Al R) as (path & npath & Dp & Ip & _ & M).
  assert (path = u "$[b]") as -> by (vm_compute in Dp; vm_compute; congruence).
  assert (npath = u "app.$[b]") as -> by (destruct Ip as [E|[E|[]]]; [vm_compute in E; discriminate|vm_compute in E; vm_compute; congruence]).
  pose proof (proj1 (M (u "B1") (Some (u "ZB2"))) ltac:(cbn; auto)) as [(_ & M1)|(N & _)]; [vm_compute in M1; discriminate|]. apply N. cbn. auto.
Qed.
Print Assumptions C65_all_get_the_value_of_the_last.
Print Assumptions C65_every_converter_refuted.
Example C65_example :
  let late := fun r : ref => CYield (CRead r (fun d => co_of (ex_to_application d))) in
  option_map fst (generation_run _ _ late ex_set ex_get ex_pool2 [Outer; Outer; Inner 0; Inner 1; Inner 2; Inner 0; Inner 1; Inner 2; Outer] (ex_start ex_pool2, ex_store))
  = Some (GDone (Ok [(u "B9", Some (u "ZB9")); (u "B1", Some (u "ZB3")); (u "B2", Some (u "ZB3")); (u "B3", Some (u "ZB3"))]))
  (* the same converter with a schedule that lets every task finish before the next one starts *)
  /\ option_map fst (generation_run _ _ late ex_set ex_get ex_pool2 [Outer; Outer; Inner 0; Inner 0; Inner 1; Inner 1; Inner 2; Inner 2; Outer] (ex_start ex_pool2, ex_store))
  = Some (GDone (Ok [(u "B9", Some (u "ZB9")); (u "B1", Some (u "ZB1")); (u "B2", Some (u "ZB2")); (u "B3", Some (u "ZB3"))])).
Proof. vm_compute. auto. Qed.
(** C66: the hypotheses and both outcomes occur *)
Example C66_example :
  option_map fst (generation_run _ _ ex_early ex_set ex_get (mkPool (Some (u "$[c]")) (u "3035") None None []) [Outer; Outer] (ex_start (mkPool (Some (u "$[c]")) (u "3035") None None []), ex_store))
  = Some (GDone (Raise ValueError))
  /\ option_map fst (generation_run _ _ ex_early ex_set ex_get (mkPool (Some (u "$[a]")) (u "3035") None None [mkEntry (u "A1") (u "m") (u "X")]) [Outer; Outer; Inner 0; Inner 0; Outer]
       (ex_start (mkPool (Some (u "$[a]")) (u "3035") None None [mkEntry (u "A1") (u "m") (u "X")]), ex_store))
  = Some (GDone (Ok [(u "A1", Some (u "ZA1"))])).
Proof. vm_compute. auto. Qed.

(** * C67 transform_all_value_pools *)
Section Transformation.
  Context {D A : Type}.
  Variable to_edi : A -> co D ref.
  Variable to_app : ref -> co D A.
  Variable edi_get : D -> pystr -> result (option pystr).
  Variable edi_set : D -> pystr -> pystr -> D * option exn.
  Variable app_get : A -> pystr -> result (option pystr).
  Variable application : A.
  Variable path_mapping : list (pystr * pystr).
  Notation tstep := (transformation_step D A to_app edi_set app_get).
  Notation transformation_run := (transformation_run D A to_app edi_set app_get).
  Notation start_transformation := (start_transformation D A to_edi edi_get app_get application path_mapping).
  Notation transformation_result := (transformation_result D).

  Lemma chosen_spec a : (forall p, In p (map snd (chosen a)) <-> In p (get_all_value_pools a) /\ relevant p).
  Proof.
    intros p. rewrite <- value_pools_at_values. unfold chosen. rewrite !in_map_iff. split.
    - intros ([pos p'] & E & I). cbn in E. subst p'. apply filter_In in I. destruct I as (I & R). split; [exists (pos, p); auto|]. now apply is_relevant_spec.
    - intros (([pos p'] & E & I) & R). cbn in E. subst p'. exists (pos, p). split; [reflexivity|]. apply filter_In. split; [exact I|]. now apply is_relevant_spec.
  Qed.
  Lemma last_dec (pool : list ValuePoolEntry) i e : nth_error pool i = Some e ->
    last_of_its_qualifier pool i \/ exists j f, i < j /\ nth_error pool j = Some f /\ ve_qualifier f = ve_qualifier e.
  Proof.
    intros N. unfold last_of_its_qualifier.
    assert (K : forall n, (forall j f, i < j -> j < n -> nth_error pool j = Some f -> ve_qualifier f <> ve_qualifier e) \/ exists j f, i < j /\ nth_error pool j = Some f /\ ve_qualifier f = ve_qualifier e).
    { induction n as [|n [IH|IH]]; [left; intros; lia| |auto]. destruct (nth_error pool n) as [f|] eqn:Nn.
      - destruct (list_eq_dec N.eq_dec (ve_qualifier f) (ve_qualifier e)) as [E|E].
        + destruct (Nat.lt_ge_cases i n) as [L|L]; [right; eauto|]. left. intros j f' L1 L2. lia.
        + left. intros j f' L1 L2 Nj. destruct (Nat.eq_dec j n) as [-> |Nj']; [congruence|]. apply (IH j f'); [exact L1|lia|exact Nj].
      - left. intros j f' L1 L2 Nj. destruct (Nat.eq_dec j n) as [-> |Nj']; [congruence|]. apply (IH j f'); [exact L1|lia|exact Nj]. }
    destruct (K (List.length pool)) as [L|R]; [left|auto]. intros e' j f Ne Lj Nj. assert (e' = e) as -> by congruence. apply (L j f Lj); [|exact Nj]. apply nth_error_Some. congruence.
  Qed.
  (** replace_value_pool with such a mapping *)
  Lemma replaced_spec initial to_application p m p' : final edi_get edi_set app_get application path_mapping initial to_application p m -> replace_value_pool m None p = (p', None) ->
    exists d path npath, initial = Ok d /\ vp_discriminator p = Some path /\ In (path, npath) path_mapping
      /\ renamed_entries (application_value d to_application edi_set app_get path npath) p p'.
  Proof.
    intros F R. apply (final_spec edi_get edi_set app_get application path_mapping initial to_application p m) in F. destruct F as (d & path & npath & E & Dp & Fp & V).
    destruct (find_path_some _ _ _ _ Fp) as (_ & Ip). exists d, path, npath. repeat (split; [assumption|]).
    apply replace_value_pool_spec in R as (H1 & H2 & H3 & H4 & HL & HV & P). repeat (split; [assumption|]). intros i e Ne. destruct (P i e Ne) as (e' & Ne' & Pl & Pn).
    assert (Ie : In e (vp_pool p)) by now apply nth_error_In in Ne. destruct (V (ve_qualifier e)) as (v & Av & Gv); [now apply in_map|].
    specialize (HV e Ie). unfold valid_image in HV. rewrite Gv in HV. destruct v as [v|]; [|destruct HV]. exists e', v. split; [exact Ne'|]. split; [exact Av|]. split.
    - intros L. assert (Le : last_of_its_qualifier (vp_pool p) i) by (intros e0 j f N0; assert (e0 = e) as -> by congruence; apply L).
      specialize (Pl Le). unfold renamed in Pl. rewrite Gv in Pl. exact Pl.
    - intros j f L Nj Ef. apply Pn. intros Le. exact (Le e j f Ne L Nj Ef).
  Qed.
  Lemma replaced_raises initial to_application p m p' e : final edi_get edi_set app_get application path_mapping initial to_application p m -> replace_value_pool m None p = (p', Some e) ->
    exists d path npath q v, initial = Ok d /\ vp_discriminator p = Some path /\ In (path, npath) path_mapping
      /\ e = ValueError /\ In q (qualifiers p) /\ application_value d to_application edi_set app_get path npath q = Ok v /\ (forall v', v = Some v' -> ~ accepted_qualifier v').
  Proof.
    intros F R. apply (final_spec edi_get edi_set app_get application path_mapping initial to_application p m) in F. destruct F as (d & path & npath & E & Dp & Fp & V).
    destruct (find_path_some _ _ _ _ Fp) as (_ & Ip). apply replace_value_pool_spec in R as (_ & _ & _ & _ & _ & Ee & t1 & q & t2 & Fo & _ & NV & _).
    assert (Iq : In q (qualifiers p)) by (apply (proj1 (proj2 Fo)); apply in_app_iff; right; now left). destruct (V q Iq) as (v & Av & Gv).
    exists d, path, npath, q, v. repeat (split; [assumption|]). unfold valid_image in NV. rewrite Gv in NV. intros v' ->. exact NV.
  Qed.

  (** For every AHB there are positions, one for each relevant pool that get_all_value_pools finds, such
      that for every schedule, at every moment: the AHB has the same shape as before, all data elements
      at other positions are unchanged, and at those positions is either still the old pool or its
      replacement. *)
  Theorem C67_at_every_moment a :
    exists positions : list (position * ValuePool),
      (forall p, In p (map snd positions) <-> In p (get_all_value_pools a) /\ relevant p)
      /\ (forall pos p, In (pos, p) positions -> element_at a pos (DPool p))
      /\ forall initial to_application s schedule w,
           creates initial (to_edi application) -> reads_before_suspending to_application to_app -> overwrites edi_set ->
           transformation_run schedule (start_transformation a s) = Some w ->
           ahbs_related (fun _ _ => True) eq a (w_ahb D w)
           /\ (forall pos d, ~ In pos (map fst positions) -> (element_at (w_ahb D w) pos d <-> element_at a pos d))
           /\ (forall pos p, In (pos, p) positions ->
                 element_at (w_ahb D w) pos (DPool p)
                 \/ exists d path npath m, initial = Ok d /\ vp_discriminator p = Some path /\ In (path, npath) path_mapping
                      /\ mapping_of d to_application edi_get edi_set app_get application path npath p m
                      /\ element_at (w_ahb D w) pos (DPool (fst (replace_value_pool m None p)))).
  Proof.
    exists (chosen a). split; [apply chosen_spec|]. split; [intros pos p I; apply lookup_spec; now apply chosen_in|].
    intros initial to_application s schedule w Hc Hr Ho H.
    apply (ok_reached to_edi to_app edi_get edi_set app_get application path_mapping initial Hc to_application Hr Ho) in H. destruct H as (owns & H). split; [apply H|]. split.
    - intros pos d N. rewrite !lookup_spec. now rewrite (ok_rest _ _ _ _ _ _ _ _ _ _ _ H pos N).
    - intros pos p I. rewrite <- (ok_jobs _ _ _ _ _ _ _ _ _ _ _ H) in I. apply in_map_iff in I. destruct I as (j & [= <- <-] & I). apply In_nth_error in I. destruct I as (i & N).
      pose proof (ok_element _ _ _ _ _ _ _ _ _ _ _ H i j N) as E. unfold job_element in E. destruct (j_state D j) as [g|y g] eqn:Ej; [left; now apply lookup_spec|].
      destruct E as [(m & F & E & _)|(e & _ & _ & E)]; [right|left; now apply lookup_spec]. destruct (final_mapping _ _ _ _ _ _ _ _ _ F) as (d & path & npath & E1 & E2 & E3 & _ & E4).
      exists d, path, npath, m. repeat (split; [assumption|]). now apply lookup_spec.
  Qed.
  (** ... and when transform_all_value_pools returns, all those pools have been replaced; when it raises, there is a pool that explains the exception *)
  Theorem C67_result a :
    exists positions : list (position * ValuePool),
      (forall p, In p (map snd positions) <-> In p (get_all_value_pools a) /\ relevant p)
      /\ (forall pos p, In (pos, p) positions -> element_at a pos (DPool p))
      /\ forall initial to_application s schedule w,
           creates initial (to_edi application) -> reads_before_suspending to_application to_app -> overwrites edi_set ->
           transformation_run schedule (start_transformation a s) = Some w ->
           (transformation_result w = Some (Ok tt) ->
              ahbs_related (fun _ _ => True) eq a (w_ahb D w)
              /\ (forall pos d, ~ In pos (map fst positions) -> (element_at (w_ahb D w) pos d <-> element_at a pos d))
              /\ (forall pos p, In (pos, p) positions ->
                    exists d path npath p', initial = Ok d /\ vp_discriminator p = Some path /\ In (path, npath) path_mapping
                      /\ element_at (w_ahb D w) pos (DPool p')
                      /\ renamed_entries (application_value d to_application edi_set app_get path npath) p p'))
           /\ (forall e, transformation_result w = Some (Raise e) ->
                 exists pos p, In (pos, p) positions
                   /\ (initial = Raise e
                       \/ (exists d, initial = Ok d /\ reason_to_raise d to_application edi_get edi_set app_get application path_mapping p e)
                       \/ (exists d path npath q v, initial = Ok d /\ vp_discriminator p = Some path /\ In (path, npath) path_mapping
                             /\ e = ValueError /\ In q (qualifiers p) /\ application_value d to_application edi_set app_get path npath q = Ok v
                             /\ (forall v', v = Some v' -> ~ accepted_qualifier v')))).
  Proof.
    exists (chosen a). split; [apply chosen_spec|]. split; [intros pos p I; apply lookup_spec; now apply chosen_in|].
    intros initial to_application s schedule w Hc Hr Ho H.
    apply (ok_reached to_edi to_app edi_get edi_set app_get application path_mapping initial Hc to_application Hr Ho) in H. destruct H as (owns & H).
    pose proof (ok_failed _ _ _ _ _ _ _ _ _ _ _ H) as Fl. unfold M_Transformation.transformation_result. split.
    - intros R. destruct (w_failed D w) as [e|]; [discriminate|]. destruct (forallb _ _) eqn:Fa; [|discriminate]. rewrite forallb_forall in Fa. split; [apply H|]. split.
      + intros pos d N. rewrite !lookup_spec. now rewrite (ok_rest _ _ _ _ _ _ _ _ _ _ _ H pos N).
      + intros pos p I. rewrite <- (ok_jobs _ _ _ _ _ _ _ _ _ _ _ H) in I. apply in_map_iff in I. destruct I as (j & [= <- <-] & I). specialize (Fa j I). pose proof (fun e => Fl j e I) as Fj.
        apply In_nth_error in I. destruct I as (i & N). pose proof (ok_element _ _ _ _ _ _ _ _ _ _ _ H i j N) as E. unfold job_element in E. destruct (j_state D j) as [g|y g] eqn:Ej; [discriminate|].
        destruct E as [(m & F & E & Ey)|(e & -> & _)]; [|destruct (Fj e); exists g; exact Ej]. destruct (replace_value_pool m None (j_pool D j)) as [p' x'] eqn:Rp. cbn [fst snd] in *. subst y.
        destruct x' as [e|]; [destruct (Fj e); exists g; exact Ej|]. destruct (replaced_spec initial to_application (j_pool D j) m p' F Rp) as (d & path & npath & E1 & E2 & E3 & E4).
        exists d, path, npath, p'. repeat (split; [assumption|]). split; [now apply lookup_spec|exact E4].
    - intros e R. destruct (w_failed D w) as [e0|]; [|destruct (forallb _ _); discriminate]. injection R as <-. destruct Fl as (j & I & g & Ej).
      exists (j_position D j), (j_pool D j). split; [rewrite <- (ok_jobs _ _ _ _ _ _ _ _ _ _ _ H); apply in_map_iff; exists j; auto|].
      apply In_nth_error in I. destruct I as (i & N). pose proof (ok_element _ _ _ _ _ _ _ _ _ _ _ H i j N) as E. unfold job_element in E. rewrite Ej in E.
      destruct E as [(m & F & _ & Ey)|(e1 & [= <-] & Ex & _)].
      + right. right. destruct (replace_value_pool m None (j_pool D j)) as [p' x'] eqn:Rp. cbn in Ey. subst x'. now apply (replaced_raises initial to_application (j_pool D j) m p' e0 F).
      + destruct (explained_spec to_edi edi_get edi_set app_get application path_mapping initial Hc to_application (j_pool D j) e0 Ex) as [X|X]; auto.
  Qed.
  (** the AHB after a successful transformation does not depend on the schedule *)
  Theorem C67_same_for_all_schedules a initial to_application s1 s2 schedule1 schedule2 w1 w2 :
    creates initial (to_edi application) -> reads_before_suspending to_application to_app -> overwrites edi_set ->
    transformation_run schedule1 (start_transformation a s1) = Some w1 -> transformation_result w1 = Some (Ok tt) ->
    transformation_run schedule2 (start_transformation a s2) = Some w2 -> transformation_result w2 = Some (Ok tt) ->
    w_ahb D w1 = w_ahb D w2.
  Proof.
    intros Hc Hr Ho H1 R1 H2 R2.
    apply (ok_reached to_edi to_app edi_get edi_set app_get application path_mapping initial Hc to_application Hr Ho) in H1. destruct H1 as (owns1 & H1).
    apply (ok_reached to_edi to_app edi_get edi_set app_get application path_mapping initial Hc to_application Hr Ho) in H2. destruct H2 as (owns2 & H2).
    assert (K : forall w owns, world_ok to_app edi_get edi_set app_get application path_mapping initial to_application a owns w -> transformation_result w = Some (Ok tt) ->
              forall pos p, In (pos, p) (chosen a) -> exists m, final edi_get edi_set app_get application path_mapping initial to_application p m
                /\ lookup (w_ahb D w) pos = Some (DPool (fst (replace_value_pool m None p)))).
    { intros w owns W R pos p I. pose proof (ok_failed _ _ _ _ _ _ _ _ _ _ _ W) as Fl. unfold M_Transformation.transformation_result in R. destruct (w_failed D w) as [e|]; [discriminate|].
      destruct (forallb _ _) eqn:Fa; [|discriminate]. rewrite forallb_forall in Fa. rewrite <- (ok_jobs _ _ _ _ _ _ _ _ _ _ _ W) in I. apply in_map_iff in I. destruct I as (j & [= <- <-] & I).
      specialize (Fa j I). pose proof (fun e => Fl j e I) as Fj. apply In_nth_error in I. destruct I as (i & N). pose proof (ok_element _ _ _ _ _ _ _ _ _ _ _ W i j N) as E. unfold job_element in E.
      destruct (j_state D j) as [g|y g] eqn:Ej; [discriminate|]. destruct E as [(m & F & E & _)|(e & -> & _)]; [|destruct (Fj e); exists g; exact Ej]. eauto. }
    apply (ahb_determined a); [apply H1|apply H2|]. intros pos. destruct (in_dec pos_eq_dec pos (map fst (chosen a))) as [I|N].
    - apply in_map_iff in I. destruct I as ([pos' p] & E & I). cbn in E. subst pos'. destruct (K w1 owns1 H1 R1 pos p I) as (m1 & F1 & ->), (K w2 owns2 H2 R2 pos p I) as (m2 & F2 & ->).
      now rewrite (final_unique _ _ _ _ _ _ _ _ _ _ F1 F2).
    - now rewrite (ok_rest _ _ _ _ _ _ _ _ _ _ _ H1 pos N), (ok_rest _ _ _ _ _ _ _ _ _ _ _ H2 pos N).
  Qed.
  (** ... and when everything has run, including what goes on after an exception, the AHB does not
      depend on the schedule either, nor does it depend on the schedule whether an exception has been raised *)
  Theorem C67_same_in_the_end a initial to_application s1 s2 schedule1 schedule2 w1 w2 :
    creates initial (to_edi application) -> reads_before_suspending to_application to_app -> overwrites edi_set ->
    transformation_run schedule1 (start_transformation a s1) = Some w1 -> (forall i c, tstep i c w1 = None) ->
    transformation_run schedule2 (start_transformation a s2) = Some w2 -> (forall i c, tstep i c w2 = None) ->
    w_ahb D w1 = w_ahb D w2 /\ (transformation_result w1 = Some (Ok tt) <-> transformation_result w2 = Some (Ok tt)).
  Proof.
    intros Hc Hr Ho H1 E1 H2 E2.
    assert (Q : forall s schedule w, transformation_run schedule (start_transformation a s) = Some w -> (forall i c, tstep i c w = None) ->
      (exists owns, world_ok to_app edi_get edi_set app_get application path_mapping initial to_application a owns w) /\ forall j, In j (w_jobs D w) -> exists x g, j_state D j = JDone D x g).
    { intros s schedule w H E. split.
      - exact (ok_reached to_edi to_app edi_get edi_set app_get application path_mapping initial Hc to_application Hr Ho _ _ _ _ H).
      - pose proof (sound_start to_edi edi_get app_get application path_mapping a s) as S0. apply (sound_world_steps to_app edi_set app_get schedule _ _ S0) in H.
        destruct (world_progress to_app edi_set app_get w H) as [K|(i & c & w' & K)]; [exact K|]. rewrite E in K. discriminate. }
    destruct (Q s1 schedule1 w1 H1 E1) as ((owns1 & W1) & D1), (Q s2 schedule2 w2 H2 E2) as ((owns2 & W2) & D2). clear Q H1 H2 E1 E2.
    (* what has happened to a pool *)
    assert (K : forall w owns, world_ok to_app edi_get edi_set app_get application path_mapping initial to_application a owns w -> (forall j, In j (w_jobs D w) -> exists x g, j_state D j = JDone D x g) ->
              forall pos p, In (pos, p) (chosen a) -> exists j y g, In j (w_jobs D w) /\ j_state D j = JDone D y g
                /\ ((exists m, final edi_get edi_set app_get application path_mapping initial to_application p m
                      /\ lookup (w_ahb D w) pos = Some (DPool (fst (replace_value_pool m None p))) /\ y = snd (replace_value_pool m None p))
                    \/ (exists e, y = Some e /\ explained edi_get edi_set app_get application path_mapping initial to_application p e /\ lookup (w_ahb D w) pos = Some (DPool p)))).
    { intros w owns W Dn pos p I. rewrite <- (ok_jobs _ _ _ _ _ _ _ _ _ _ _ W) in I. apply in_map_iff in I. destruct I as (j & [= <- <-] & I). destruct (Dn j I) as (y & g & Ej).
      exists j, y, g. split; [exact I|]. split; [exact Ej|]. apply In_nth_error in I. destruct I as (i & N). pose proof (ok_element _ _ _ _ _ _ _ _ _ _ _ W i j N) as E. unfold job_element in E.
      rewrite Ej in E. exact E. }
    (* both times the same *)
    assert (Same : forall pos p, In (pos, p) (chosen a) -> lookup (w_ahb D w1) pos = lookup (w_ahb D w2) pos).
    { intros pos p I. destruct (K w1 owns1 W1 D1 pos p I) as (j1 & y1 & g1 & I1 & Ej1 & C1), (K w2 owns2 W2 D2 pos p I) as (j2 & y2 & g2 & I2 & Ej2 & C2).
      destruct C1 as [(m1 & F1 & -> & Y1)|(e1 & Y1 & X1 & ->)], C2 as [(m2 & F2 & -> & Y2)|(e2 & Y2 & X2 & ->)].
      - now rewrite (final_unique _ _ _ _ _ _ _ _ _ _ F1 F2).
      - exfalso. eapply final_not_explained; eassumption.
      - exfalso. eapply final_not_explained; eassumption.
      - reflexivity. }
    assert (Res : forall w owns, world_ok to_app edi_get edi_set app_get application path_mapping initial to_application a owns w -> (forall j, In j (w_jobs D w) -> exists x g, j_state D j = JDone D x g) ->
              (transformation_result w = Some (Ok tt) <-> forall pos p, In (pos, p) (chosen a) ->
                 exists m, final edi_get edi_set app_get application path_mapping initial to_application p m /\ snd (replace_value_pool m None p) = None)).
    { intros w owns W Dn. pose proof (ok_failed _ _ _ _ _ _ _ _ _ _ _ W) as Fl. unfold M_Transformation.transformation_result. destruct (w_failed D w) as [e|].
      - split; [discriminate|]. intros All. exfalso. destruct Fl as (j & I & g & Ej). apply In_nth_error in I as I'. destruct I' as (i & N).
        pose proof (ok_element _ _ _ _ _ _ _ _ _ _ _ W i j N) as E. unfold job_element in E. rewrite Ej in E.
        destruct (All (j_position D j) (j_pool D j)) as (m & F & Y); [rewrite <- (ok_jobs _ _ _ _ _ _ _ _ _ _ _ W); apply in_map_iff; exists j; auto|].
        destruct E as [(m' & F' & _ & Y')|(e' & _ & X & _)]; [|eapply final_not_explained; eassumption]. rewrite (final_unique _ _ _ _ _ _ _ _ _ _ F' F), Y in Y'. discriminate.
      - replace (forallb _ _) with true.
        2:{ symmetry. apply forallb_forall. intros j I. destruct (Dn j I) as (y & g & ->). reflexivity. }
        split; [|reflexivity]. intros _ pos p I. destruct (K w owns W Dn pos p I) as (j & y & g & Ij & Ej & C). destruct y as [e|]; [destruct (Fl j e Ij); exists g; exact Ej|].
        destruct C as [(m & F & _ & Y)|(e & [=] & _)]. exists m. split; [exact F|now symmetry]. }
    split.
    - apply (ahb_determined a); [apply W1|apply W2|]. intros pos. destruct (in_dec pos_eq_dec pos (map fst (chosen a))) as [I|N].
      + apply in_map_iff in I. destruct I as ([pos' p] & E & I). cbn in E. subst pos'. now apply (Same pos p).
      + now rewrite (ok_rest _ _ _ _ _ _ _ _ _ _ _ W1 pos N), (ok_rest _ _ _ _ _ _ _ _ _ _ _ W2 pos N).
    - now rewrite (Res w1 owns1 W1 D1), (Res w2 owns2 W2 D2).
  Qed.
  (** if no two pools have the same discriminator, then all relevant pools are replaced *)
  Theorem C67_all_relevant_pools a initial to_application s schedule w :
    creates initial (to_edi application) -> reads_before_suspending to_application to_app -> overwrites edi_set ->
    (forall pos1 pos2 p1 p2, element_at a pos1 (DPool p1) -> element_at a pos2 (DPool p2) -> vp_discriminator p1 = vp_discriminator p2 -> pos1 = pos2) ->
    transformation_run schedule (start_transformation a s) = Some w -> transformation_result w = Some (Ok tt) ->
    forall pos e, element_at a pos e ->
      (forall p, e = DPool p -> relevant p -> exists d path npath p', initial = Ok d /\ vp_discriminator p = Some path /\ In (path, npath) path_mapping
          /\ element_at (w_ahb D w) pos (DPool p') /\ renamed_entries (application_value d to_application edi_set app_get path npath) p p')
      /\ ((forall p, e = DPool p -> ~ relevant p) -> element_at (w_ahb D w) pos e).
  Proof.
    intros Hc Hr Ho U H R pos e E. destruct (C67_result a) as (positions & P1 & P2 & P3). destruct (P3 initial to_application s schedule w Hc Hr Ho H) as (P & _). destruct (P R) as (_ & Po & Pr). split.
    - intros p -> Rel. assert (Pp : pool_of a p).
      { destruct pos as [[path sg] i]. destruct E as (g & l & segment & G & L & N & N'). exists segment. split; [|now apply nth_error_In in N']. exists g. split; [|exists l; split; [exact L|now apply nth_error_In in N]].
        clear - G. unfold group_of. induction G as [gs i g N|gs i g l path h N L G IH].
        - exists g. split; [now apply nth_error_In in N|constructor].
        - destruct IH as (k & I & J). exists g. split; [now apply nth_error_In in N|]. clear - J L I. induction J as [|h1 k1 l1 J IH L1 I1]; [eapply inside_child; eassumption|]. eapply inside_deeper; eassumption. }
      destruct (C28_one_pool_per_discriminator a) as (C1 & C2 & _). destruct (C2 p Pp) as (p' & I' & Ed).
      assert (Rel' : relevant p') by (destruct Rel as (d0 & Ed0 & Rest); exists d0; split; [congruence|exact Rest]).
      assert (I : In p' (map snd positions)) by now apply P1. apply in_map_iff in I. destruct I as ([pos' p2] & E2 & I). cbn in E2. subst p2.
      assert (pos' = pos) as -> by (apply (U pos' pos p' p); auto). assert (p' = p) as ->.
      { pose proof (P2 _ _ I) as E'. apply lookup_spec in E, E'. congruence. }
      exact (Pr pos p I).
    - intros N. apply Po; [|exact E]. intros I. apply in_map_iff in I. destruct I as ([pos' p] & E2 & I). cbn in E2. subst pos'. pose proof (P2 _ _ I) as E'. apply lookup_spec in E, E'.
      apply (N p); [congruence|]. apply P1. apply in_map_iff. exists (pos, p). auto.
  Qed.
  (** no deadlock and no livelock, for arbitrary converters *)
  Theorem C67_progress a s schedule w :
    transformation_run schedule (start_transformation a s) = Some w ->
    transformation_result w <> None \/ exists i c w', tstep i c w = Some w'.
  Proof.
    intros H. pose proof (sound_start to_edi edi_get app_get application path_mapping a s) as S0.
    apply (sound_world_steps to_app edi_set app_get schedule _ _ S0) in H. destruct (world_progress to_app edi_set app_get w H) as [K|K]; [left|now right].
    unfold M_Transformation.transformation_result. destruct (w_failed D w); [discriminate|]. replace (forallb _ _) with true; [discriminate|]. symmetry. apply forallb_forall.
    intros j I. destruct (K j I) as (x & g & ->). reflexivity.
  Qed.
  Theorem C67_every_schedule_ends w : ~ endless (fun w w' => exists i c, tstep i c w = Some w') w.
  Proof. apply acc_not_endless. apply (world_acc to_app edi_set app_get). Qed.
End Transformation.
Print Assumptions C67_at_every_moment.
Print Assumptions C67_result.
Print Assumptions C67_same_for_all_schedules.
Print Assumptions C67_same_in_the_end.
Print Assumptions C67_all_relevant_pools.
Print Assumptions C67_progress.
Print Assumptions C67_every_schedule_ends.
Definition ex_ahb : DeepAhb :=
  let pool d qs := DPool (mkPool (Some d) (u "3035") None None (map (fun q => mkEntry q (u "m") (u "X")) qs)) in
  let segment es := mkSegment (u "s") (u "X") None es None None in
  mkDeep (mkMeta (u "11042") None None None)
    [mkGroup (u "g") (u "X") None (Some [segment [pool (u "$[a]") [u "A1"; u "A2"]; DFree (mkFreeText (Some (u "$[a]")) (u "1") None None (u "X")); pool (u "$[Absender]") [u "A1"]]])
       (Some [mkGroup (u "h") (u "X") None (Some [segment [pool (u "c") [u "A1"]; pool (u "$[b]") [u "B1"; u "B2"; u "B3"]]]) None])].
Example C67_example :
  let schedule := [(1, Outer); (0, Outer); (1, Outer); (0, Outer); (0, Inner 2); (1, Inner 1); (1, Inner 0); (0, Inner 0); (0, Inner 0); (1, Inner 1);
                   (0, Inner 1); (0, Inner 2); (0, Inner 1); (1, Inner 0); (0, Outer); (1, Outer)] in
  let w := transformation_run _ _ ex_early ex_set ex_get schedule (start_transformation _ _ ex_to_edi ex_get ex_get ex_application ex_paths ex_ahb ex_store) in
  option_map (fun w => (map (fun p => map ve_qualifier (vp_pool p)) (get_all_value_pools (w_ahb _ w)), transformation_result _ w)) w
  = Some ([[u "A1"]; [u "ZB1"; u "ZB2"; u "ZB3"]; [u "ZA1"; u "ZA2"]; [u "A1"]], Some (Ok tt)).
Proof. vm_compute. reflexivity. Qed.
(** ... and when the two conversions to EDIFACT data build their objects at the same time *)
Example C67_step_by_step_example :
  let schedule := [(1, Outer); (0, Outer); (1, Outer); (0, Outer); (0, Outer); (1, Outer); (0, Outer); (1, Outer); (0, Inner 2); (1, Inner 1); (1, Inner 0); (0, Inner 0); (0, Inner 0); (1, Inner 1);
                   (0, Inner 1); (0, Inner 2); (0, Inner 1); (1, Inner 0); (0, Outer); (1, Outer)] in
  let w := transformation_run _ _ ex_early ex_set ex_get schedule (start_transformation _ _ ex_slow_to_edi ex_get ex_get ex_application ex_paths ex_ahb ex_store) in
  option_map (fun w => (map (fun p => map ve_qualifier (vp_pool p)) (get_all_value_pools (w_ahb _ w)), transformation_result _ w)) w
  = Some ([[u "A1"]; [u "ZB1"; u "ZB2"; u "ZB3"]; [u "ZA1"; u "ZA2"]; [u "A1"]], Some (Ok tt)).
Proof. vm_compute. reflexivity. Qed.
(** a qualifier that the EDIFACT data do not accept (the accessor notices it when the value has been set): its pool stays as
    it is, the tasks for the other qualifiers are left behind and go on, and the other pool is replaced *)
Definition ex_strict_set (d : ex_data) (path value : pystr) : ex_data * option exn :=
  (dict_set path value d, if str_eqb value (u "B2") then Some ValueError else None).
Lemma ex_strict_overwrites : overwrites ex_strict_set.
Proof. intros d path v d' x0 [= <- _] w. unfold ex_strict_set. f_equal. pose proof (ex_overwrites d path v _ None eq_refl w) as E. now injection E. Qed.
Example C67_same_in_the_end_example :
  let schedule := [(0, Outer); (0, Outer); (0, Inner 0); (0, Inner 1); (0, Outer); (0, Inner 2); (0, Inner 0); (1, Outer); (1, Outer); (1, Inner 0); (0, Inner 2); (1, Inner 1); (1, Inner 0); (1, Inner 1); (1, Outer)] in
  exists w, transformation_run _ _ ex_early ex_strict_set ex_get schedule (start_transformation _ _ ex_to_edi ex_get ex_get ex_application ex_paths ex_ahb ex_store) = Some w
    /\ (forall i c, transformation_step _ _ ex_early ex_strict_set ex_get i c w = None)
    /\ transformation_result _ w = Some (Raise ValueError)
    /\ map (fun p => map ve_qualifier (vp_pool p)) (get_all_value_pools (w_ahb _ w)) = [[u "A1"]; [u "B1"; u "B2"; u "B3"]; [u "ZA1"; u "ZA2"]; [u "A1"]].
Proof.
  intros schedule. eexists. split; [vm_compute; reflexivity|]. split; [|split; vm_compute; reflexivity].
  intros [|[|[|i]]] [|[|[|[|[|k]]]]]; reflexivity.
Qed.

