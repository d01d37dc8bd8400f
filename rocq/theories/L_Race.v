(** Lemmas for C65: converters that suspend themselves before they read. *)
From Coq Require Import Ascii String List NArith ZArith Bool Lia Arith.
From Verif Require Import PyBase PyStr PyRe M_Components M_Ahb M_Transformation L_Base S_DeepAhb L_ValuePool S_Transformation L_Coroutines L_Generation.
Import ListNotations.
Local Open Scope list_scope.

Section Race.
  Context {D A : Type}.
  Variable edi_get : D -> pystr -> result (option pystr).
  Variable edi_set : D -> pystr -> pystr -> D * option exn.
  Variable app_get : A -> pystr -> result (option pystr).
  Variable application : A.
  Variable path_mapping : list (pystr * pystr).
  Variable to_application : D -> result A.
  Variable d0 : D.
  Definition created : A -> co D ref := fun _ => CNew d0 (fun r => CRet r).
  Definition late : ref -> co D A := fun r => CYield (CRead r (fun d => co_of (to_application d))).
  Notation step := (generation_step D A late edi_set app_get).
  Notation steps := (generation_run D A late edi_set app_get).
  Notation entry_task := (get_value_pool_mapping D A late edi_set app_get).
  Hypothesis H_set : overwrites edi_set.

  Lemma steps_app p a : forall b st, steps p (a ++ b) st = match steps p a st with Some st' => steps p b st' | None => None end.
  Proof. induction a as [|c a IH]; intros b st; cbn; [reflexivity|]. destruct (step p c (fst st) (snd st)); auto. Qed.

  (** the part of the task after the suspension *)
  Definition resumed (h : head) (e : ValuePoolEntry) : co D (pystr * option pystr) :=
    co_bind (CRead (h_data h) (fun d => co_of (to_application d))) (fun a =>
      co_bind (co_of (app_get a (h_non_edi_path h))) (fun v => CRet (ve_qualifier e, v))).
  Lemma first_part h e s d : edi_set (content s (h_data h)) (h_edi_path h) (ve_qualifier e) = (d, None) ->
    run (entry_task h e) s = (Suspended (resumed h e), put (h_data h) d s).
  Proof. intros E. unfold get_value_pool_mapping. cbn [run]. rewrite E. reflexivity. Qed.
  Lemma second_part h e s a v : to_application (content s (h_data h)) = Ok a -> app_get a (h_non_edi_path h) = Ok v ->
    run (resumed h e) s = (Returned (ve_qualifier e, v), s).
  Proof. intros E1 E2. unfold resumed. cbn [co_bind run]. rewrite E1. cbn [co_of co_bind run]. rewrite E2. reflexivity. Qed.

  Lemma set_middle {X Y} (f : X -> Y) l x y r : list_set (List.length l) y (map f l ++ x :: r) = map f l ++ y :: r.
  Proof. induction l as [|z l IH]; cbn; [reflexivity|]. now rewrite IH. Qed.
  Lemma nth_middle {X Y} (f : X -> Y) l x r : nth_error (map f l ++ x :: r) (List.length l) = Some x.
  Proof. induction l as [|z l IH]; cbn; [reflexivity|exact IH]. Qed.

  (** in the first round every task sets its qualifier and suspends itself *)
  Lemma first_round p h l : forall done s,
    (content s (h_data h) = d0 \/ exists q, edi_set d0 (h_edi_path h) q = (content s (h_data h), None)) ->
    (forall e, In e l -> exists d, edi_set d0 (h_edi_path h) (ve_qualifier e) = (d, None)) ->
    exists s', steps p (map Inner (seq (List.length done) (List.length l)))
                     (GGather h None (map (fun e => TRun (resumed h e)) done ++ map (fun e => TRun (entry_task h e)) l), s)
               = Some (GGather h None (map (fun e => TRun (resumed h e)) (done ++ l)), s')
      /\ forall e r, l = r ++ [e] -> edi_set d0 (h_edi_path h) (ve_qualifier e) = (content s' (h_data h), None).
  Proof.
    induction l as [|e l IH]; intros done s C Ok_.
    - exists s. cbn. rewrite !app_nil_r. split; [reflexivity|]. intros e [|y r]; discriminate.
    - cbn [List.length seq map generation_run fst snd generation_step].
      rewrite nth_middle.
      assert (Same : forall w, edi_set (content s (h_data h)) (h_edi_path h) w = edi_set d0 (h_edi_path h) w).
      { intros w. destruct C as [-> |(q & E)]; [reflexivity|]. now apply (H_set d0 (h_edi_path h) q _ None). }
      destruct (Ok_ e (or_introl eq_refl)) as (d & Ed). rewrite (first_part h e s d) by now rewrite Same.
      rewrite set_middle.
      assert (Cd : content (put (h_data h) d s) (h_data h) = d) by (unfold put; cbn; now rewrite Nat.eqb_refl).
      destruct (IH (done ++ [e]) (put (h_data h) d s)) as (s' & R & L).
      { right. exists (ve_qualifier e). now rewrite Cd. } { intros e' I. apply Ok_. now right. }
      rewrite app_length, Nat.add_1_r, map_app, <- !app_assoc in R. cbn [map app] in R. exists s'. split; [exact R|]. intros e' [|y r] E; cbn in E; injection E as E1 E2.
      + subst. cbn in R. injection R as _ <-. now rewrite Cd.
      + now apply (L e' r).
  Qed.
  (** in the second round every task finds what the last one has set *)
  Lemma second_round p h v l : forall rs s,
    (forall a, to_application (content s (h_data h)) = Ok a -> app_get a (h_non_edi_path h) = Ok v) -> (exists a, to_application (content s (h_data h)) = Ok a) ->
    steps p (map Inner (seq (List.length rs) (List.length l))) (GGather h None (map TDone rs ++ map (fun e => TRun (resumed h e)) l), s)
    = Some (GGather h None (map TDone (rs ++ map (fun e => (ve_qualifier e, v)) l)), s).
  Proof.
    induction l as [|e l IH]; intros rs s V (a & Ea).
    - cbn. now rewrite !app_nil_r.
    - cbn [List.length seq map generation_run fst snd generation_step].
      rewrite nth_middle.
      rewrite (second_part h e s a v Ea (V a Ea)). rewrite set_middle.
      specialize (IH (rs ++ [(ve_qualifier e, v)]) s V (ex_intro _ a Ea)). rewrite app_length, Nat.add_1_r, map_app, <- !app_assoc in IH. cbn [map app] in IH. exact IH.
  Qed.

  Lemma race p s path npath iv av pool e v :
    vp_pool p = pool ++ [e] -> find_path (vp_discriminator p) path_mapping = Some (path, npath) ->
    edi_get d0 path = Ok iv -> app_get application npath = Ok av ->
    (forall q, In q (qualifiers p) -> exists d, edi_set d0 path q = (d, None)) ->
    application_value d0 to_application edi_set app_get path npath (ve_qualifier e) = Ok v ->
    exists s', steps p (Outer :: map Inner (seq 0 (List.length (vp_pool p))) ++ map Inner (seq 0 (List.length (vp_pool p))) ++ [Outer])
                     (start_generation D A created edi_get app_get application path_mapping p, s)
               = Some (GDone (Ok (update (initial_mapping iv av) (map (fun q => (q, v)) (qualifiers p)))), s').
  Proof.
    intros Ep Fp Ei Ea Es Ev. set (h := mkHead (next s) path npath (initial_mapping iv av)).
    set (s1 := {| content := content (put (next s) d0 s); next := S (next s) |}).
    assert (C1 : content s1 (next s) = d0) by (unfold s1, put; cbn; now rewrite Nat.eqb_refl).
    assert (H0 : step p Outer (start_generation D A created edi_get app_get application path_mapping p) s = Some (GGather h None (map (fun e => TRun (entry_task h e)) (vp_pool p)), s1)).
    { rewrite start_eq. cbn [generation_step]. rewrite run_bind. unfold created. cbn [run]. fold s1. unfold rest_of_head. rewrite Fp, Ea. cbn [co_of co_bind run]. rewrite C1, Ei. reflexivity. }
    cbn [generation_run fst snd]. rewrite H0, steps_app.
    destruct (first_round p h (vp_pool p) [] s1) as (s2 & R & L).
    { left. exact C1. } { intros e' I. apply Es. unfold qualifiers. now apply in_map. }
    cbn [List.length map app] in R. rewrite R. cbv iota beta. rewrite steps_app. specialize (L e pool Ep). unfold application_value in Ev. cbn [h h_edi_path h_data] in L. rewrite L in Ev.
    pose proof (second_round p h v (vp_pool p) [] s2) as R2. cbn [List.length map app] in R2. rewrite R2; clear R2; cbv iota beta.
    - cbn [generation_run fst snd generation_step]. replace (results_of D (map TDone (map (fun e0 => (ve_qualifier e0, v)) (vp_pool p)))) with (Some (map (fun e0 => (ve_qualifier e0, v)) (vp_pool p)))
        by (symmetry; now apply results_all). exists s2. unfold qualifiers. rewrite map_map. reflexivity.
    - cbn [h h_data h_non_edi_path]. intros a E. now rewrite E in Ev.
    - cbn [h h_data]. destruct (to_application (content s2 (next s))) as [a|]; [eauto|discriminate].
  Qed.
End Race.
