(** Lemmas for C67: what transform_all_value_pools does, for every schedule. *)
From Coq Require Import Ascii String List NArith ZArith Bool Lia Arith.
From Verif Require Import PyBase PyStr PyRe M_Components M_Ahb M_Transformation L_Base L_Str S_DeepAhb L_DeepAhb L_ValuePool S_Transformation L_Coroutines L_Generation L_Positions.
Import ListNotations.
Local Open Scope list_scope.

Lemma contains_spec s sub : contains s sub = true <-> exists a b, s = a ++ sub ++ b.
Proof.
  induction s as [|c s IH]; cbn [contains]; rewrite orb_true_iff, startswith_spec.
  - split; [intros [(t & E)|[=]]; exists [], t; exact E|]. intros (a & b & E). left. destruct a; [exists b; exact E|discriminate].
  - rewrite IH. split.
    + intros [(t & E)|(a & b & E)]; [exists [], t; exact E|]. exists (c :: a), b. now rewrite E.
    + intros ([|x a] & b & E); [left; exists b; exact E|]. right. cbn in E. injection E as _ E. eauto.
Qed.
Lemma contains_false s sub : contains s sub = false <-> forall a b, s <> a ++ sub ++ b.
Proof.
  split; intros H.
  - intros a b E. assert (contains s sub = true) by (apply contains_spec; eauto). congruence.
  - destruct (contains s sub) eqn:C; [|reflexivity]. apply contains_spec in C. destruct C as (a & b & E). now destruct (H a b).
Qed.
Lemma is_relevant_spec p : is_relevant p = true <-> relevant p.
Proof.
  unfold is_relevant, relevant. destruct (vp_discriminator p) as [d|]; [|split; [discriminate|]; intros (d & [=] & _)].
  rewrite !andb_true_iff, !negb_true_iff, !contains_false, startswith_spec. split.
  - intros [[H1 H2] H3]. exists d. split; [reflexivity|]. split; [exact H1|]. split; [exact H2|exact H3].
  - intros (d' & [= <-] & H1 & H2 & H3). repeat split; assumption.
Qed.

(** the jobs: the relevant ones of the pools found *)
Definition chosen (a : DeepAhb) : list (position * ValuePool) := filter (fun x => is_relevant (snd x)) (value_pools_at a).
Lemma chosen_in a pos p : In (pos, p) (chosen a) -> lookup a pos = Some (DPool p) /\ relevant p.
Proof. unfold chosen. rewrite filter_In. intros (I & R). split; [now apply value_pools_at_place|]. now apply is_relevant_spec. Qed.
Lemma value_pools_at_NoDup a : NoDup (map vp_discriminator (map snd (value_pools_at a))).
Proof.
  rewrite value_pools_at_values. unfold get_all_value_pools. fold (pools_in_order a).
  destruct (add_pools_spec (pools_in_order a)) as (result & added & -> & _ & ND & _). exact ND.
Qed.
Lemma NoDup_filter_map {X Y} (f : X -> Y) p l : NoDup (map f l) -> NoDup (map f (filter p l)).
Proof.
  induction l as [|x l IH]; cbn; [auto|]. intros H. inversion H as [|? ? N ND]; subst. destruct (p x); cbn; [|auto]. constructor; [|auto].
  intros I. apply N. apply in_map_iff in I. destruct I as (y & E & I). apply filter_In in I. apply in_map_iff. exists y. tauto.
Qed.
Lemma chosen_NoDup a : NoDup (map fst (chosen a)).
Proof.
  assert (ND : NoDup (map (fun x : position * ValuePool => vp_discriminator (snd x)) (chosen a))).
  { apply NoDup_filter_map. pose proof (value_pools_at_NoDup a) as H. now rewrite map_map in H. }
  assert (P : forall x, In x (chosen a) -> lookup a (fst x) = Some (DPool (snd x))) by (intros [pos p] I; now apply chosen_in).
  revert ND P. generalize (chosen a). intros l. induction l as [|[pos p] l IH]; cbn; intros ND P; constructor.
  - intros I. apply in_map_iff in I. destruct I as ([pos' p'] & E & I). cbn in E. subst pos'. inversion ND as [|? ? N _]; subst. apply N.
    pose proof (P (pos, p) (or_introl eq_refl)) as A1. pose proof (P (pos, p') (or_intror I)) as A2. cbn in *. assert (p' = p) as -> by congruence.
    apply in_map_iff. exists (pos, p). auto.
  - inversion ND; subst. apply IH; auto.
Qed.

Section Transformation.
  Context {D A : Type}.
  Variable to_edi : A -> co D ref.
  Variable to_app : ref -> co D A.
  Variable edi_get : D -> pystr -> result (option pystr).
  Variable edi_set : D -> pystr -> pystr -> D * option exn.
  Variable app_get : A -> pystr -> result (option pystr).
  Variable app : A.
  Variable path_mapping : list (pystr * pystr).
  Notation step := (generation_step D A to_app edi_set app_get).
  Notation start := (start_generation D A to_edi edi_get app_get app path_mapping).
  Notation tstep := (transformation_step D A to_app edi_set app_get).
  Notation tsteps := (transformation_run D A to_app edi_set app_get).
  Notation tstart := (start_transformation D A to_edi edi_get app_get app path_mapping).

  (** ** arbitrary converters: progress *)
  Definition sound_job (j : job D) : Prop :=
    match j_state D j with JRun _ g => sound (j_pool D j) g /\ (forall r, g <> GDone r) | JDone _ _ _ => True end.
  Lemma nth_list_set {X} i (x : X) l k y : nth_error (list_set i x l) k = Some y -> (k = i /\ y = x) \/ (k <> i /\ nth_error l k = Some y).
  Proof.
    rewrite list_set_nth. destruct (Nat.eqb_spec i k) as [<-|N]; [|right; split; congruence]. destruct (Nat.ltb i (List.length l)); [|discriminate]. intros [= <-]. auto.
  Qed.
  Lemma in_set {X} (x : X) i l y : In y (list_set i x l) -> y = x \/ In y l.
  Proof. apply in_list_set. Qed.
  Lemma sound_start a s : Forall sound_job (w_jobs D (tstart a s)).
  Proof.
    apply Forall_forall. intros j H. cbn in H. apply in_flat_map in H. destruct H as ([pos p] & _ & H). cbn [snd fst] in H. destruct (is_relevant p); [|destruct H].
    destruct H as [<-|[]]. cbn. split; [exact I|discriminate].
  Qed.
  Lemma sound_world_step i c w w' : Forall sound_job (w_jobs D w) -> tstep i c w = Some w' -> Forall sound_job (w_jobs D w').
  Proof.
    intros S0 H. unfold transformation_step in H. destruct (nth_error (w_jobs D w) i) as [[pos p [g|x g]]|] eqn:N; try discriminate.
    2:{ destruct c as [|k]; [discriminate|]. destruct (step p (Inner k) g (w_store D w)) as [[g' s']|]; [|discriminate]. injection H as <-. cbn [w_jobs].
        apply Forall_forall. intros j I. rewrite Forall_forall in S0. destruct (in_set _ _ _ _ I) as [-> |I']; [exact Logic.I|auto]. }
    destruct (step p c g (w_store D w)) as [[g' s']|] eqn:E; [|discriminate].
    assert (Hj : sound_job (mkJob D pos p (JRun D g))) by (rewrite Forall_forall in S0; apply S0; now apply nth_error_In in N). cbn in Hj. destruct Hj as (Hg & _).
    pose proof (sound_step _ _ _ _ _ _ _ _ _ Hg E) as Hg'. rewrite Forall_forall in S0.
    assert (K : forall st, sound_job (mkJob D pos p st) -> Forall sound_job (list_set i (mkJob D pos p st) (w_jobs D w))).
    { intros st Hst. apply Forall_forall. intros j I. destruct (in_set _ _ _ _ I) as [-> |I']; auto. }
    destruct g' as [c'|h failed ts|[m|e]]; injection H as <-; cbn [w_jobs]; apply K; cbn; auto; split; auto; discriminate.
  Qed.
  Lemma sound_world_steps cs : forall w w', Forall sound_job (w_jobs D w) -> tsteps cs w = Some w' -> Forall sound_job (w_jobs D w').
  Proof.
    induction cs as [|[i c] cs IH]; intros w w' S0 H; cbn [transformation_run] in H; [now injection H as <-|].
    destruct (tstep i c w) as [w1|] eqn:E; [|discriminate]. apply (IH w1); [|exact H]. now apply (sound_world_step i c w).
  Qed.
  Lemma world_progress w : Forall sound_job (w_jobs D w) ->
    (forall j, In j (w_jobs D w) -> exists x g, j_state D j = JDone D x g) \/ exists i c w', tstep i c w = Some w'.
  Proof.
    intros S0. destruct (forallb (fun j => match j_state D j with JDone _ _ _ => true | JRun _ _ => false end) (w_jobs D w)) eqn:F.
    - left. rewrite forallb_forall in F. intros j I. specialize (F j I). destruct (j_state D j) as [g|x g]; [discriminate|eauto].
    - right. assert (E : exists j, In j (w_jobs D w) /\ exists g, j_state D j = JRun D g).
      { clear S0. induction (w_jobs D w) as [|j l IH]; cbn in F; [discriminate|]. destruct (j_state D j) as [g|x gx] eqn:Ej; [exists j; split; [now left|eauto]|].
        destruct IH as (j' & I & g & Eg); [exact F|]. exists j'. split; [now right|eauto]. }
      destruct E as (j & I & g & Eg). apply In_nth_error in I as I'. destruct I' as (i & N). rewrite Forall_forall in S0. specialize (S0 j I). unfold sound_job in S0. rewrite Eg in S0.
      destruct (sound_progress to_app edi_set app_get (j_pool D j) g (w_store D w) (proj1 S0) (proj2 S0)) as (c & [g' s'] & St). exists i, c. unfold transformation_step. rewrite N.
      destruct j as [pos p st]. cbn in *. subst st. rewrite St. destruct g' as [c'|h failed ts|[m|e]]; eauto.
  Qed.

  (** ** converters that read before they suspend *)
  Variable x : result D.
  Hypothesis H_edi : creates x (to_edi app).
  Variable to_application : D -> result A.
  Hypothesis H_app : forall r d, reads_first r d (to_application d) (to_app r).
  Hypothesis H_set : forall d path v d' x, edi_set d path v = (d', x) -> forall w, edi_set d' path w = edi_set d path w.
  Notation good := (good to_app edi_get edi_set app_get app path_mapping x to_application).
  Notation final := (final edi_get edi_set app_get app path_mapping x to_application).
  Notation explained := (explained edi_get edi_set app_get app path_mapping x to_application).

  (** [own]: the objects that the job works on *)
  Definition job_good (own : ref -> Prop) (s : store D) (j : job D) : Prop :=
    match j_state D j with
    | JRun _ g => good (j_pool D j) own g s
    | JDone _ _ (GGather h failed ts) => good (j_pool D j) own (GGather h failed ts) s
    | JDone _ _ _ => True
    end.
  Definition job_element (a : DeepAhb) (j : job D) : Prop :=
    let p := j_pool D j in
    match j_state D j with
    | JRun _ _ => lookup a (j_position D j) = Some (DPool p)
    | JDone _ y _ => (exists m, final p m /\ lookup a (j_position D j) = Some (DPool (fst (replace_value_pool m None p))) /\ y = snd (replace_value_pool m None p))
                   \/ (exists e, y = Some e /\ explained p e /\ lookup a (j_position D j) = Some (DPool p))
    end.
  Definition raised (j : job D) (e : exn) : Prop := exists g, j_state D j = JDone D (Some e) g.
  Record world_ok (a0 : DeepAhb) (owns : nat -> ref -> Prop) (w : world D) : Prop := {
    ok_shape : ahbs_related (fun _ _ => True) eq a0 (w_ahb D w);
    ok_jobs : map (fun j => (j_position D j, j_pool D j)) (w_jobs D w) = chosen a0;
    ok_rest : forall pos, ~ In pos (map fst (chosen a0)) -> lookup (w_ahb D w) pos = lookup a0 pos;
    ok_good : forall i j, nth_error (w_jobs D w) i = Some j -> job_good (owns i) (w_store D w) j;
    ok_element : forall i j, nth_error (w_jobs D w) i = Some j -> job_element (w_ahb D w) j;
    ok_objects : forall i j r, i <> j -> owns i r -> ~ owns j r;
    ok_exist : forall i r, owns i r -> r < next (w_store D w);
    ok_failed : match w_failed D w with
                | None => forall j e, In j (w_jobs D w) -> ~ raised j e
                | Some e => exists j, In j (w_jobs D w) /\ raised j e
                end }.

  Lemma start_jobs a s : w_jobs D (tstart a s) = map (fun y => mkJob D (fst y) (snd y) (JRun D (start (snd y)))) (chosen a).
  Proof.
    cbn. unfold chosen. induction (value_pools_at a) as [|[pos p] l IH]; cbn; [reflexivity|]. destruct (is_relevant p); cbn; now rewrite IH.
  Qed.
  Lemma ok_start a s : world_ok a (fun _ _ => False) (tstart a s).
  Proof.
    assert (J : forall i j, nth_error (w_jobs D (tstart a s)) i = Some j -> exists pos p, In (pos, p) (chosen a) /\ j = mkJob D pos p (JRun D (start p))).
    { rewrite start_jobs. intros i j N. apply nth_error_In in N. apply in_map_iff in N. destruct N as ([pos p] & <- & I). eauto. }
    constructor.
    - apply ahb_shape_refl.
    - rewrite start_jobs, map_map. cbn. rewrite <- map_id. apply map_ext. intros [pos p]; reflexivity.
    - reflexivity.
    - intros i j N. destruct (J i j N) as (pos & p & I & ->). apply good_start. exact H_edi.
    - intros i j N. destruct (J i j N) as (pos & p & I & ->). cbn. now apply chosen_in.
    - intros i j r _ [].
    - intros i r [].
    - cbn [w_failed tstart start_transformation]. intros j e I. apply In_nth_error in I. destruct I as (i & N). destruct (J i j N) as (pos & p & _ & ->). intros (g & [=]).
  Qed.

  (** a generation that has just ended still describes what it has left behind *)
  Lemma good_left p own g c s r s' : good p own g s -> step p c g s = Some (GDone r, s') ->
    match g with GGather h failed ts => good p own (GGather h failed ts) s' | _ => True end.
  Proof.
    intros G H. destruct g as [co|h failed ts|r0]; [exact I| |exact I]. destruct c as [|i]; cbn [generation_step] in H.
    - destruct failed as [e|]; [injection H as _ <-; exact G|]. destruct (results_of D ts); [|discriminate]. injection H as _ <-. exact G.
    - destruct (nth_error ts i) as [[c0|r0|]|]; try discriminate. destruct (run c0 s) as [[r1|e|c1] s1]; discriminate.
  Qed.
  Definition generation_of (st : job_state D) : generation D := match st with JRun _ g | JDone _ _ g => g end.

  Lemma ok_step a0 owns i c w w' : world_ok a0 owns w -> tstep i c w = Some w' -> exists owns', world_ok a0 owns' w'.
  Proof.
    intros W H.
    assert (St : exists pos p st g' s', nth_error (w_jobs D w) i = Some (mkJob D pos p st) /\ step p c (generation_of st) (w_store D w) = Some (g', s')
                 /\ good p (owns i) (generation_of st) (w_store D w)).
    { unfold transformation_step in H. destruct (nth_error (w_jobs D w) i) as [[pos p [g|y g]]|] eqn:N; try discriminate; [|destruct c as [|k]; [discriminate|]];
        pose proof (ok_good _ _ _ W _ _ N) as G; unfold job_good in G; cbn in G; [exists pos, p, (JRun D g)|exists pos, p, (JDone D y g)]; cbn [generation_of].
      - destruct (step p c g (w_store D w)) as [[g' s']|]; [|discriminate]. eauto.
      - destruct g as [co|h failed ts|r0]; [discriminate| |discriminate]. destruct (step p (Inner k) (GGather h failed ts) (w_store D w)) as [[g' s']|]; [|discriminate]. eauto. }
    destruct St as (pos & p & st0 & g' & s' & N & E & G). set (g := generation_of st0) in *.
    destruct (good_step to_app edi_get edi_set app_get app path_mapping x to_application H_app H_set p (owns i) g c _ g' s' G E) as (own' & G' & Fnext & Fold & Fnew).
    assert (Inpos : In (pos, p) (chosen a0)).
    { rewrite <- (ok_jobs _ _ _ W). apply in_map_iff. exists (mkJob D pos p st0). split; [reflexivity|]. now apply nth_error_In in N. }
    assert (El : job_element (w_ahb D w) (mkJob D pos p st0)) by exact (ok_element _ _ _ W _ _ N).
    assert (Jobs : forall st, map (fun j => (j_position D j, j_pool D j)) (list_set i (mkJob D pos p st) (w_jobs D w)) = chosen a0).
    { intros st. rewrite <- (ok_jobs _ _ _ W). clear - N. revert i N. induction (w_jobs D w) as [|j l IH]; intros [|i] N; cbn in *; try discriminate; [injection N as ->; reflexivity|]. f_equal. now apply IH. }
    assert (Pos : forall k j, k <> i -> nth_error (w_jobs D w) k = Some j -> j_position D j <> pos).
    { intros k j Nk Nj Ep. pose proof (chosen_NoDup a0) as ND. rewrite <- (ok_jobs _ _ _ W), map_map in ND. cbn in ND. rewrite NoDup_nth_error in ND. apply Nk. apply ND.
      - rewrite map_length. apply nth_error_Some. congruence.
      - rewrite !nth_error_map, Nj, N. cbn. now rewrite Ep. }
    (* the other jobs are not disturbed *)
    assert (Other : forall k j, k <> i -> nth_error (w_jobs D w) k = Some j -> job_good (owns k) s' j).
    { intros k j Nk Nj. pose proof (ok_good _ _ _ W _ _ Nj) as Gj.
      assert (K : forall r, r < next (w_store D w) -> owns k r -> content s' r = content (w_store D w) r).
      { intros r Lr Or. apply Fold; [exact Lr|]. intros Oi. exact (ok_objects _ _ _ W k i r Nk Or Oi). }
      unfold job_good in *. destruct (j_state D j) as [gj|y [cj|hj fj tj|rj]]; auto;
        eapply (good_other to_app edi_get edi_set app_get app path_mapping x to_application (j_pool D j)); eassumption. }
    (* the objects of the jobs; those that the step has made superfluous may be forgotten *)
    set (mine := fun r => own' r /\ r < next s').
    assert (Mine : forall r, mine r -> owns i r \/ next (w_store D w) <= r) by (intros r (Hr & _); now apply Fnew).
    assert (Gm : good p mine g' s').
    { destruct g' as [c'|h failed ts|[m|e]]; cbn [L_Generation.good] in G' |- *; auto.
      - destruct G' as (mi & c0 & C0 & -> & M & O). exists mi, c0. split; [exact C0|]. split; [reflexivity|]. split; [exact M|].
        intros r Nr. split; [now apply O|]. destruct (mi r) as [d|] eqn:Er; [|congruence]. now apply (M r d).
      - destruct G' as (d0 & towns & Ex & Hh & Hn & Ow & Tw & T). exists d0, towns. repeat (split; [assumption|]). split; [split; assumption|]. split; [|exact T].
        intros k r K. split; [exact (Tw k r K)|]. destruct T as [_ _ _ _ T5 _ _]. apply (T5 k r K). }
    assert (Obj : forall m : ref -> Prop, (forall r, m r -> owns i r \/ next (w_store D w) <= r) ->
                  forall k j r, k <> j -> (if Nat.eqb k i then m else owns k) r -> ~ (if Nat.eqb j i then m else owns j) r).
    { intros m Hm k j r Nkj Ok Oj. destruct (Nat.eqb_spec k i) as [-> |Nk], (Nat.eqb_spec j i) as [-> |Nj]; try congruence.
      - destruct (Hm r Ok) as [Oi|L]; [exact (ok_objects _ _ _ W i j r Nkj Oi Oj)|]. pose proof (ok_exist _ _ _ W j r Oj). lia.
      - destruct (Hm r Oj) as [Oi|L]; [exact (ok_objects _ _ _ W k i r Nkj Ok Oi)|]. pose proof (ok_exist _ _ _ W k r Ok). lia.
      - exact (ok_objects _ _ _ W k j r Nkj Ok Oj). }
    assert (Exist : forall m : ref -> Prop, (forall r, m r -> r < next s') -> forall k r, (if Nat.eqb k i then m else owns k) r -> r < next s').
    { intros m Hm k r Ok. destruct (Nat.eqb k i); [auto|]. pose proof (ok_exist _ _ _ W k r Ok). lia. }
    (* the exceptions *)
    assert (Failed : forall st f',
      (forall e, raised (mkJob D pos p st0) e -> raised (mkJob D pos p st) e) ->
      f' = match w_failed D w with None => match st with JDone _ y _ => y | JRun _ _ => None end | Some e => Some e end ->
      match f' with
      | None => forall j e, In j (list_set i (mkJob D pos p st) (w_jobs D w)) -> ~ raised j e
      | Some e => exists j, In j (list_set i (mkJob D pos p st) (w_jobs D w)) /\ raised j e
      end).
    { intros st f' Mono ->. pose proof (ok_failed _ _ _ W) as Fl.
      assert (Here : In (mkJob D pos p st) (list_set i (mkJob D pos p st) (w_jobs D w))).
      { apply (nth_error_In _ i). rewrite list_set_nth, Nat.eqb_refl. destruct (Nat.ltb_spec i (List.length (w_jobs D w))) as [L|L]; [reflexivity|]. apply nth_error_None in L. congruence. }
      destruct (w_failed D w) as [e0|].
      - destruct Fl as (j & I & Rj). apply In_nth_error in I. destruct I as (k & Nk). destruct (Nat.eq_dec i k) as [<-|Ni].
        + exists (mkJob D pos p st). split; [exact Here|]. apply Mono. rewrite N in Nk. now injection Nk as <-.
        + exists j. split; [|exact Rj]. apply (nth_error_In _ k). rewrite list_set_nth. destruct (Nat.eqb_spec i k); [contradiction|exact Nk].
      - destruct st as [gs|[e|] gs].
        + intros j e I R. destruct (in_set _ _ _ _ I) as [-> |I']; [destruct R as (g1 & [=])|exact (Fl j e I' R)].
        + exists (mkJob D pos p (JDone D (Some e) gs)). split; [exact Here|]. now exists gs.
        + intros j e I R. destruct (in_set _ _ _ _ I) as [-> |I']; [destruct R as (g1 & [=])|exact (Fl j e I' R)]. }
    (* the pool stays the same *)
    assert (Stay : forall (m : ref -> Prop) st f', (forall r, m r -> owns i r \/ next (w_store D w) <= r) -> (forall r, m r -> r < next s') ->
      job_good m s' (mkJob D pos p st) -> job_element (w_ahb D w) (mkJob D pos p st) ->
      match f' with None => forall j e, In j (list_set i (mkJob D pos p st) (w_jobs D w)) -> ~ raised j e
                  | Some e => exists j, In j (list_set i (mkJob D pos p st) (w_jobs D w)) /\ raised j e end ->
      exists owns', world_ok a0 owns' (mkWorld D (w_ahb D w) s' (list_set i (mkJob D pos p st) (w_jobs D w)) f')).
    { intros m st f' Ho Hx Gs Es Fs. exists (fun k => if Nat.eqb k i then m else owns k). constructor; cbn [w_ahb w_store w_jobs w_failed].
      - apply (ok_shape _ _ _ W).
      - apply Jobs.
      - apply (ok_rest _ _ _ W).
      - intros k j Nk. apply nth_list_set in Nk. destruct Nk as [(-> & ->)|(Ni & Nk)]; [now rewrite Nat.eqb_refl|]. destruct (Nat.eqb_spec k i); [contradiction|now apply (Other k)].
      - intros k j Nk. apply nth_list_set in Nk. destruct Nk as [(-> & ->)|(Ni & Nk)]; [exact Es|]. exact (ok_element _ _ _ W _ _ Nk).
      - now apply Obj.
      - now apply Exist.
      - exact Fs. }
    assert (Mx : forall r, mine r -> r < next s') by (intros r (_ & L); exact L).
    assert (Old1 : forall r, owns i r -> owns i r \/ next (w_store D w) <= r) by auto.
    assert (Old2 : forall r, owns i r -> r < next s') by (intros r Or; pose proof (ok_exist _ _ _ W i r Or); lia).
    unfold transformation_step in H. rewrite N in H. destruct st0 as [g0|y g0]; cbn [generation_of] in g; subst g.
    - rewrite E in H. destruct g' as [c'|h failed ts|[m|e]]; injection H as <-.
      + apply (Stay mine); [exact Mine|exact Mx|exact Gm|exact El|]. apply Failed; [intros e (g1 & [=])|]. now destruct (w_failed D w).
      + apply (Stay mine); [exact Mine|exact Mx|exact Gm|exact El|]. apply Failed; [intros e (g1 & [=])|]. now destruct (w_failed D w).
      + exists (fun k => if Nat.eqb k i then owns i else owns k). constructor; cbn [w_ahb w_store w_jobs w_failed].
        * eapply ahb_shape_trans; [apply (ok_shape _ _ _ W)|apply ahb_shape_modify].
        * apply Jobs.
        * intros q Nq. rewrite lookup_modify. destruct (pos_eq_dec pos q) as [<-|Nq']; [|now apply (ok_rest _ _ _ W)]. destruct Nq. apply in_map_iff. exists (pos, p). auto.
        * intros k j Nk. apply nth_list_set in Nk. destruct Nk as [(-> & ->)|(Ni & Nk)].
          -- rewrite Nat.eqb_refl. exact (good_left p (owns i) g0 c _ _ _ G E).
          -- destruct (Nat.eqb_spec k i); [contradiction|now apply (Other k)].
        * intros k j Nk. apply nth_list_set in Nk. destruct Nk as [(-> & ->)|(Ni & Nk)].
          -- unfold job_element in El |- *. cbn [j_state j_position j_pool] in El |- *. left. exists m. split; [exact G'|]. rewrite lookup_modify, El. destruct (pos_eq_dec pos pos) as [_|Nq]; [|congruence]. auto.
          -- pose proof (ok_element _ _ _ W _ _ Nk) as Ek. assert (Lk : lookup (modify_pool pos (fun p => fst (replace_value_pool m None p)) (w_ahb D w)) (j_position D j) = lookup (w_ahb D w) (j_position D j)).
             { rewrite lookup_modify. destruct (pos_eq_dec pos (j_position D j)) as [Eq|_]; [|reflexivity]. symmetry in Eq. now destruct (Pos k j Ni Nk). }
             unfold job_element in *. now rewrite Lk.
        * now apply Obj.
        * now apply Exist.
        * apply Failed; [intros e (g1 & [=])|]. now destruct (w_failed D w).
      + apply (Stay (owns i)); [exact Old1|exact Old2|exact (good_left p (owns i) g0 c _ _ _ G E)| |apply Failed; [intros e' (g1 & [=])|now destruct (w_failed D w)]].
        unfold job_element. cbn [j_state j_position j_pool]. right. exists e. split; [reflexivity|]. split; [exact G'|exact El].
    - destruct c as [|k]; [discriminate|]. rewrite E in H. injection H as <-. apply (Stay mine); [exact Mine|exact Mx| |exact El|].
      + unfold job_good. cbn [j_state j_pool]. destruct g' as [c'|h failed ts|r']; auto.
      + apply Failed; [intros e (g1 & [= -> _]); now exists g'|]. destruct (w_failed D w) as [e0|] eqn:Fw; [reflexivity|]. destruct y as [e|]; [|reflexivity].
        exfalso. pose proof (ok_failed _ _ _ W) as Fl. rewrite Fw in Fl. apply (Fl _ e (nth_error_In _ _ N)). now exists g0.
  Qed.
  Lemma ok_steps a0 cs : forall owns w w', world_ok a0 owns w -> tsteps cs w = Some w' -> exists owns', world_ok a0 owns' w'.
  Proof.
    induction cs as [|[i c] cs IH]; intros owns w w' W H; cbn [transformation_run] in H; [injection H as <-; now exists owns|].
    destruct (tstep i c w) as [w1|] eqn:E; [|discriminate]. destruct (ok_step a0 owns i c w w1 W E) as (owns1 & W1). now apply (IH owns1 w1).
  Qed.
  Lemma ok_reached a cs s w : tsteps cs (tstart a s) = Some w -> exists owns, world_ok a owns w.
  Proof. apply ok_steps with (owns := fun _ _ => False). apply ok_start. Qed.
End Transformation.
