(** Lemmas for C90: which exceptions determine_locations raises, and at which line. *)
From Coq Require Import Ascii String List NArith ZArith Bool Arith Lia.
From Verif Require Import PyBase PyStr PyRe M_Components M_Ahb M_Sgh M_Navigation
  S_Prefix S_Text S_Sgh S_Navigation L_Base L_Prefix L_Validators L_Sgh L_Navigation L_Locations.
Import ListNotations.
Local Open Scope list_scope.

Lemma bind_raise {A B} (m : result A) (f : A -> result B) e :
  bind m f = Raise e <-> m = Raise e \/ exists a, m = Ok a /\ f a = Raise e.
Proof.
  destruct m as [a|e']; cbn; split.
  - intros H. right. eauto.
  - intros [H|(a' & [= <-] & H)]; [discriminate|exact H].
  - intros [= ->]. now left.
  - intros [[= ->]|(a & H & _)]; [reflexivity|discriminate].
Qed.

(** ** the exceptions on disciplined lines *)
Definition no_segment_to_open_with (first : bool) (c : Change) (ns nq : option pystr) : Prop :=
  (first = true -> acceptable_qualifier nq) /\ c <> STAY /\ ns = None.
Definition failure (first : bool) (c : Change) (ns nq : option pystr) (e : exn) : Prop :=
  (e = TypeError /\ no_segment_to_open_with first c ns nq) \/ (e = ValueError /\ ~ no_segment_to_open_with first c ns nq).

Section Path.
  Variable h : Sgh.
  Hypothesis D : distinct_keys h.
  Hypothesis W : well_named h.
  Hypothesis R : sgh_key h = None.

  Lemma emit_raise layers ns line res e :
    (let* loc := new_Location false layers ns (al_element line) (al_entry line) in Ok (layers, res ++ [(line, loc)])) = Raise e -> e = ValueError.
  Proof. rewrite bind_raise. intros [H|(a & _ & H)]; [|discriminate]. now apply new_Location_raise in H. Qed.
  (** the new layer of a group of the hierarchy *)
  Lemma layer_raise y q m ns nq e : node_at h q = Some m -> sgh_key m = y -> new_Layer y ns nq = Raise e ->
    (ns = None /\ e = TypeError) \/ (ns <> None /\ e = ValueError).
  Proof.
    intros Hq Hy. destruct ns as [o|].
    - intros H. right. split; [discriminate|]. now apply new_Layer_raise in H.
    - unfold new_Layer. rewrite bind_raise. intros [H|(a & _ & H)]; [|left; split; [reflexivity|now injection H]]. exfalso.
      destruct (W m) as [K _]; [now exists q|]. rewrite Hy in K. destruct y as [k|]; [|discriminate]. specialize (K k eq_refl).
      unfold check_optional, check_re in H. apply full_segment_group in K. rewrite K in H. discriminate.
  Qed.

  Lemma step_failure x layers res line c ns nq e :
    on_path h x layers res -> may_follow h x (al_group line) -> classified h x (al_group line) c ->
    (res = [] -> x = None) ->
    location_step h (layers, res) ((line, c), ns, nq) = Raise e ->
    failure (match res with [] => true | _ => false end) c ns nq e.
  Proof.
    intros (p & n & Hp & Hx & Hk & Hres) HF HC HX H. unfold failure, no_segment_to_open_with.
    cbn [location_step] in H. apply bind_raise in H as [H|(base & HB & H)].
    { (* the update of the first line *)
      unfold first_line_update in H. destruct Hres as [[-> ->]|(r0 & l & loc & -> & Hloc)].
      - cbn [last_of rev app bind is_none ly_qualifier plain_layer List.length Nat.eqb andb] in H.
        apply bind_raise in H as [H|(a & _ & H)]; [|discriminate]. right. pose proof H as H'. apply new_Layer_raise in H' as ->. split; [reflexivity|].
        intros (A & _). specialize (A eq_refl). rewrite (occurs_key h W (sgh_key h) [] h nq (sgh_opening h) eq_refl eq_refl) in H; [discriminate| |exact A].
        destruct (W h) as [_ ?]; [now exists []|auto].
      - exfalso. assert (Hne : layers <> []) by (intros ->; destruct (keys_end h p n Hp) as (r & E); rewrite E in Hk; destruct r; discriminate).
        destruct (@exists_last _ layers Hne) as (l' & z & El). rewrite (proj2 (last_of_ok layers z)) in H by eauto. cbn [bind] in H.
        rewrite app_length, Nat.add_1_r in H. cbn [Nat.eqb] in H. rewrite andb_false_r in H. discriminate. }
    assert (AF : match res with [] => true | _ => false end = true -> acceptable_qualifier nq).
    { destruct res; [|discriminate]. intros _. apply first_line_update_ok in HB. cbn [base_layers] in HB.
      destruct Hres as [[_ ->]|(r0 & ? & ? & E & _)]; [|destruct r0; discriminate].
      destruct HB as [(_ & p0 & l0 & E & Q)|(p0 & l0 & E & _ & _ & (_ & _ & V))]; [|exact V].
      exfalso. apply Q. destruct p0 as [|a p0]; [injection E as <-; reflexivity|]. destruct p0; discriminate. }
    assert (Kb : map ly_key base = keys h p /\ (res <> [] -> base = layers)).
    { apply first_line_update_ok in HB. destruct Hres as [[-> ->]|(r0 & l & loc & -> & Hloc)].
      - cbn [base_layers] in HB. split; [|congruence].
        destruct HB as [(-> & p0 & l0 & E & Q)|(p0 & l0 & E & _ & -> & _)]; [exact Hk|]. destruct p0 as [|a [|b p0]]; try discriminate. injection E as <-. exact Hk.
      - assert (base = layers) as -> by (destruct r0; exact HB). auto. }
    destruct Kb as [Kb Hb].
    assert (Hbne : base <> []) by (intros ->; destruct (keys_end h p n Hp) as (r & E); rewrite E in Kb; destruct r; discriminate).
    destruct (follow_position h D _ _ p n HF Hp Hx) as (q & m & Hq & Hy & Hpos).
    assert (New : forall new e, (let* l := new_Layer (al_group line) ns nq in
               let* loc := new_Location false (new ++ [l]) ns (al_element line) (al_entry line) in Ok (new ++ [l], res ++ [(line, loc)])) = Raise e ->
               (ns = None /\ e = TypeError) \/ (ns <> None /\ e = ValueError)).
    { intros new e' K. apply bind_raise in K as [K|(l & L & K)]; [exact (layer_raise _ q m ns nq e' Hq Hy K)|].
      apply emit_raise in K. right. split; [|exact K]. intros ->. unfold new_Layer in L. apply bind_ok in L as (? & _ & L). discriminate. }
    assert (Fin : c <> STAY -> (ns = None /\ e = TypeError) \/ (ns <> None /\ e = ValueError) ->
              (e = TypeError /\ (match res with [] => true | _ => false end = true -> acceptable_qualifier nq) /\ c <> STAY /\ ns = None)
              \/ (e = ValueError /\ ~ ((match res with [] => true | _ => false end = true -> acceptable_qualifier nq) /\ c <> STAY /\ ns = None))).
    { intros Nc [[E1 E2]|[E1 E2]]; [left; auto|]. right. split; [exact E2|]. tauto. }
    destruct HC as [(Hy' & [-> | ->])|[(Hne & Hbel & ->)|(Hne & Hbel & ->)]].
    - apply emit_raise in H. right. split; [exact H|]. tauto.
    - apply Fin; [discriminate|]. apply bind_raise in H as [H|(b & _ & H)]; [destruct base; [congruence|discriminate]|]. exact (New _ _ H).
    - apply Fin; [discriminate|]. exact (New _ _ H).
    - apply Fin; [discriminate|].
      destruct Hres as [[-> _]|(r0 & l & loc & -> & Hloc)].
      { exfalso. apply Hbel. rewrite HX in * by reflexivity.
        assert (p = []) as -> by (eapply D; [exact Hp|reflexivity|congruence]).
        apply (below_position h D None (al_group line) [] n q m Hp Hx Hq Hy). exists q. split; [|reflexivity].
        intros ->. apply Hne. assert (n = m) as -> by congruence. congruence. }
      rewrite Hb in * by (destruct r0; discriminate).
      destruct (leave_path h D W x (al_group line) p n layers loc Hp Hx Hk Hloc HF Hne Hbel) as (q' & m' & l1 & _ & _ & _ & HL).
      rewrite (proj2 (last_of_ok (r0 ++ [(l, loc)]) (l, loc))) in H by eauto. cbn [bind snd] in H.
      apply bind_ok in HL as (z & Ez & HL). rewrite Ez in H. cbn [bind] in H. apply bind_ok in HL as (ca & Eca & HL). rewrite Eca in H. cbn [bind] in H.
      apply bind_ok in HL as (d & Ed & HL). rewrite Ed in H. cbn [bind] in H. rewrite HL in H. cbn [bind] in H. exact (New _ _ H).
  Qed.

  Lemma failure_loop lines e : forall st layers res,
    on_path h (prev_key_of st) layers res -> (res = [] -> prev_key_of st = None) -> disciplined h (prev_key_of st) lines ->
    foldM (location_step h) (layers, res) (annotate h st (items lines)) = Raise e ->
    exists i x, nth_error (annotate h st (items lines)) i = Some x
      /\ failure (match i with O => match res with [] => true | _ => false end | S _ => false end) (snd (fst (fst x))) (snd (fst x)) (snd x) e
      /\ ~ acceptable (match i with O => match res with [] => true | _ => false end | S _ => false end) (fst (fst (fst x))) (snd (fst (fst x))) (snd (fst x)) (snd x)
      /\ forall j y, j < i -> nth_error (annotate h st (items lines)) j = Some y ->
           acceptable (match j with O => match res with [] => true | _ => false end | S _ => false end) (fst (fst (fst y))) (snd (fst (fst y))) (snd (fst y)) (snd y).
  Proof.
    induction lines as [|l lines IH]; intros st layers res HO HX HD H; cbn [items annotate] in *; [discriminate|].
    destruct HD as [HF HD].
    set (ns := first_some al_segment (l :: lines)) in *. set (nq := first_some al_entry (l :: lines)) in *.
    pose proof (step_classified h st l ns nq) as HC. pose proof (snd_step_cases h st (l, ns, nq)) as [HM _].
    assert (Hst : prev_key_of (fst (change_step h st (l, ns, nq))) = al_group l) by reflexivity.
    destruct (change_step h st (l, ns, nq)) as [st' c]. cbn [fst snd] in *. cbn [foldM] in H.
    apply bind_raise in H as [H|(s1 & H1 & H)].
    - exists 0. eexists. split; [reflexivity|]. cbn [fst snd]. split; [exact (step_failure _ _ _ _ _ _ _ _ HO HF HC HX H)|].
      split; [|intros j y Hj; lia]. intros A. destruct (step_progress h D W R _ layers res l c ns nq HO HF HC HX A) as (new & E & _). congruence.
    - assert (A : acceptable (match res with [] => true | _ => false end) l c ns nq).
      { eapply step_acceptable; [exact H1|exact HM|]. intros ->. destruct HO as (? & ? & ? & ? & ? & [[_ ->]|(r0 & ? & ? & E & _)]); [reflexivity|destruct r0; discriminate]. }
      destruct (step_progress h D W R _ layers res l c ns nq HO HF HC HX A) as (new & E & HO'). rewrite E in H1. injection H1 as <-.
      rewrite <- Hst in HO'. destruct (IH st' _ _ HO') as (i & x & Hx & F & NA & BA); [intros K; destruct res; discriminate|rewrite Hst; exact HD|exact H|].
      assert (EF : match res ++ [(l, mkLocation false new ns (al_element l) (al_entry l))] with [] => true | _ => false end = false) by (destruct res; reflexivity).
      rewrite EF in F, NA, BA.
      exists (S i), x. split; [exact Hx|]. split; [destruct i; exact F|]. split; [destruct i; exact NA|].
      intros [|j] y Hj Hy; [injection Hy as <-; exact A|]. specialize (BA j y (proj2 (Nat.succ_lt_mono _ _) Hj) Hy). now destruct j.
  Qed.
End Path.

(** ** the exceptions on any lines *)
Definition location_error (e : exn) : Prop := e = ValueError \/ e = TypeError \/ e = AttributeError \/ e = IndexError.

Lemma error_layer k o q e : new_Layer k o q = Raise e -> location_error e.
Proof. unfold location_error. destruct o; intros H; [apply new_Layer_raise in H|apply new_Layer_none in H]; tauto. Qed.
Lemma error_location a b d e f x : new_Location a b d e f = Raise x -> location_error x.
Proof. intros H. apply new_Location_raise in H. unfold location_error. tauto. Qed.
Lemma error_last {A} (l : list A) e : last_of l = Raise e -> location_error e.
Proof. intros H. apply last_of_raise in H as [_ ->]. unfold location_error. tauto. Qed.
Lemma error_pop {A} (l : list A) e : pop_last l = Raise e -> location_error e.
Proof. destruct l; [|discriminate]. intros [= <-]. unfold location_error. tauto. Qed.
Lemma error_ancestor x y e : find_common_ancestor x y = Raise e -> location_error e.
Proof. apply error_location. Qed.
Lemma error_difference a b e : nonneg_difference a b = Raise e -> location_error e.
Proof. unfold nonneg_difference. destruct (Nat.ltb a b); [|discriminate]. intros [= <-]. unfold location_error. tauto. Qed.
Lemma error_pseudo k g : forall ls e, construct_pseudo_location k g ls = Raise e -> location_error e.
Proof.
  induction g as [k' o subs IH] using sgh_ind'. intros ls e K. cbn [construct_pseudo_location] in K.
  apply bind_raise in K as [K|(a & _ & K)]; [exact (error_layer _ _ _ _ K)|]. destruct (ostr_eqb k k').
  - apply bind_raise in K as [K|(b & _ & K)]; [exact (error_location _ _ _ _ _ _ K)|discriminate].
  - destruct subs as [l|]; [|discriminate]. cbn [olist] in IH. revert K. induction l as [|g l IHl]; intros K; [discriminate|].
    inversion IH as [|g' l' Hg Hl]; subst. apply bind_raise in K as [K|(b & _ & K)]; [exact (Hg _ _ K)|]. destruct b; [discriminate|]. exact (IHl Hl K).
Qed.
Lemma error_distance x y e : calculate_distance x y = Raise e -> location_error e.
Proof.
  unfold calculate_distance. intros H. apply bind_raise in H as [H|(a & _ & H)]; [exact (error_ancestor _ _ _ H)|].
  apply bind_raise in H as [H|(b & _ & H)]; [exact (error_difference _ _ _ H)|]. apply bind_raise in H as [H|(c & _ & H)]; [exact (error_difference _ _ _ H)|discriminate].
Qed.
Lemma error_from_sgh x y h e : find_common_ancestor_from_sgh x y h = Raise e -> location_error e.
Proof.
  unfold find_common_ancestor_from_sgh. intros H. apply bind_raise in H as [H|([a|] & _ & H)]; [exact (error_pseudo _ _ _ _ H)| |injection H as <-; unfold location_error; tauto].
  apply bind_raise in H as [H|([b|] & _ & H)]; [exact (error_pseudo _ _ _ _ H)|exact (error_ancestor _ _ _ H)|injection H as <-; unfold location_error; tauto].
Qed.
Lemma error_leave n k : forall ls e, leave_layers n k ls = Raise e -> location_error e.
Proof.
  induction n as [|n IH]; intros ls e K; cbn [leave_layers] in K; [discriminate|].
  apply bind_raise in K as [K|(a & _ & K)]; [exact (error_pop _ _ K)|]. apply bind_raise in K as [K|(b & _ & K)]; [exact (error_last _ _ K)|].
  apply bind_raise in K as [K|(d & _ & K)]; [|exact (IH _ _ K)]. destruct (ostr_eqb _ _); [exact (error_pop _ _ K)|discriminate].
Qed.
Lemma error_step h st x e : snd (fst (fst x)) <> LEAVE_TO_PARENT -> location_step h st x = Raise e -> location_error e.
Proof.
  destruct x as [[[line c] ns] nq], st as [layers res]. cbn [fst snd]. intros Hc H. cbn [location_step] in H.
  assert (BE : forall new x, (let* loc := new_Location false new ns (al_element line) (al_entry line) in Ok (new, res ++ [(line, loc)])) = Raise x -> location_error x).
  { intros new x K. apply emit_raise in K. unfold location_error. tauto. }
  apply bind_raise in H as [H|(base & _ & H)].
  { unfold first_line_update in H. apply bind_raise in H as [H|(a & _ & H)]; [exact (error_last _ _ H)|]. destruct (_ && _); [|discriminate].
    apply bind_raise in H as [H|(b & _ & H)]; [exact (error_layer _ _ _ _ H)|discriminate]. }
  destruct c; try congruence.
  - exact (BE _ _ H).
  - apply bind_raise in H as [H|(a & _ & H)]; [exact (error_pop _ _ H)|]. apply bind_raise in H as [H|(b & _ & H)]; [exact (error_layer _ _ _ _ H)|]. exact (BE _ _ H).
  - apply bind_raise in H as [H|(b & _ & H)]; [exact (error_layer _ _ _ _ H)|]. exact (BE _ _ H).
  - apply bind_raise in H as [H|(a & _ & H)]; [exact (error_last _ _ H)|]. apply bind_raise in H as [H|(b & _ & H)]; [exact (error_last _ _ H)|].
    apply bind_raise in H as [H|(d & _ & H)]; [exact (error_from_sgh _ _ _ _ H)|].
    apply bind_raise in H as [H|(e' & _ & H)]; [exact (error_distance _ _ _ H)|].
    apply bind_raise in H as [H|(f & _ & H)]; [exact (error_leave _ _ _ _ H)|]. apply bind_raise in H as [H|(g & _ & H)]; [exact (error_layer _ _ _ _ H)|]. exact (BE _ _ H).
Qed.
Lemma error_locations h lines e : determine_locations h lines = Raise e -> location_error e.
Proof.
  intros H. rewrite determine_locations_eq in H. apply bind_raise in H as [H|(l0 & _ & H)]; [exact (error_layer _ _ _ _ H)|].
  apply bind_raise in H as [H|(st & _ & H)]; [|discriminate].
  assert (A : forall x, In x (annotate h initial (items lines)) -> snd (fst (fst x)) <> LEAVE_TO_PARENT) by (intros x Hx; now apply annotate_change in Hx).
  revert A H. generalize ([l0], @nil (AhbLine * Location)). generalize (annotate h initial (items lines)). clear. intros xs.
  induction xs as [|x xs IH]; intros st A K; cbn [foldM] in K; [discriminate|].
  apply bind_raise in K as [K|(st' & _ & K)]; [exact (error_step h st x e (A x (or_introl eq_refl)) K)|]. exact (IH st' (fun y Hy => A y (or_intror Hy)) K).
Qed.
