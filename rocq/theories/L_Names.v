(** Lemmas about comparable names and trees with comparable names. *)
From Coq Require Import Ascii String List NArith ZArith Bool Lia Arith.
From Verif Require Import PyBase PyUni PyStr M_Components M_Xml M_MigXml S_Text L_Base L_Str L_ValuePool S_MigXml.
Import ListNotations.
Local Open Scope list_scope.

#[local] Transparent lower_char.

(** ** lower *)
Definition fixed (c : char) : bool := (negb (N.eqb c 931) && negb (N.eqb c 304) && is_none (assoc_N c lower_pairs))%N%bool.
Lemma assoc_In c l d : assoc_N c l = Some d -> In (c, d) l.
Proof.
  induction l as [|[k v] l IH]; cbn [assoc_N]; [discriminate|]. destruct (N.eqb_spec c k) as [-> |N]; [intros [= ->]; now left|intros H; right; auto].
Qed.
Definition plain_letter (c : char) : bool := (fixed c && negb (is_separator c) && is_xml_char c)%bool.
Lemma lower_values : forallb (fun kv => plain_letter (snd kv)) lower_pairs = true.
Proof. vm_compute. reflexivity. Qed.
Lemma lower_value c d : assoc_N c lower_pairs = Some d -> plain_letter d = true.
Proof. intros H. apply assoc_In in H. pose proof lower_values as L. rewrite forallb_forall in L. exact (L _ H). Qed.
Lemma plain_fixed c : plain_letter c = true -> fixed c = true.
Proof. unfold plain_letter. rewrite !andb_true_iff. tauto. Qed.
Lemma lower_char_cases (c : char) : c <> 931%N ->
  (fixed c = true /\ lower_char c = [c]) \/ (fixed c = false /\ forallb plain_letter (lower_char c) = true).
Proof.
  intros N. unfold fixed, lower_char. destruct (N.eqb_spec c 931) as [E|_]; [congruence|]. destruct (N.eqb_spec c 304) as [-> |N3].
  - right. split; [reflexivity|]. vm_compute. reflexivity.
  - destruct (assoc_N c lower_pairs) as [d|] eqn:A; cbn [is_none negb andb].
    + right. split; [reflexivity|]. cbn. rewrite (lower_value _ _ A). reflexivity.
    + left. auto.
Qed.
Lemma lower_char_fixed (c : char) : c <> 931%N -> forallb fixed (lower_char c) = true.
Proof.
  intros N. destruct (lower_char_cases c N) as [[F ->]|[_ F]]; [cbn; now rewrite F|].
  rewrite forallb_forall in *. intros x Hx. now apply plain_fixed, F.
Qed.
Lemma lower_go_fixed s : forall b, forallb fixed (lower_go b s) = true.
Proof.
  induction s as [|c s IH]; intros b; cbn [lower_go]; [reflexivity|]. rewrite forallb_app, IH, andb_true_r.
  destruct (N.eqb_spec c 931) as [-> |N]; [|now apply lower_char_fixed]. destruct (next_is_cased b && negb (next_is_cased s)); vm_compute; reflexivity.
Qed.
Lemma fixed_lower_char c : fixed c = true -> N.eqb c 931 = false /\ lower_char c = [c].
Proof.
  unfold fixed, lower_char. destruct (N.eqb c 931); [discriminate|]. destruct (N.eqb c 304); [discriminate|].
  destruct (assoc_N c lower_pairs); [discriminate|]. auto.
Qed.
Lemma lower_go_id s : forallb fixed s = true -> forall b, lower_go b s = s.
Proof.
  induction s as [|c s IH]; intros H b; cbn [lower_go]; [reflexivity|]. cbn [forallb] in H. apply andb_true_iff in H as [Hc H].
  apply fixed_lower_char in Hc as [-> ->]. rewrite IH by exact H. reflexivity.
Qed.
Lemma lower_go_plain s : ~ In 931%N s -> forall b, lower_go b s = flat_map lower_char s.
Proof.
  induction s as [|c s IH]; intros H b; cbn [lower_go flat_map]; [reflexivity|].
  destruct (N.eqb_spec c 931) as [E|N]; [exfalso; apply H; now left|]. rewrite IH; [reflexivity|]. intros K. apply H. now right.
Qed.
Lemma lower_single (c : char) : c <> 931%N -> lower [c] = lower_char c.
Proof. intros N. unfold lower. cbn [lower_go]. destruct (N.eqb_spec c 931); [congruence|]. now rewrite app_nil_r. Qed.

(** ** replace *)
Lemma startswith_single c r d : startswith (c :: r) [d] = N.eqb c d.
Proof. cbn. destruct r; apply andb_true_r. Qed.
Lemma replace_single s c new : replace s [c] new = flat_map (fun x => if N.eqb x c then new else [x]) s.
Proof.
  unfold replace. induction s as [|x s IH]; cbn [replace_go flat_map]; [reflexivity|]. rewrite startswith_single.
  destruct (N.eqb x c); [cbn [List.length Nat.sub]; now rewrite IH|cbn [app]; now rewrite IH].
Qed.
Definition ss (c : char) : pystr := if N.eqb c sharp_s then u "ss" else [c].
Lemma flat_map_filter (p : char -> bool) s : flat_map (fun x => if p x then [] else [x]) s = filter (fun x => negb (p x)) s.
Proof. induction s as [|c s IH]; cbn [flat_map filter]; [reflexivity|]. rewrite IH. destruct (p c); reflexivity. Qed.
Lemma filter_filter {A} (p q : A -> bool) l : filter p (filter q l) = filter (fun x => q x && p x) l.
Proof.
  induction l as [|x l IH]; [reflexivity|]. cbn [filter]. destruct (q x); cbn [filter andb]; [|exact IH]. destruct (p x); now rewrite IH.
Qed.
Lemma comparable_eq s : make_name_comparable s = letters (flat_map ss (lower s)).
Proof.
  unfold make_name_comparable, letters. cbn [fold_left].
  change (u "ß") with [sharp_s]. change (u " ") with [32%N]. change (u "-") with [45%N]. change [chr_newline] with [10%N].
  rewrite !replace_single. fold ss. rewrite !flat_map_filter, !filter_filter. apply filter_ext. intros c. unfold is_separator.
  now destruct (N.eqb c 32), (N.eqb c 45), (N.eqb c 10).
Qed.

Lemma ss_fixed c : fixed c = true -> forallb fixed (ss c) = true.
Proof. intros H. unfold ss. destruct (N.eqb c sharp_s); [vm_compute; reflexivity|cbn; now rewrite H]. Qed.
Lemma comparable_fixed s : forallb fixed (make_name_comparable s) = true.
Proof.
  rewrite comparable_eq. rewrite forallb_forall. intros c Hc. apply filter_In in Hc as [Hc _]. apply in_flat_map in Hc as (d & Hd & Hc).
  pose proof (lower_go_fixed s []) as F. rewrite forallb_forall in F. apply F, ss_fixed in Hd. rewrite forallb_forall in Hd. now apply Hd.
Qed.
Lemma comparable_no_sharp_s s : ~ In sharp_s (make_name_comparable s).
Proof.
  rewrite comparable_eq. intros H. apply filter_In in H as [H _]. apply in_flat_map in H as (d & _ & H). unfold ss in H.
  destruct (N.eqb_spec d sharp_s) as [E|N].
  - vm_compute in H. intuition discriminate.
  - destruct H as [H|[]]. congruence.
Qed.
Lemma comparable_no_separator s c : In c (make_name_comparable s) -> is_separator c = false.
Proof. rewrite comparable_eq. intros H. apply filter_In in H as [_ H]. now apply negb_true_iff in H. Qed.
Lemma flat_map_id s : ~ In sharp_s s -> flat_map ss s = s.
Proof.
  induction s as [|c s IH]; intros H; cbn [flat_map]; [reflexivity|]. rewrite IH by (intros K; apply H; now right).
  unfold ss. destruct (N.eqb_spec c sharp_s) as [E|N]; [exfalso; apply H; now left|reflexivity].
Qed.
Lemma filter_all {A} (p : A -> bool) l : (forall x, In x l -> p x = true) -> filter p l = l.
Proof. induction l as [|x l IH]; intros H; cbn [filter]; [reflexivity|]. rewrite (H x (or_introl eq_refl)), IH; [reflexivity|]. intros y Hy. apply H. now right. Qed.
Lemma comparable_twice s : make_name_comparable (make_name_comparable s) = make_name_comparable s.
Proof.
  rewrite comparable_eq. unfold lower. rewrite lower_go_id by apply comparable_fixed. rewrite flat_map_id by apply comparable_no_sharp_s.
  apply filter_all. intros c Hc. apply comparable_no_separator in Hc. now rewrite Hc.
Qed.
Lemma comparable_lower s : make_name_comparable (lower s) = make_name_comparable s.
Proof. rewrite !comparable_eq. unfold lower. rewrite lower_go_id by apply lower_go_fixed. reflexivity. Qed.
Lemma letters_app a b : letters (a ++ b) = letters a ++ letters b.
Proof. apply filter_app. Qed.
Lemma letter_folded (c : char) : c <> 931%N -> letters (flat_map ss (lower_char c)) = if is_separator c then [] else folded c.
Proof.
  intros N. unfold folded. rewrite (lower_single c N). destruct (lower_char_cases c N) as [[F E]|[F P]].
  - rewrite E. cbn [flat_map str_eqb]. rewrite app_nil_r, andb_true_r. unfold ss. destruct (N.eqb_spec c sharp_s) as [-> |Ns]; [reflexivity|].
    unfold letters. cbn [filter]. destruct (is_separator c); reflexivity.
  - assert (S : is_separator c = false).
    { destruct (is_separator c) eqn:S; [|reflexivity]. unfold is_separator in S. apply orb_true_iff in S as [S|S]; [apply orb_true_iff in S as [S|S]|];
        apply N.eqb_eq in S; subst c; vm_compute in F; discriminate. }
    rewrite S. unfold lower_char in *. destruct (N.eqb c 304); [vm_compute; reflexivity|]. destruct (assoc_N c lower_pairs) as [d|] eqn:A.
    + cbn [flat_map str_eqb]. rewrite app_nil_r, andb_true_r. unfold ss. destruct (N.eqb d sharp_s); [reflexivity|].
      cbn in P. rewrite andb_true_r in P. unfold plain_letter in P. rewrite !andb_true_iff in P. destruct P as [[_ P] _]. unfold letters. cbn [filter]. now rewrite P.
    + cbn [flat_map str_eqb]. rewrite app_nil_r, andb_true_r. unfold ss. destruct (N.eqb c sharp_s); [reflexivity|]. unfold letters. cbn [filter]. now rewrite S.
Qed.
Lemma comparable_folded s : ~ In capital_sigma s -> make_name_comparable s = flat_map folded (letters s).
Proof.
  intros H. rewrite comparable_eq. unfold lower. rewrite lower_go_plain by exact H. induction s as [|c s IH]; [reflexivity|].
  cbn [flat_map]. rewrite flat_map_app, letters_app, IH by (intros K; apply H; now right). rewrite letter_folded by (intros ->; apply H; now left).
  unfold letters at 2. cbn [filter]. destruct (is_separator c); reflexivity.
Qed.

(** ** similar names *)
Lemma similar_spec x y : are_similar_names x y = true <->
  (no_name x /\ no_name y) \/ exists a b, x = Some a /\ y = Some b /\ a <> [] /\ b <> [] /\ make_name_comparable a = make_name_comparable b.
Proof.
  unfold are_similar_names, no_name. destruct x as [[|c a]|], y as [[|d b]|]; cbn [otruthy truthy andb orb negb option_map]; split; auto; try discriminate;
    try (intros [[[?|?] [?|?]]|(? & ? & ? & ? & ? & ? & ?)]; congruence).
  - intros H. right. exists (c :: a), (d :: b). repeat split; try discriminate. apply ostr_eqb_eq in H. congruence.
  - intros [[[?|?] _]|(a' & b' & [= <-] & [= <-] & _ & _ & E)]; try discriminate. apply ostr_eqb_eq. now rewrite E.
Qed.

(** ** trees *)
Section ElementInd.
  Variable P : element -> Prop.
  Hypothesis H : forall tag attrib text children, Forall P children -> P (Element tag attrib text children).
  Fixpoint element_ind' (e : element) : P e :=
    match e with
    | Element tag attrib text children =>
        H tag attrib text children
          ((fix go (l : list element) : Forall P l :=
              match l with
              | [] => Forall_nil P
              | c :: r => Forall_cons c (element_ind' c) (go r)
              end) children)
    end.
End ElementInd.

Definition renamed (kv : pystr * pystr) : pystr * pystr :=
  (fst kv, if str_in (fst kv) [u "name"; u "ahbName"] then make_name_comparable (snd kv) else snd kv).
Lemma dict_set_middle {V} k (v v' : V) a b : ~ In k (map fst a) -> dict_set k v' (a ++ (k, v) :: b) = a ++ (k, v') :: b.
Proof.
  induction a as [|[k0 v0] a IH]; intros H; cbn [app dict_set].
  - destruct (str_eqb_spec k k); [reflexivity|congruence].
  - destruct (str_eqb_spec k k0) as [-> |N]; [exfalso; apply H; now left|]. rewrite IH; [reflexivity|]. intros K. apply H. now right.
Qed.
Lemma comparable_attributes_eq l : NoDup (map fst l) -> comparable_attributes l = map renamed l.
Proof.
  unfold comparable_attributes. intros N.
  assert (K : forall done todo, NoDup (map fst (done ++ todo)) ->
    fold_left (fun a kv => if str_in (fst kv) [u "name"; u "ahbName"] then dict_set (fst kv) (make_name_comparable (snd kv)) a else a)
      todo (map renamed done ++ todo) = map renamed (done ++ todo)).
  { clear. intros done todo. revert done. induction todo as [|[k v] todo IH]; intros done N; cbn [fold_left fst snd].
    - now rewrite !app_nil_r.
    - assert (Nk : ~ In k (map fst (map renamed done))).
      { rewrite map_map. cbn [renamed fst]. rewrite map_app in N. cbn [map fst] in N. apply NoDup_remove_2 in N. intros K. apply N. apply in_or_app. now left. }
      assert (E : (if str_in k [u "name"; u "ahbName"] then dict_set k (make_name_comparable v) (map renamed done ++ (k, v) :: todo)
                   else map renamed done ++ (k, v) :: todo) = map renamed (done ++ [(k, v)]) ++ todo).
      { rewrite map_app, <- app_assoc. cbn [map app].
        replace (renamed (k, v)) with (k, if str_in k [u "name"; u "ahbName"] then make_name_comparable v else v) by reflexivity.
        destruct (str_in k [u "name"; u "ahbName"]); [|reflexivity]. now rewrite dict_set_middle by exact Nk. }
      rewrite E, IH; rewrite <- app_assoc; [reflexivity|exact N]. }
  exact (K [] l N).
Qed.
Lemma str_in_names k : str_in k [u "name"; u "ahbName"] = true <-> k = u "name" \/ k = u "ahbName".
Proof. rewrite str_in_In. cbn [In]. intuition. Qed.
Lemma tree_same e : unique_attributes e -> same_but_names make_name_comparable e (make_tree_names_comparable e).
Proof.
  induction e as [tag attrib text children IH] using element_ind'. intros U. inversion U as [? ? ? ? N Uc]; subst. cbn [make_tree_names_comparable].
  constructor.
  - rewrite comparable_attributes_eq by exact N. clear. induction attrib as [|[k v] l IHl]; cbn [map]; constructor; [|exact IHl].
    unfold renamed. cbn [fst snd]. split; [reflexivity|]. split.
    + intros K. apply str_in_names in K. now rewrite K.
    + intros A B. destruct (str_in k [u "name"; u "ahbName"]) eqn:E; [|reflexivity]. apply str_in_names in E as [E|E]; congruence.
  - clear N U. induction children as [|c children IHc]; cbn [map]; constructor; inversion IH; inversion Uc; subst; auto.
Qed.
Lemma renamed_twice kv : renamed (renamed kv) = renamed kv.
Proof. unfold renamed. cbn [fst snd]. destruct (str_in (fst kv) [u "name"; u "ahbName"]); [|reflexivity]. now rewrite comparable_twice. Qed.
Lemma tree_twice e : unique_attributes e -> make_tree_names_comparable (make_tree_names_comparable e) = make_tree_names_comparable e.
Proof.
  induction e as [tag attrib text children IH] using element_ind'. intros U. inversion U as [? ? ? ? N Uc]; subst. cbn [make_tree_names_comparable].
  f_equal.
  - rewrite (comparable_attributes_eq attrib) by exact N. rewrite comparable_attributes_eq.
    + rewrite map_map. apply map_ext. exact renamed_twice.
    + rewrite map_map. exact N.
  - rewrite map_map. clear N U. induction children as [|c children IHc]; cbn [map]; [reflexivity|]. inversion IH; inversion Uc; subst. f_equal; auto.
Qed.
(** the shape of the tree stays the same *)
Lemma tree_children e : el_children (make_tree_names_comparable e) = map make_tree_names_comparable (el_children e).
Proof. destruct e. reflexivity. Qed.
Lemma tree_tag e : el_tag (make_tree_names_comparable e) = el_tag e.
Proof. destruct e. reflexivity. Qed.
Lemma index_among_map tag l : index_among tag (map make_tree_names_comparable l) = index_among tag l.
Proof. induction l as [|e l IH]; cbn [index_among map]; [reflexivity|]. now rewrite tree_tag, IH. Qed.
Lemma getpath_go_same p : forall e, getpath_go (make_tree_names_comparable e) p = getpath_go e p.
Proof.
  induction p as [|i p IH]; intros e; cbn [getpath_go]; [reflexivity|]. rewrite tree_children, nth_error_map.
  destruct (nth_error (el_children e) i) as [c|]; cbn [option_map]; [|reflexivity]. rewrite tree_tag, firstn_map, !index_among_map, IH. reflexivity.
Qed.
Lemma getpath_same e p : getpath (make_tree_names_comparable e) p = getpath e p.
Proof. unfold getpath. now rewrite tree_tag, getpath_go_same. Qed.
