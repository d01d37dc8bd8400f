(** Lemmas: the layout of a MIG XML document *)
From Coq Require Import Ascii String List NArith ZArith Bool Lia Arith Permutation.
From Verif Require Import PyBase PyStr PyRe M_Components M_Navigation M_Xml M_XmlText M_MigXml M_MigFile M_Ahb M_Sgh M_Matching.
From Verif Require Import L_Base S_Text L_Str L_Names S_MigFile.
Import ListNotations.
Local Open Scope list_scope.

Lemma dict_get_in {V} k (l : list (pystr * V)) v : NoDup (map fst l) -> (dict_get k l = Some v <-> In (k, v) l).
Proof.
  induction l as [|[k0 v0] l IH]; cbn [dict_get map fst]; intros N0; [split; [discriminate|intros []]|]. inversion N0 as [|? ? NI N1]; subst. cbn [In].
  destruct (str_eqb k k0) eqn:E.
  - apply str_eqb_eq in E. subst k0. split; [intros [= ->]; now left|]. intros [K|K]; [congruence|]. destruct NI. change k with (fst (k, v)). now apply in_map.
  - rewrite (IH N1). split; [auto|]. intros [K|K]; [|exact K]. injection K as -> _. assert (str_eqb k k = true) by now apply str_eqb_eq. congruence.
Qed.
Lemma dict_get_permutation {V} k (l l' : list (pystr * V)) : NoDup (map fst l) -> Permutation l l' -> dict_get k l = dict_get k l'.
Proof.
  intros N0 P. assert (N1 : NoDup (map fst l')) by (eapply Permutation_NoDup; [apply Permutation_map; exact P|exact N0]).
  destruct (dict_get k l) as [v|] eqn:E; destruct (dict_get k l') as [v'|] eqn:E'; try reflexivity.
  - apply dict_get_in in E; [|exact N0]. apply (Permutation_in _ P) in E. apply dict_get_in in E; [|exact N1]. congruence.
  - apply dict_get_in in E; [|exact N0]. apply (Permutation_in _ P) in E. apply dict_get_in in E; [|exact N1]. congruence.
  - apply dict_get_in in E'; [|exact N1]. apply (Permutation_in _ (Permutation_sym P)) in E'. apply dict_get_in in E'; [|exact N0]. congruence.
Qed.
Lemma same_tag e e' : same_structure e e' -> el_tag e = el_tag e'.
Proof. now intros []. Qed.
Lemma same_attr e e' k : same_structure e e' -> attr k e = attr k e'.
Proof. intros [n l l' t t' cs cs' N0 P F]. unfold attr. cbn [el_attrib]. now apply dict_get_permutation. Qed.
Lemma same_children e e' : same_structure e e' -> Forall2 same_structure (el_children e) (el_children e').
Proof. now intros []. Qed.
Lemma forall2_nth {A B} (R : A -> B -> Prop) l l' i : Forall2 R l l' ->
  match nth_error l i, nth_error l' i with Some a, Some b => R a b | None, None => True | _, _ => False end.
Proof. intros F. revert i. induction F as [|a b l l' H F IH]; intros [|i]; cbn [nth_error]; auto. apply IH. Qed.
Lemma same_at p : forall e e', same_structure e e' ->
  match el_at e p, el_at e' p with Some a, Some b => same_structure a b | None, None => True | _, _ => False end.
Proof.
  induction p as [|i p IH]; intros e e' H; cbn [el_at]; [exact H|]. pose proof (forall2_nth _ _ _ i (same_children _ _ H)) as K.
  destruct (nth_error (el_children e) i), (nth_error (el_children e') i); try contradiction; [now apply IH|exact I].
Qed.
Lemma same_tags cs cs' : Forall2 same_structure cs cs' -> map el_tag cs = map el_tag cs'.
Proof. intros F. induction F as [|a b l l' H F IH]; cbn [map]; [reflexivity|]. now rewrite IH, (same_tag a b H). Qed.
Lemma index_among_tags tag l l' : map el_tag l = map el_tag l' -> index_among tag l = index_among tag l'.
Proof. revert l'. induction l as [|a l IH]; intros [|b l'] H; try discriminate; [reflexivity|]. cbn [map] in H. injection H as H1 H2. cbn [index_among]. now rewrite H1, (IH l' H2). Qed.
Lemma same_getpath p : forall e e', same_structure e e' -> getpath e p = getpath e' p.
Proof.
  intros e e' H. unfold getpath. rewrite (same_tag _ _ H). f_equal. revert e e' H. induction p as [|i p IH]; intros e e' H; cbn [getpath_go]; [reflexivity|].
  pose proof (same_children _ _ H) as F. pose proof (forall2_nth _ _ _ i F) as K. destruct (nth_error (el_children e) i) as [c|], (nth_error (el_children e') i) as [c'|]; try contradiction; [|reflexivity].
  cbv zeta. rewrite (same_tag _ _ K), (IH _ _ K). rewrite (index_among_tags (el_tag c') (firstn i (el_children e)) (firstn i (el_children e'))) by (rewrite <- !firstn_map, (same_tags _ _ F); reflexivity).
  now rewrite (index_among_tags (el_tag c') (el_children e) (el_children e')) by now apply same_tags.
Qed.
Lemma fold_left_ext {A B} (f g : A -> B -> A) l : (forall a b, f a b = g a b) -> forall a, fold_left f l a = fold_left g l a.
Proof. intros H. induction l as [|b l IH]; intros a; cbn [fold_left]; [reflexivity|]. now rewrite H, IH. Qed.
Lemma foldM_ext {A B} (f g : A -> B -> result A) l : (forall a b, f a b = g a b) -> forall a, foldM f a l = foldM g a l.
Proof. intros H. induction l as [|b l IH]; intros a; cbn [foldM]; [reflexivity|]. rewrite H. destruct (g a b); cbn [bind]; auto. Qed.

Section Same.
  Variable a b : element.
  Hypothesis H : same_structure a b.
  Lemma same_test (f : element -> bool) q : (forall x y, same_structure x y -> f x = f y) ->
    match el_at a q with Some e => f e | None => false end = match el_at b q with Some e => f e | None => false end.
  Proof. intros F. pose proof (same_at q a b H) as K. destruct (el_at a q), (el_at b q); try contradiction; auto. Qed.
  Lemma same_predicate ps p : apply_predicate a ps p = apply_predicate b ps p.
  Proof. destruct p as [key value|n]; [|reflexivity]. cbn [apply_predicate]. apply filter_ext. intros q. apply (same_test (fun e => ostr_eqb (attr key e) (Some value))). intros x y S0. now rewrite (same_attr x y key S0). Qed.
  Lemma same_select s ps : select a s ps = select b s ps.
  Proof.
    unfold select. rewrite (fold_left_ext (apply_predicate a) (apply_predicate b)) by apply same_predicate. f_equal. apply filter_ext. intros q. apply (same_test (fun e => str_eqb (el_tag e) (st_tag s))). intros x y S0. now rewrite (same_tag x y S0).
  Qed.
  Lemma same_children_of p : children_of a p = children_of b p.
  Proof. unfold children_of. pose proof (same_at p a b H) as K. destruct (el_at a p) as [x|], (el_at b p) as [y|]; try contradiction; [|reflexivity]. rewrite <- (map_length el_tag (el_children x)), (same_tags _ _ (same_children _ _ K)), map_length. reflexivity. Qed.
  Lemma same_xpath path : xpath a path = xpath b path.
  Proof.
    unfold xpath. destruct path as [|s path]; [reflexivity|]. rewrite same_select. apply fold_left_ext. intros ps t. apply flat_map_ext. intros p. now rewrite same_children_of, same_select.
  Qed.
  Lemma same_qualifiers key p : qualifier_set key (element_at a p) = qualifier_set key (element_at b p).
  Proof.
    unfold element_at. pose proof (same_at p a b H) as K. destruct (el_at a p) as [x|], (el_at b p) as [y|]; try contradiction; [|reflexivity]. unfold qualifier_set, get_nested_qualifiers. now rewrite (same_attr x y key K).
  Qed.
  Lemma same_candidate layer cs : get_candidate_index_from_key a layer cs = get_candidate_index_from_key b layer cs.
  Proof. unfold get_candidate_index_from_key. f_equal. apply foldM_ext. intros acc nc. now rewrite same_qualifiers. Qed.
  Lemma same_layer s layer : layer_iteration a s layer = layer_iteration b s layer.
  Proof. unfold layer_iteration. destruct s as (path & o). cbv zeta. rewrite same_xpath. destruct (xpath b _) as [|x [|y r]]; try reflexivity. now rewrite same_candidate. Qed.
  Lemma same_first_segment layer l : first_segment_candidate a layer l = first_segment_candidate b layer l.
  Proof. induction l as [|[n c] l IH]; cbn [first_segment_candidate]; [reflexivity|]. rewrite same_qualifiers. destruct (qualifier_set (u "key") (element_at b c)); cbn [bind]; [|reflexivity]. destruct layer; [|reflexivity]. now rewrite IH. Qed.
  Lemma same_segment l s : segment_stage a l s = segment_stage b l s.
  Proof.
    unfold segment_stage. destruct s as (path & o). destruct (lo_segment l) as [code|]; [|reflexivity]. destruct (str_eqb code (u "UNH")); [reflexivity|]. cbv zeta. rewrite same_xpath. destruct (xpath b _) as [|x [|y r]]; try reflexivity. now rewrite same_first_segment.
  Qed.
  Lemma same_one q l : forall f, one_candidate a q f l = one_candidate b q f l.
  Proof. induction l as [|[n c] l IH]; intros f; cbn [one_candidate]; [reflexivity|]. rewrite same_qualifiers. destruct (qualifier_set (u "ref") (element_at b c)); cbn [bind]; [|reflexivity]. destruct (str_in q _); [|apply IH]. destruct f; [reflexivity|apply IH]. Qed.
  Lemma same_get_element l : get_element (new_MigXmlReader a) l = get_element (new_MigXmlReader b) l.
  Proof.
    unfold get_element, get_format_name. cbn [new_MigXmlReader original_root]. rewrite (same_tag a b H). rewrite (foldM_ext (layer_iteration a) (layer_iteration b)) by apply same_layer.
    destruct (foldM (layer_iteration b) _ _) as [s|x]; cbn [bind]; [|reflexivity]. rewrite same_segment. destruct (segment_stage b l s) as [(path & cs)|x]; cbn [bind]; [|reflexivity].
    destruct (lo_element l) as [id|]; [|reflexivity]. cbv zeta. rewrite same_xpath. destruct (xpath b _) as [|x [|y r]]; try reflexivity. destruct (lo_qualifier l); [|reflexivity]. now rewrite same_one.
  Qed.
  Lemma same_first_attribute keys x y : same_structure x y -> first_attribute keys x = first_attribute keys y.
  Proof. intros S0. induction keys as [|k keys IH]; cbn [first_attribute]; [reflexivity|]. now rewrite (same_attr x y k S0), IH. Qed.
  Lemma same_iteration s leaf : stack_iteration a s leaf = stack_iteration b s leaf.
  Proof.
    unfold stack_iteration. destruct s as ((path & name) & levels). cbv zeta. rewrite same_xpath. destruct (xpath b _) as [|p r]; [reflexivity|].
    pose proof (same_at p a b H) as K. destruct (el_at a p) as [x|], (el_at b p) as [y|]; try contradiction; [|reflexivity]. rewrite (same_tag x y K). now rewrite (same_first_attribute _ x y K).
  Qed.
End Same.
Lemma sanitized_getpath p : forall e, getpath (make_tree_names_comparable e) p = getpath e p.
Proof.
  intros e. unfold getpath. assert (T : forall x, el_tag (make_tree_names_comparable x) = el_tag x) by now intros []. rewrite T. f_equal. revert e. induction p as [|i p IH]; intros [n l t cs]; [reflexivity|].
  cbn [make_tree_names_comparable getpath_go el_children]. rewrite nth_error_map. destruct (nth_error cs i) as [c|]; cbn [option_map]; [|reflexivity]. cbv zeta. rewrite T, IH.
  assert (TT : forall xs, map el_tag (map make_tree_names_comparable xs) = map el_tag xs) by (intros xs; rewrite map_map; now apply map_ext).
  rewrite (index_among_tags (el_tag c) (firstn i (map make_tree_names_comparable cs)) (firstn i cs)) by (rewrite firstn_map; apply TT).
  now rewrite (index_among_tags (el_tag c) (map make_tree_names_comparable cs) cs) by apply TT.
Qed.
Lemma same_stack a b p sanitized : same_structure a b ->
  element_to_edifact_stack (new_MigXmlReader a) p sanitized = element_to_edifact_stack (new_MigXmlReader b) p sanitized.
Proof.
  intros H. unfold element_to_edifact_stack. cbn [new_MigXmlReader original_root sanitized_root].
  assert (G : getpath (if sanitized then make_tree_names_comparable a else a) p = getpath (if sanitized then make_tree_names_comparable b else b) p) by (destruct sanitized; rewrite ?sanitized_getpath; now apply same_getpath).
  cbv zeta. rewrite G. now rewrite (foldM_ext (stack_iteration a) (stack_iteration b)) by (intros; now apply same_iteration).
Qed.

(** ** namespaces *)
Lemma namespace_name n : is_namespace_name n = false <-> local_name n.
Proof.
  unfold is_namespace_name, local_name. rewrite orb_false_iff. split; intros (A & B); split.
  - intros I. assert (K : contains n (u ":") = true); [|congruence]. apply contains_spec. apply in_split in I as (x & y & ->). now exists x, y.
  - intros ->. discriminate B.
  - destruct (contains n (u ":")) eqn:E; [|reflexivity]. apply contains_spec in E as (x & y & ->). destruct A. apply in_or_app. right. now left.
  - destruct (str_eqb n (u "xmlns")) eqn:E; [|reflexivity]. apply str_eqb_eq in E. contradiction.
Qed.
Lemma existsb_false {A} (f : A -> bool) l : existsb f l = false <-> Forall (fun x => f x = false) l.
Proof. induction l as [|x l IH]; cbn [existsb]; [split; auto|]. rewrite orb_false_iff, IH. split; [intros (? & ?); now constructor|]. intros F. inversion F; auto. Qed.
Lemma namespaces_spec e : uses_namespaces e = false <-> no_namespaces e.
Proof.
  induction e as [n l t cs IH] using element_ind'. cbn [uses_namespaces]. rewrite !orb_false_iff, namespace_name, !existsb_false. split.
  - intros ((A & B) & C). constructor; [exact A|eapply Forall_impl; [|exact B]; cbn beta; intros kv; apply namespace_name|]. clear -IH C. induction C; inversion IH; subst; constructor; [now apply H2|auto].
  - intros K. inversion K as [? ? ? ? A B C]; subst. split; [split; [exact A|eapply Forall_impl; [|exact B]; cbn beta; intros kv; apply namespace_name]|]. clear -IH C. induction C; inversion IH; subst; constructor; [now apply H2|auto].
Qed.
Lemma same_namespaces a : forall b, same_structure a b -> no_namespaces a -> no_namespaces b.
Proof.
  induction a as [n l t cs IH] using element_ind'. intros b H N0. inversion H as [? ? l' ? t' ? cs' ND P F]; subst. inversion N0 as [? ? ? ? A B C]; subst. constructor; [exact A|now rewrite <- P|].
  clear -IH F C. induction F as [|x y xs ys H F IHF]; [constructor|]. inversion IH; inversion C; subst. constructor; [now apply H2|now apply IHF].
Qed.

(** ** the MIG reader of the conversion *)
Lemma deep_ext r r' str flat h : (forall l, r l = r' l) -> to_deep_ahb r str flat h = to_deep_ahb r' str flat h.
Proof.
  intros H. unfold to_deep_ahb. cbv zeta. f_equal. destruct (determine_locations h (fa_lines flat)) as [ls|x]; cbn [bind]; [|reflexivity].
  rewrite (foldM_ext (deep_step r str) (deep_step r' str)); [reflexivity|]. intros st (key & g). unfold deep_step. cbv zeta.
  assert (R : forall n p, retry_stack r n p = retry_stack r' n p) by (induction n as [|n IH]; intros p; cbn [retry_stack]; [reflexivity|]; rewrite H; destruct (r' p) as [|[]]; auto).
  assert (L : forall p, lookup_stack r p g = lookup_stack r' p g).
  { intros p. unfold lookup_stack. rewrite H. destruct (r' p) as [|[]]; auto. destruct (Nat.ltb 1 (List.length g)); [|reflexivity]. destruct g as [|[? ?] ?]; [reflexivity|]. apply R. }
  rewrite L. reflexivity.
Qed.
