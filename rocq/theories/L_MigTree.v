(** Lemmas about XPath expressions and about the search in a MIG. *)
From Coq Require Import Ascii String List NArith ZArith Bool Lia Arith Sorted.
From Verif Require Import PyBase PyStr PyRe M_Components M_Navigation M_Xml M_MigXml S_Text L_Base L_Str L_ValuePool S_MigXml L_Qualifiers L_Names.
Import ListNotations.
Local Open Scope list_scope.

(** ** positions *)
Lemma el_at_position root p e : el_at root p = Some e <-> at_position root p e.
Proof.
  revert root; induction p as [|i p IH]; intros root; cbn [el_at].
  - split; [intros [= ->]; constructor|intros H; inversion H; reflexivity].
  - destruct (nth_error (el_children root) i) as [c|] eqn:E.
    + rewrite IH. split; [intros H; econstructor; eauto|intros H; inversion H; subst; congruence].
    + split; [discriminate|]. intros H; inversion H; subst; congruence.
Qed.
Lemma el_at_app root p q : el_at root (p ++ q) = match el_at root p with Some e => el_at e q | None => None end.
Proof.
  revert root; induction p as [|i p IH]; intros root; cbn [el_at app]; [reflexivity|]. destruct (nth_error (el_children root) i); [apply IH|reflexivity].
Qed.
Lemma el_at_child root p i : el_at root (p ++ [i]) = match el_at root p with Some e => nth_error (el_children e) i | None => None end.
Proof. rewrite el_at_app. destruct (el_at root p) as [e|]; [|reflexivity]. cbn [el_at]. now destruct (nth_error (el_children e) i). Qed.

(** ** the indices of the elements with a property *)
Fixpoint places (f : element -> bool) (l : list element) (k : nat) : list nat :=
  match l with
  | [] => []
  | e :: r => (if f e then [k] else []) ++ places f r (S k)
  end.
Lemma places_ge f l : forall k i, In i (places f l k) -> k <= i.
Proof.
  induction l as [|e l IH]; intros k i; cbn [places]; [intros []|]. intros H. apply in_app_or in H as [H|H].
  - destruct (f e); [destruct H as [<-|[]]; lia|destruct H].
  - apply IH in H. lia.
Qed.
Lemma in_places f l : forall k i, In i (places f l k) <-> exists e, k <= i /\ nth_error l (i - k) = Some e /\ f e = true.
Proof.
  induction l as [|e l IH]; intros k i; cbn [places].
  - split; [intros []|]. intros (e & _ & H & _). destruct (i - k); discriminate.
  - rewrite in_app_iff, IH. split.
    + intros [H|(e' & L & H & F)].
      * destruct (f e) eqn:Fe; [|destruct H]. destruct H as [<-|[]]. exists e. rewrite Nat.sub_diag. auto.
      * exists e'. split; [lia|]. replace (i - k) with (S (i - S k)) by lia. auto.
    + intros (e' & L & H & F). destruct (Nat.eq_dec i k) as [-> |Ne].
      * rewrite Nat.sub_diag in H. injection H as ->. rewrite F. left. now left.
      * right. exists e'. split; [lia|]. replace (i - k) with (S (i - S k)) in H by lia. auto.
Qed.
Lemma places_sorted f l : forall k, StronglySorted lt (places f l k).
Proof.
  induction l as [|e l IH]; intros k; cbn [places]; [constructor|]. destruct (f e); cbn [app]; [|apply IH]. constructor; [apply IH|].
  apply Forall_forall. intros i Hi. apply places_ge in Hi. lia.
Qed.
Lemma sorted_unique l : forall l', StronglySorted lt l -> StronglySorted lt l' -> (forall i, In i l <-> In i l') -> l = l'.
Proof.
  induction l as [|x l IH]; intros [|y l'] S S' E.
  - reflexivity.
  - exfalso. apply (proj2 (E y)). now left.
  - exfalso. apply (proj1 (E x)). now left.
  - inversion S as [|? ? Sl Fl]; inversion S' as [|? ? Sl' Fl']; subst. rewrite Forall_forall in Fl, Fl'.
    assert (x = y) as <-.
    { destruct (proj1 (E x) (or_introl eq_refl)) as [->|H]; [reflexivity|]. destruct (proj2 (E y) (or_introl eq_refl)) as [->|H']; [reflexivity|].
      apply Fl' in H. apply Fl in H'. lia. }
    f_equal. apply IH; auto. intros i. split; intros H.
    + destruct (proj1 (E i) (or_intror H)) as [->|K]; [|exact K]. apply Fl in H. lia.
    + destruct (proj2 (E i) (or_intror H)) as [->|K]; [|exact K]. apply Fl' in H. lia.
Qed.
Lemma places_filter f g l : forall k (p : pos) (P : pos -> bool),
  (forall i e, nth_error l i = Some e -> P (p ++ [k + i]) = g e) ->
  filter P (map (fun i => p ++ [i]) (places f l k)) = map (fun i => p ++ [i]) (places (fun e => f e && g e) l k).
Proof.
  induction l as [|e l IH]; intros k p P H; cbn [places]; [reflexivity|].
  assert (R : filter P (map (fun i => p ++ [i]) (places f l (S k))) = map (fun i => p ++ [i]) (places (fun e => f e && g e) l (S k))).
  { apply IH. intros i e' Hi. rewrite <- (H (S i) e' Hi). do 3 f_equal. lia. }
  pose proof (H 0 e eq_refl) as H0. rewrite Nat.add_0_r in H0. destruct (f e); cbn [app map filter andb]; [|exact R]. rewrite H0. destruct (g e); cbn [app map]; now rewrite R.
Qed.
Lemma seq_places l : forall k, seq k (List.length l) = places (fun _ => true) l k.
Proof. induction l as [|e l IH]; intros k; cbn [List.length seq places app]; [reflexivity|]. now rewrite IH. Qed.
Lemma places_ext f g l : (forall e, f e = g e) -> forall k, places f l k = places g l k.
Proof. intros H. induction l as [|e l IH]; intros k; cbn [places]; [reflexivity|]. now rewrite H, IH. Qed.

(** ** steps *)
Definition kids (root : element) (p : pos) (f : element -> bool) : list nat :=
  match el_at root p with Some e => places f (el_children e) 0 | None => [] end.
Definition below (p : pos) (is : list nat) : list pos := map (fun i => p ++ [i]) is.
Lemma select_tag root p s : select root s (children_of root p)
  = fold_left (apply_predicate root) (st_predicates s) (below p (kids root p (fun e => str_eqb (el_tag e) (st_tag s)))).
Proof.
  unfold select, children_of, kids, below. f_equal. destruct (el_at root p) as [e|] eqn:E; [|reflexivity].
  rewrite seq_places. rewrite (places_filter _ (fun e => str_eqb (el_tag e) (st_tag s))); [reflexivity|].
  intros i c Hi. rewrite el_at_child, E. cbn [Nat.add]. now rewrite Hi.
Qed.
Definition tagged (tag key value : pystr) (e : element) : bool := str_eqb (el_tag e) tag && ostr_eqb (attr key e) (Some value).
Lemma apply_attr root p f key value :
  apply_predicate root (below p (kids root p f)) (HasAttr key value) = below p (kids root p (fun e => f e && ostr_eqb (attr key e) (Some value))).
Proof.
  unfold kids, below. cbn [apply_predicate]. destruct (el_at root p) as [e|] eqn:E; [|reflexivity].
  apply places_filter. intros i c Hi. rewrite el_at_child, E. cbn [Nat.add]. now rewrite Hi.
Qed.
Lemma select_attr root p tag key value : select root (mkStep tag [HasAttr key value]) (children_of root p) = below p (kids root p (tagged tag key value)).
Proof. rewrite select_tag. cbn [st_predicates st_tag fold_left]. apply apply_attr. Qed.
Lemma select_attr_at root p tag key value n : select root (mkStep tag [HasAttr key value; Position (S n)]) (children_of root p)
  = match nth_error (kids root p (tagged tag key value)) n with Some i => [p ++ [i]] | None => [] end.
Proof.
  rewrite select_tag. cbn [st_predicates st_tag fold_left]. rewrite apply_attr. cbn [apply_predicate]. unfold below. rewrite nth_error_map.
  unfold tagged. match goal with |- context [nth_error ?l n] => destruct (nth_error l n) end; reflexivity.
Qed.
Lemma kids_children_with root p tag key value : children_with root p tag key value (kids root p (tagged tag key value)).
Proof.
  unfold children_with, kids. destruct (el_at root p) as [e|] eqn:E.
  - split; [apply places_sorted|]. intros i. rewrite in_places. split.
    + intros (c & _ & Hc & T). rewrite Nat.sub_0_r in Hc. exists c. unfold tagged in T. apply andb_true_iff in T as [T1 T2].
      apply str_eqb_eq in T1. apply ostr_eqb_eq in T2. apply attr_carries in T2. split; [|auto]. apply el_at_position. now rewrite el_at_child, E.
    + intros (c & Hc & <- & A). apply el_at_position in Hc. rewrite el_at_child, E in Hc. exists c. split; [lia|]. rewrite Nat.sub_0_r. split; [exact Hc|].
      unfold tagged. apply attr_carries in A. rewrite A. apply andb_true_iff. split; [now apply str_eqb_eq|now apply ostr_eqb_eq].
  - split; [constructor|]. intros i. split; [intros []|]. intros (c & Hc & _). apply el_at_position in Hc. rewrite el_at_child, E in Hc. discriminate.
Qed.
Lemma children_with_kids root p tag key value is : children_with root p tag key value is <-> is = kids root p (tagged tag key value).
Proof.
  split; [|intros ->; apply kids_children_with]. intros [S H]. destruct (kids_children_with root p tag key value) as [S' H'].
  apply sorted_unique; auto. intros i. now rewrite H, H'.
Qed.

(** ** paths *)
Lemma xpath_snoc root path s : path <> [] -> xpath root (path ++ [s]) = flat_map (fun p => select root s (children_of root p)) (xpath root path).
Proof. intros N. destruct path as [|s0 path]; [congruence|]. cbn [xpath app]. now rewrite fold_left_app. Qed.
Lemma xpath_snoc_single root path s p : path <> [] -> xpath root path = [p] -> xpath root (path ++ [s]) = select root s (children_of root p).
Proof. intros N E. rewrite xpath_snoc by exact N. rewrite E. cbn [flat_map]. apply app_nil_r. Qed.

(** ** getpath *)
Lemma places_count tag l : forall k, List.length (places (fun e => str_eqb (el_tag e) tag) l k) = index_among tag l.
Proof. induction l as [|e l IH]; intros k; cbn [places index_among]; [reflexivity|]. rewrite app_length, IH. now destruct (str_eqb (el_tag e) tag). Qed.
Lemma places_nth tag l : forall k i c, nth_error l i = Some c -> el_tag c = tag ->
  nth_error (places (fun e => str_eqb (el_tag e) tag) l k) (index_among tag (firstn i l)) = Some (k + i).
Proof.
  induction l as [|e l IH]; intros k [|i] c H T; try discriminate; cbn [nth_error] in H.
  - injection H as ->. cbn [places firstn index_among]. destruct (str_eqb_spec (el_tag c) tag); [|congruence]. cbn. now rewrite Nat.add_0_r.
  - cbn [places firstn index_among]. rewrite <- Nat.add_succ_comm. destruct (str_eqb (el_tag e) tag); cbn [app Nat.add nth_error]; now apply IH with c.
Qed.
Definition step_to (e c : element) (i : nat) : step :=
  mkStep (el_tag c) (if Nat.eqb (index_among (el_tag c) (el_children e)) 1 then [] else [Position (S (index_among (el_tag c) (firstn i (el_children e))))]).
Lemma select_step root p e c i : el_at root p = Some e -> nth_error (el_children e) i = Some c ->
  select root (step_to e c i) (children_of root p) = [p ++ [i]].
Proof.
  intros E C. rewrite select_tag. cbn [step_to st_predicates st_tag]. unfold kids. rewrite E.
  pose proof (places_nth (el_tag c) (el_children e) 0 i c C eq_refl) as N. cbn [Nat.add] in N.
  pose proof (places_count (el_tag c) (el_children e) 0) as L.
  destruct (Nat.eqb_spec (index_among (el_tag c) (el_children e)) 1) as [E1|E1]; cbn [fold_left].
  - rewrite E1 in L. destruct (places (fun e0 => str_eqb (el_tag e0) (el_tag c)) (el_children e) 0) as [|x [|y l]]; try discriminate L.
    destruct (index_among (el_tag c) (firstn i (el_children e))) as [|[|]]; cbn in N; [|discriminate|discriminate]. injection N as ->. reflexivity.
  - cbn [apply_predicate]. unfold below. now rewrite nth_error_map, N.
Qed.
Lemma getpath_go_snoc p : forall root e c i, el_at root p = Some e -> nth_error (el_children e) i = Some c ->
  getpath_go root (p ++ [i]) = getpath_go root p ++ [step_to e c i].
Proof.
  induction p as [|j p IH]; intros root e c i E C; cbn [app getpath_go el_at] in *.
  - injection E as ->. rewrite C. reflexivity.
  - destruct (nth_error (el_children root) j) as [d|]; [|discriminate]. cbn [app]. f_equal. now apply IH.
Qed.
Lemma xpath_getpath root p : forall e, el_at root p = Some e -> xpath root (getpath root p) = [p].
Proof.
  induction p as [|i p IH] using rev_ind; intros e E.
  - unfold getpath. cbn [getpath_go xpath fold_left]. unfold select. cbn [st_predicates fold_left filter st_tag el_at].
    destruct (str_eqb_spec (el_tag root) (el_tag root)); [reflexivity|congruence].
  - rewrite el_at_child in E. destruct (el_at root p) as [d|] eqn:D; [|discriminate]. unfold getpath. rewrite (getpath_go_snoc p root d e i D E).
    change (xpath root (getpath root p ++ [step_to d e i]) = [p ++ [i]]). rewrite (xpath_snoc_single root _ _ p); [|discriminate|now apply IH with d].
    now apply select_step.
Qed.

(** ** stacks *)
Lemma first_attribute_some keys e v : first_attribute keys e = Some v <-> first_carried keys e v.
Proof.
  unfold first_carried. induction keys as [|k keys IH]; cbn [first_attribute].
  - split; [discriminate|]. intros ([|] & k & a & E & _); discriminate.
  - destruct (attr k e) as [w|] eqn:A.
    + split.
      * intros [= ->]. exists [], k, keys. split; [reflexivity|]. split; [constructor|now apply attr_carries].
      * intros ([|k0 b] & k' & a & E & F & C).
        -- injection E as -> ->. apply attr_carries in C. congruence.
        -- injection E as <- E. inversion F as [|? ? L _]; subst. apply attr_lacks in L. congruence.
    + rewrite IH. split.
      * intros (b & k' & a & -> & F & C). exists (k :: b), k', a. split; [reflexivity|]. split; [constructor; [now apply attr_lacks|exact F]|exact C].
      * intros ([|k0 b] & k' & a & E & F & C).
        -- injection E as -> ->. apply attr_carries in C. congruence.
        -- injection E as <- E. inversion F; subst. eauto 7.
Qed.
Lemma first_attribute_none keys e : first_attribute keys e = None <-> Forall (lacks e) keys.
Proof.
  induction keys as [|k keys IH]; cbn [first_attribute]; [split; [constructor|reflexivity]|]. destruct (attr k e) as [w|] eqn:A.
  - split; [discriminate|]. intros F. inversion F as [|? ? L _]; subst. apply attr_lacks in L. congruence.
  - rewrite IH. split; [intros F; constructor; [now apply attr_lacks|exact F]|intros F; now inversion F].
Qed.
Lemma stack_iteration_step root p e c i name levels : el_at root p = Some e -> nth_error (el_children e) i = Some c ->
  stack_iteration root (getpath root p, name, levels) (step_to e c i)
  = match (match first_attribute (name_attributes c) c with Some n => Some n | None => name end) with
    | None => Raise UnboundLocalError
    | Some n => Ok (getpath root (p ++ [i]), Some n, levels ++ [mkLevel n (str_eqb (el_tag c) (u "class")) None])
    end.
Proof.
  intros E C. unfold stack_iteration. assert (A : el_at root (p ++ [i]) = Some c) by now rewrite el_at_child, E.
  assert (P : getpath root p ++ [step_to e c i] = getpath root (p ++ [i])).
  { unfold getpath. now rewrite (getpath_go_snoc p root e c i E C). }
  rewrite P, (xpath_getpath root (p ++ [i]) c A), A. unfold name_attributes.
  destruct (match first_attribute _ c with Some n => Some n | None => name end); reflexivity.
Qed.
Lemma groupable_iff e : str_eqb (el_tag e) (u "class") = true <-> el_tag e = u "class".
Proof. apply str_eqb_eq. Qed.
Lemma bool_by_iff (b g : bool) (P : Prop) : (b = true <-> P) -> (g = true <-> P) -> g = b.
Proof. intros HA HB. apply eq_true_iff_eq. now rewrite HA, HB. Qed.
Lemma stack_loop root : forall q es e p name levels, way e q es -> el_at root p = Some e ->
  (forall ls, levels_for name es ls ->
     exists s, foldM (stack_iteration root) (getpath root p, name, levels) (getpath_go e q) = Ok s /\ snd s = levels ++ ls)
  /\ (forall s, foldM (stack_iteration root) (getpath root p, name, levels) (getpath_go e q) = Ok s -> exists ls, levels_for name es ls /\ snd s = levels ++ ls)
  /\ (forall x, foldM (stack_iteration root) (getpath root p, name, levels) (getpath_go e q) = Raise x ->
       x = UnboundLocalError /\ name = None /\ exists e' es', es = e' :: es' /\ nameless e').
Proof.
  induction q as [|i q IH]; intros es e p name levels W E; inversion W as [|? ? c ? es' C W']; subst; cbn [getpath_go].
  - split; [|split].
    + intros ls H. inversion H; subst. eexists. split; [reflexivity|]. cbn. now rewrite app_nil_r.
    + intros s [= <-]. exists []. split; [constructor|cbn; now rewrite app_nil_r].
    + discriminate.
  - rewrite C. fold (step_to e c i). cbn [foldM]. rewrite (stack_iteration_step root p e c i name levels E C).
    assert (A : el_at root (p ++ [i]) = Some c) by now rewrite el_at_child, E.
    pose proof (groupable_iff c) as G. destruct (first_attribute (name_attributes c) c) as [n|] eqn:F.
    + destruct (IH es' c (p ++ [i]) (Some n) (levels ++ [mkLevel n (str_eqb (el_tag c) (u "class")) None]) W' A) as (I1 & I2 & I3).
      cbn [bind]. apply first_attribute_some in F. split; [|split].
      * intros ls H. inversion H as [|? ? n' g ? ls' F' G' H'|? ? g ? ls' F' G' H']; subst.
        -- assert (n' = n) as -> by (apply first_attribute_some in F; apply first_attribute_some in F'; congruence).
           rewrite (bool_by_iff _ _ _ G G'). destruct (I1 _ H') as (s & Hs & Es). exists s. split; [exact Hs|]. now rewrite Es, <- app_assoc.
        -- apply first_attribute_some in F. unfold nameless in F'. apply first_attribute_none in F'. congruence.
      * intros s Hs. destruct (I2 _ Hs) as (ls & Hl & Es). exists (mkLevel n (str_eqb (el_tag c) (u "class")) None :: ls). split; [|now rewrite Es, <- app_assoc].
        constructor; auto.
      * intros x Hx. destruct (I3 _ Hx) as (_ & K & _). discriminate.
    + apply first_attribute_none in F. destruct name as [n|].
      * destruct (IH es' c (p ++ [i]) (Some n) (levels ++ [mkLevel n (str_eqb (el_tag c) (u "class")) None]) W' A) as (I1 & I2 & I3).
        cbn [bind]. split; [|split].
        -- intros ls H. inversion H as [|? ? n' g ? ls' F' G' H'|? ? g ? ls' F' G' H']; subst.
           ++ apply first_attribute_some in F'. apply first_attribute_none in F. congruence.
           ++ rewrite (bool_by_iff _ _ _ G G'). destruct (I1 _ H') as (s & Hs & Es). exists s. split; [exact Hs|]. now rewrite Es, <- app_assoc.
        -- intros s Hs. destruct (I2 _ Hs) as (ls & Hl & Es). exists (mkLevel n (str_eqb (el_tag c) (u "class")) None :: ls). split; [|now rewrite Es, <- app_assoc].
           apply inherited; auto.
        -- intros x Hx. destruct (I3 _ Hx) as (_ & K & _). discriminate.
      * cbn [bind]. split; [|split].
        -- intros ls H. inversion H as [|? ? n' g ? ls' F' G' H'|]; subst. apply first_attribute_some in F'. apply first_attribute_none in F. congruence.
        -- discriminate.
        -- intros x [= <-]. split; [reflexivity|]. split; [reflexivity|]. eauto.
Qed.
Lemma stack_of_position r p es : way (original_root r) p es -> forall b, sanitized_root r = make_tree_names_comparable (original_root r) ->
  (forall ls, element_to_edifact_stack r p b = Ok ls <-> levels_for None es ls)
  /\ (forall x, element_to_edifact_stack r p b = Raise x -> x = UnboundLocalError /\ exists e' es', es = e' :: es' /\ nameless e').
Proof.
  intros W b Sr. unfold element_to_edifact_stack. assert (G : getpath (if b then sanitized_root r else original_root r) p = getpath (original_root r) p).
  { destruct b; [rewrite Sr; apply getpath_same|reflexivity]. }
  rewrite G. cbn [firstn skipn getpath].
  destruct (stack_loop (original_root r) p es (original_root r) [] None [] W eq_refl) as (I1 & I2 & I3). unfold getpath in I1, I2, I3. cbn [getpath_go app] in I1, I2, I3.
  split.
  - intros ls. split.
    + intros H. apply bind_ok in H as ([[a n] l] & H & K). injection K as <-. destruct (I2 _ H) as (ls & Hl & El). cbn in El. now subst.
    + intros H. destruct (I1 _ H) as ([[a n] l] & Hs & El). cbn in El. subst. now rewrite Hs.
  - intros x H. destruct (foldM _ _ _) as [[[a n] l]|y] eqn:F; [discriminate|]. cbn in H. injection H as <-. destruct (I3 _ eq_refl) as (-> & _ & K). auto.
Qed.

(** ** reading qualifiers *)
Lemma nested_readable s : ~ unreadable s -> exists o, nested s = Ok o.
Proof.
  intros H. destruct (nested_cases s) as [(q & Hq)|(N & [(i & Hi)|Hi])].
  - rewrite (nested_one _ _ Hq). eauto.
  - rewrite (nested_loose _ _ Hi N). destruct (loose_mapM i (proj1 Hi)) as [_ K]. destruct K as (qs & ->); [|cbn; eauto].
    intros (j & E). apply H. split; [exact N|]. exists j. now rewrite <- E.
  - rewrite (nested_other _ N Hi). eauto.
Qed.
Lemma nested_raise s x : nested s = Raise x -> x = IndexError /\ unreadable s.
Proof.
  intros H. destruct (nested_cases s) as [(q & Hq)|(N & [(i & Hi)|Hi])].
  - rewrite (nested_one _ _ Hq) in H. discriminate.
  - rewrite (nested_loose _ _ Hi N) in H. destruct (mapM _ _) as [qs|y] eqn:M; [discriminate|]. cbn in H. injection H as <-.
    split; [apply mapM_raise in M as (a & _ & M); now apply second_raise in M|]. split; [exact N|].
    destruct (loose_mapM i (proj1 Hi)) as [K1 K2]. rewrite M in K1, K2.
    (* the text ends with the separator *)
    assert (D : (exists j, i = j ++ u "|") \/ ~ exists j, i = j ++ u "|").
    { destruct (rev i) as [|c r] eqn:R.
      - right. intros (j & E). rewrite E, rev_app_distr in R. discriminate.
      - assert (E : i = rev r ++ [c]) by (rewrite <- (rev_involutive i), R; reflexivity). destruct (N.eq_dec c (ch "|")) as [-> |Nc]; [left; exists (rev r); exact E|].
        right. intros (j & E'). rewrite E in E'. change (u "|") with [ch "|"] in E'. apply app_inj_tail in E' as [_ E']. congruence. }
    destruct D as [(j & E)|D]; [exists j; now rewrite <- E|]. destruct (K2 D) as (qs & E). discriminate.
  - rewrite (nested_other _ N Hi) in H. discriminate.
Qed.
Lemma unreadable_raises s : unreadable s -> nested s = Raise IndexError.
Proof.
  intros (N & i & Hi). rewrite (nested_loose _ _ Hi N). destruct (loose_mapM _ (proj1 Hi)) as [K _]. rewrite K by eauto. reflexivity.
Qed.
Lemma nested_some s qs : nested s = Ok (Some qs) <-> qualifiers_in s qs.
Proof.
  unfold qualifiers_in. destruct (nested_cases s) as [(q & Hq)|(N & [(i & Hi)|Hi])].
  - rewrite (nested_one _ _ Hq). split.
    + intros [= <-]. eauto.
    + intros [(q' & Hq' & ->)|(N & _)]; [now rewrite (one_qualifier_unique _ _ _ Hq Hq')|]. now apply N in Hq.
  - rewrite (nested_loose _ _ Hi N). split.
    + intros H. apply bind_ok in H as (l & M & H). injection H as <-. right. split; [exact N|]. exists i, (split_on (ch "|") i).
      split; [exact Hi|]. split; [apply split_on_parts|]. apply mapM_forall2 in M. clear -M. induction M; constructor; [now apply second_split|assumption].
    + intros [(q' & Hq' & _)|(_ & i' & ps & Hi' & P & F)]; [now apply N in Hq'|]. rewrite (loose_unique _ _ _ Hi Hi'), (split_on_unique _ _ _ P).
      apply bind_ok. exists qs. split; [|reflexivity]. apply mapM_forall2. clear -F. induction F; constructor; [now apply second_split|assumption].
  - rewrite (nested_other _ N Hi). split; [discriminate|]. intros [(q' & Hq' & _)|(_ & i' & ps & Hi' & _)]; [now apply N in Hq'|now apply Hi in Hi'].
Qed.
Lemma nested_none s : nested s = Ok None <-> (forall q, ~ one_qualifier s q) /\ (forall i, ~ loose_reference s i).
Proof.
  split; [|intros [N M]; now apply nested_other]. intros H. destruct (nested_cases s) as [(q & Hq)|(N & [(i & Hi)|Hi])].
  - rewrite (nested_one _ _ Hq) in H. discriminate.
  - rewrite (nested_loose _ _ Hi N) in H. destruct (mapM _ _); discriminate.
  - auto.
Qed.

Lemma qualifier_set_ok key e qs : qualifier_set key e = Ok qs -> readable e key /\ forall q, In q qs <-> mentions e key q.
Proof.
  unfold qualifier_set. rewrite get_nested_eq. destruct (attr key e) as [s|] eqn:A.
  - pose proof (proj1 (attr_carries e key s) A) as C. intros H. apply bind_ok in H as (o & H & E). injection E as <-. split.
    + intros s' C' U. apply attr_carries in C'. rewrite A in C'. injection C' as <-. apply unreadable_raises in U. congruence.
    + intros q. split.
      * destruct o as [l|]; [|intros []]. intros Hq. exists s, l. split; [exact C|]. split; [now apply nested_some|exact Hq].
      * intros (s' & l & C' & Q & Hq). apply attr_carries in C'. rewrite A in C'. injection C' as <-. apply nested_some in Q. rewrite Q in H. injection H as <-. exact Hq.
  - intros [= <-]. split.
    + intros s C. apply attr_carries in C. congruence.
    + intros q. split; [intros []|]. intros (s & l & C & _). apply attr_carries in C. congruence.
Qed.
Lemma qualifier_set_raise key e x : qualifier_set key e = Raise x -> x = IndexError /\ ~ readable e key.
Proof.
  unfold qualifier_set. rewrite get_nested_eq. destruct (attr key e) as [s|] eqn:A; [|discriminate]. intros H.
  destruct (nested s) as [o|y] eqn:N; [discriminate|]. cbn in H. injection H as <-. apply nested_raise in N as [-> U]. split; [reflexivity|].
  intros R. apply attr_carries in A. exact (R _ A U).
Qed.

(** ** the loops over the candidates *)
Section Loops.
  Context (root : element) (key : pystr) (q : option pystr).
  Definition keys_at (p : pos) : result (list pystr) := qualifier_set key (element_at root p).
  Definition has (p : pos) : bool := match keys_at p with Ok l => oqualifier_in q l | Raise _ => false end.
  Definition fine (p : pos) : Prop := exists l, keys_at p = Ok l.
  Lemma fine_dec p : {l | keys_at p = Ok l} + {x | keys_at p = Raise x}.
  Proof. destruct (keys_at p) eqn:E; [left|right]; eauto. Qed.
  Lemma has_ok p l : keys_at p = Ok l -> has p = oqualifier_in q l.
  Proof. unfold has. now intros ->. Qed.
  Lemma numbered_cons {A} k (x : A) l : combine (seq k (List.length (x :: l))) (x :: l) = (k, x) :: combine (seq (S k) (List.length l)) l.
  Proof. reflexivity. Qed.

  (** the first element with a property *)
  Definition first_has (l : list pos) (n : nat) : Prop :=
    exists a c b, l = a ++ c :: b /\ n = List.length a /\ has c = true /\ Forall (fun x => has x = false) a.
End Loops.

Lemma candidate_fold root y l : forall k acc,
  Forall (fine root (u "key")) l ->
  foldM (fun acc (nc : nat * pos) => let* key_set := qualifier_set (u "key") (element_at root (snd nc)) in
           Ok (if oqualifier_in (ly_qualifier y) key_set then acc ++ [fst nc] else acc)) acc (combine (seq k (List.length l)) l)
  = Ok (acc ++ map fst (filter (fun nc => has root (u "key") (ly_qualifier y) (snd nc)) (combine (seq k (List.length l)) l))).
Proof.
  induction l as [|p l IH]; intros k acc F.
  - cbn. now rewrite app_nil_r.
  - inversion F as [|? ? (s & Hs) Fl]; subst. rewrite numbered_cons. cbn [foldM snd fst]. fold (keys_at root (u "key") p). rewrite Hs. cbn [bind].
    cbn [filter snd]. rewrite (has_ok _ _ (ly_qualifier y) p s Hs). rewrite IH by exact Fl. destruct (oqualifier_in (ly_qualifier y) s); cbn [map fst]; [now rewrite <- app_assoc|reflexivity].
Qed.
Lemma candidate_fold_raise root y l x : forall k acc,
  foldM (fun acc (nc : nat * pos) => let* key_set := qualifier_set (u "key") (element_at root (snd nc)) in
           Ok (if oqualifier_in (ly_qualifier y) key_set then acc ++ [fst nc] else acc)) acc (combine (seq k (List.length l)) l) = Raise x ->
  x = IndexError /\ ~ Forall (fine root (u "key")) l.
Proof.
  induction l as [|p l IH]; intros k acc H; [discriminate|]. rewrite numbered_cons in H. cbn [foldM snd fst] in H. fold (keys_at root (u "key") p) in H.
  destruct (keys_at root (u "key") p) as [s|z] eqn:E.
  - cbn [bind] in H. apply IH in H as [-> H]. split; [reflexivity|]. intros F. inversion F. contradiction.
  - cbn [bind] in H. injection H as <-. apply qualifier_set_raise in E as E'. destruct E' as [-> _]. split; [reflexivity|]. intros F. inversion F as [|? ? (s & Hs)]. congruence.
Qed.
Lemma first_filter (h : pos -> bool) l : forall k,
  match map fst (filter (fun nc : nat * pos => h (snd nc)) (combine (seq k (List.length l)) l)) with
  | [] => Forall (fun x => h x = false) l
  | n :: _ => exists a c b, l = a ++ c :: b /\ n = k + List.length a /\ h c = true /\ Forall (fun x => h x = false) a
  end.
Proof.
  induction l as [|p l IH]; intros k; [constructor|]. rewrite numbered_cons. cbn [filter snd]. destruct (h p) eqn:Hp; cbn [map fst].
  - exists [], p, l. cbn. repeat split; auto; lia.
  - specialize (IH (S k)). destruct (map fst _) as [|n r]; [now constructor|]. destruct IH as (a & c & b & -> & -> & Hc & F).
    exists (p :: a), c, b. cbn. repeat split; auto; lia.
Qed.
Lemma first_has_unique {A} (h : A -> bool) a c b a' c' b' : a ++ c :: b = a' ++ c' :: b' ->
  h c = true -> h c' = true -> Forall (fun x => h x = false) a -> Forall (fun x => h x = false) a' -> a = a' /\ c = c' /\ b = b'.
Proof.
  revert a'; induction a as [|x a IH]; intros [|x' a'] E H H' F F'; cbn in E.
  - injection E as -> ->. auto.
  - injection E as -> _. inversion F'; congruence.
  - injection E as <- _. inversion F; congruence.
  - injection E as <- E. inversion F; inversion F'; subst. destruct (IH a' E) as (-> & -> & ->); auto.
Qed.
Lemma candidate_fold_fine root y l : forall k acc ps,
  foldM (fun acc (nc : nat * pos) => let* key_set := qualifier_set (u "key") (element_at root (snd nc)) in
           Ok (if oqualifier_in (ly_qualifier y) key_set then acc ++ [fst nc] else acc)) acc (combine (seq k (List.length l)) l) = Ok ps ->
  Forall (fine root (u "key")) l.
Proof.
  induction l as [|p l IH]; intros k acc ps H; constructor; rewrite numbered_cons in H; cbn [foldM snd] in H; apply bind_ok in H as (s & H & H').
  - apply bind_ok in H as (ks & H & _). exists ks. exact H.
  - eapply IH. exact H'.
Qed.
Lemma candidate_index_spec root y l n : get_candidate_index_from_key root y l = Ok n <->
  Forall (fine root (u "key")) l /\ first_has root (u "key") (ly_qualifier y) l n.
Proof.
  unfold get_candidate_index_from_key, enumerate, first_has. split.
  - intros H. apply bind_ok in H as (ps & Hp & H). apply bind_ok in H as ([] & Hc & H).
    assert (F : Forall (fine root (u "key")) l).
    { eapply candidate_fold_fine. exact Hp. }
    split; [exact F|]. rewrite (candidate_fold root y l 0 [] F) in Hp. injection Hp as <-. cbn [app] in *.
    pose proof (first_filter (has root (u "key") (ly_qualifier y)) l 0) as K.
    destruct (map fst _) as [|m r]; [discriminate|]. cbn in H. injection H as ->. exact K.
  - intros [F (a & c & b & E & -> & Hc & Fa)]. rewrite (candidate_fold root y l 0 [] F). cbn [bind app].
    pose proof (first_filter (has root (u "key") (ly_qualifier y)) l 0) as K.
    destruct (map fst _) as [|m r].
    + exfalso. rewrite E in K. rewrite Forall_forall in K. rewrite (K c) in Hc; [discriminate|]. apply in_or_app. right. now left.
    + destruct K as (a' & c' & b' & E' & -> & Hc' & Fa'). rewrite E in E'. destruct (first_has_unique _ _ _ _ _ _ _ E' Hc Hc' Fa Fa') as (-> & _ & _). reflexivity.
Qed.
Lemma candidate_index_raise root y l x : get_candidate_index_from_key root y l = Raise x ->
  x = ValueError \/ (x = IndexError /\ ~ Forall (fine root (u "key")) l).
Proof.
  unfold get_candidate_index_from_key, enumerate. intros H. destruct (foldM _ _ _) as [ps|z] eqn:F.
  - cbn [bind] in H. left. destruct ps; cbn in H; congruence.
  - cbn [bind] in H. injection H as <-. right. eapply candidate_fold_raise. exact F.
Qed.
Lemma first_segment_spec root y l : forall k n, first_segment_candidate root (Some y) (combine (seq k (List.length l)) l) = Ok (Some n) <->
  exists a c b, l = a ++ c :: b /\ n = k + List.length a /\ has root (u "key") (ly_qualifier y) c = true
    /\ Forall (fun x => has root (u "key") (ly_qualifier y) x = false) a /\ Forall (fine root (u "key")) (a ++ [c]).
Proof.
  induction l as [|p l IH]; intros k n.
  - cbn. split; [discriminate|]. intros ([|] & c & b & E & _); discriminate.
  - rewrite numbered_cons. cbn [first_segment_candidate]. fold (keys_at root (u "key") p). destruct (keys_at root (u "key") p) as [s|z] eqn:E; cbn [bind].
    + pose proof (has_ok root (u "key") (ly_qualifier y) p s E) as Hp. destruct (oqualifier_in (ly_qualifier y) s).
      * split.
        -- intros [= <-]. exists [], p, l. cbn. repeat split; auto; try lia. constructor; [exists s; exact E|constructor].
        -- intros ([|x a] & c & b & El & -> & Hc & Fa & Ff); [now rewrite Nat.add_0_r|]. injection El as <- El. inversion Fa. congruence.
      * rewrite IH. split.
        -- intros (a & c & b & -> & -> & Hc & Fa & Ff). exists (p :: a), c, b. cbn. repeat split; auto; try lia. constructor; [exists s; exact E|exact Ff].
        -- intros ([|x a] & c & b & El & -> & Hc & Fa & Ff); [injection El as <- <-; congruence|]. injection El as <- ->. inversion Fa; inversion Ff; subst.
           exists a, c, b. cbn. repeat split; auto; lia.
    + split; [discriminate|]. intros ([|x a] & c & b & El & _ & _ & _ & Ff); injection El as <- _; inversion Ff as [|? ? (s & Hs)]; congruence.
Qed.
Lemma first_segment_none root y l : forall k, first_segment_candidate root (Some y) (combine (seq k (List.length l)) l) = Ok None <->
  Forall (fun x => has root (u "key") (ly_qualifier y) x = false) l /\ Forall (fine root (u "key")) l.
Proof.
  induction l as [|p l IH]; intros k; [cbn; split; auto|]. rewrite numbered_cons. cbn [first_segment_candidate]. fold (keys_at root (u "key") p).
  destruct (keys_at root (u "key") p) as [s|z] eqn:E; cbn [bind].
  - pose proof (has_ok root (u "key") (ly_qualifier y) p s E) as Hp. destruct (oqualifier_in (ly_qualifier y) s).
    + split; [discriminate|]. intros [F _]. inversion F. congruence.
    + rewrite IH. split; intros [F G].
      * split; constructor; try assumption. exists s. exact E.
      * inversion F; inversion G; auto.
  - split; [discriminate|]. intros [_ F]. inversion F as [|? ? (s & Hs)]. congruence.
Qed.
Lemma first_segment_raise root y l x : forall k, first_segment_candidate root (Some y) (combine (seq k (List.length l)) l) = Raise x ->
  x = IndexError /\ ~ Forall (fine root (u "key")) l.
Proof.
  induction l as [|p l IH]; intros k H; [discriminate|]. rewrite numbered_cons in H. cbn [first_segment_candidate] in H. fold (keys_at root (u "key") p) in H.
  destruct (keys_at root (u "key") p) as [s|z] eqn:E; cbn [bind] in H.
  - destruct (oqualifier_in (ly_qualifier y) s); [discriminate|]. apply IH in H as [-> H]. split; [reflexivity|]. intros F. inversion F. contradiction.
  - injection H as <-. apply qualifier_set_raise in E as E'. destruct E' as [-> _]. split; [reflexivity|]. intros F. inversion F as [|? ? (s & Hs)]. congruence.
Qed.
Lemma one_candidate_some root q l : forall k m n, one_candidate root q (Some m) (combine (seq k (List.length l)) l) = Ok n <->
  n = m /\ Forall (fun x => has root (u "ref") (Some q) x = false) l /\ Forall (fine root (u "ref")) l.
Proof.
  induction l as [|p l IH]; intros k m n.
  - cbn. split; [intros [= ->]; auto|intros (-> & _); reflexivity].
  - rewrite numbered_cons. cbn [one_candidate]. fold (keys_at root (u "ref") p). destruct (keys_at root (u "ref") p) as [s|z] eqn:E; cbn [bind].
    + pose proof (has_ok root (u "ref") (Some q) p s E) as Hp. cbn [oqualifier_in] in Hp. destruct (str_in q s).
      * split; [discriminate|]. intros (_ & F & _). inversion F. congruence.
      * rewrite IH. split; intros (-> & F & G); (split; [reflexivity|]).
        -- split; constructor; try assumption. exists s. exact E.
        -- inversion F; inversion G; auto.
    + split; [discriminate|]. intros (_ & _ & F). inversion F as [|? ? (s & Hs)]. congruence.
Qed.
Lemma one_candidate_none root q l : forall k n, one_candidate root q None (combine (seq k (List.length l)) l) = Ok n <->
  (exists a c b, l = a ++ c :: b /\ n = k + List.length a /\ has root (u "ref") (Some q) c = true
    /\ Forall (fun x => has root (u "ref") (Some q) x = false) (a ++ b)) /\ Forall (fine root (u "ref")) l.
Proof.
  induction l as [|p l IH]; intros k n.
  - cbn. split; [discriminate|]. intros (([|] & c & b & E & _) & _); discriminate.
  - rewrite numbered_cons. cbn [one_candidate]. fold (keys_at root (u "ref") p). destruct (keys_at root (u "ref") p) as [s|z] eqn:E; cbn [bind].
    + pose proof (has_ok root (u "ref") (Some q) p s E) as Hp. cbn [oqualifier_in] in Hp. destruct (str_in q s).
      * rewrite one_candidate_some. split.
        -- intros (-> & F & G). split; [|constructor; [exists s; exact E|exact G]]. exists [], p, l. cbn. repeat split; auto; lia.
        -- intros ((a & c & b & El & -> & Hc & F) & G). destruct a as [|x a].
           ++ cbn in *. injection El as <- <-. inversion G; subst. split; [lia|auto].
           ++ injection El as <- El. inversion F. congruence.
      * rewrite IH. split.
        -- intros ((a & c & b & -> & -> & Hc & F) & G). split; [|constructor; [exists s; exact E|exact G]]. exists (p :: a), c, b. cbn. repeat split; auto; lia.
        -- intros ((a & c & b & El & -> & Hc & F) & G). inversion G; subst. split; [|assumption]. destruct a as [|x a].
           ++ injection El as <- <-. congruence.
           ++ injection El as <- ->. inversion F; subst. exists a, c, b. cbn. repeat split; auto; lia.
    + split; [discriminate|]. intros (_ & F). inversion F as [|? ? (s & Hs)]. congruence.
Qed.
Lemma one_candidate_raise root q l x : forall k o, one_candidate root q o (combine (seq k (List.length l)) l) = Raise x ->
  x = ValueError \/ (x = IndexError /\ ~ Forall (fine root (u "ref")) l).
Proof.
  induction l as [|p l IH]; intros k o H; [destruct o; cbn in H; [discriminate|left; congruence]|]. rewrite numbered_cons in H. cbn [one_candidate] in H.
  fold (keys_at root (u "ref") p) in H. destruct (keys_at root (u "ref") p) as [s|z] eqn:E; cbn [bind] in H.
  - assert (K : forall k o, one_candidate root q o (combine (seq k (List.length l)) l) = Raise x -> x = ValueError \/ (x = IndexError /\ ~ Forall (fine root (u "ref")) (p :: l))).
    { intros k' o' H'. apply IH in H' as [->|[-> H']]; [auto|right; split; [reflexivity|]]. intros F. inversion F. contradiction. }
    destruct (str_in q s); [destruct o; [left; congruence|]|]; eapply K; exact H.
  - injection H as <-. right. apply qualifier_set_raise in E as E'. destruct E' as [-> _]. split; [reflexivity|]. intros F. inversion F as [|? ? (s & Hs)]. congruence.
Qed.
