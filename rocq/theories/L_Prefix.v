(** Lemmas about the prefix loops (stacks, locations, common ancestors, distances). *)
From Coq Require Import List NArith ZArith Bool Lia Arith.
From Verif Require Import PyBase PyStr PyRe M_Components M_Ahb M_Sgh M_Navigation S_Prefix L_Base.
Import ListNotations.

Lemma is_prefix_refl {A} (l : list A) : is_prefix l l.
Proof. exists []. now rewrite app_nil_r. Qed.
Lemma is_prefix_nil {A} (l : list A) : is_prefix [] l.
Proof. now exists l. Qed.
Lemma is_prefix_trans {A} (a b c : list A) : is_prefix a b -> is_prefix b c -> is_prefix a c.
Proof. intros [r ->] [s ->]. exists (r ++ s). now rewrite app_assoc. Qed.
Lemma is_prefix_antisym {A} (a b : list A) : is_prefix a b -> is_prefix b a -> a = b.
Proof.
  intros [r ->] [s E]. apply (f_equal (@length A)) in E. rewrite !app_length in E.
  destruct r; [now rewrite app_nil_r|cbn in E; lia].
Qed.
Lemma is_prefix_cons {A} (a b : A) p l : is_prefix (a :: p) (b :: l) <-> a = b /\ is_prefix p l.
Proof.
  split.
  - intros [r [= -> ->]]. split; [reflexivity|now exists r].
  - intros [-> [r ->]]. now exists r.
Qed.
Lemma is_prefix_length {A} (a b : list A) : is_prefix a b -> length a <= length b.
Proof. intros [r ->]. rewrite app_length. lia. Qed.
Lemma is_prefix_of_nil {A} (p : list A) : is_prefix p [] <-> p = [].
Proof.
  split; [|intros ->; apply is_prefix_nil].
  intros [r E]. symmetry in E. now apply app_eq_nil in E.
Qed.

(** the loops of is_sub_stack_of / is_sub_location_of *)
Lemma prefix_loop {A} (eqb : A -> A -> bool) (H : forall x y, eqb x y = true <-> x = y) (other self : list A) :
  (if Nat.ltb (length self) (length other) then false
   else forallb (fun p => eqb (fst p) (snd p)) (combine other self)) = true
  <-> is_prefix other self.
Proof.
  revert self; induction other as [|o other IH]; intros [|s self].
  - cbn. split; [intros _; apply is_prefix_nil|reflexivity].
  - cbn. split; [intros _; apply is_prefix_nil|reflexivity].
  - cbn. split; [congruence|intros [r [=]]].
  - rewrite is_prefix_cons, <- H, <- IH. cbn [length combine forallb fst snd].
    change (S (length self) <? S (length other)) with (length self <? length other).
    destruct (length self <? length other); [intuition congruence|].
    now rewrite andb_true_iff.
Qed.

Lemma is_sub_stack_of_prefix x y : is_sub_stack_of x y = true <-> is_prefix y x.
Proof. apply (prefix_loop level_eqb level_eqb_eq). Qed.
Lemma is_sub_location_of_prefix x y :
  is_sub_location_of x y = true <-> is_prefix (lo_layers y) (lo_layers x).
Proof. apply (prefix_loop layer_eqb layer_eqb_eq). Qed.

(** common_layers *)
Lemma common_layers_false xs ys :
  is_longest_common_prefix (common_layers false xs ys) xs ys.
Proof.
  revert ys; induction xs as [|x xs IH]; intros [|y ys]; cbn [common_layers andb].
  1-3: repeat split; try apply is_prefix_nil; intros q Hx Hy; assumption.
  rewrite orb_false_r. destruct (layer_eqb x y) eqn:E.
  - apply layer_eqb_eq in E as ->. destruct (IH ys) as (H1 & H2 & H3).
    repeat split.
    + now apply is_prefix_cons.
    + now apply is_prefix_cons.
    + intros [|q qs] Hx Hy; [apply is_prefix_nil|].
      apply is_prefix_cons in Hx as [-> Hx]. apply is_prefix_cons in Hy as [_ Hy].
      apply is_prefix_cons; auto.
  - repeat split; try apply is_prefix_nil.
    intros [|q qs] Hx Hy; [apply is_prefix_nil|].
    apply is_prefix_cons in Hx as [-> Hx]. apply is_prefix_cons in Hy as [-> Hy].
    assert (layer_eqb y y = true) by now apply layer_eqb_eq. congruence.
Qed.

Lemma common_layers_true xs ys :
  is_prefix (common_layers true xs ys) xs /\
  is_longest_common_prefix (map ly_key (common_layers true xs ys)) (map ly_key xs) (map ly_key ys).
Proof.
  revert ys; induction xs as [|x xs IH]; intros [|y ys]; cbn [common_layers andb map].
  1-3: repeat split; try apply is_prefix_nil; intros q Hx Hy; assumption.
  destruct (layer_eqb x y || ostr_eqb (ly_key x) (ly_key y)) eqn:E.
  - assert (Ek : ly_key x = ly_key y).
    { apply orb_true_iff in E as [E|E]; [apply layer_eqb_eq in E; congruence|now apply ostr_eqb_eq]. }
    destruct (IH ys) as (H0 & H1 & H2 & H3). cbn [map]. repeat split.
    + now apply is_prefix_cons.
    + now apply is_prefix_cons.
    + now apply is_prefix_cons.
    + intros [|q qs] Hx Hy; [apply is_prefix_nil|].
      apply is_prefix_cons in Hx as [-> Hx]. apply is_prefix_cons in Hy as [_ Hy].
      apply is_prefix_cons; auto.
  - apply orb_false_iff in E as [_ E]. apply ostr_eqb_neq in E. cbn [map].
    repeat split; try apply is_prefix_nil.
    intros [|q qs] Hx Hy; [apply is_prefix_nil|].
    apply is_prefix_cons in Hx as [-> Hx]. apply is_prefix_cons in Hy as [Hk Hy]. congruence.
Qed.

Lemma new_Location_none p layers :
  new_Location p layers None None None
  = if Nat.eqb (length layers) 0 then Raise ValueError else Ok (mkLocation p layers None None None).
Proof. unfold new_Location. destruct layers; reflexivity. Qed.

Lemma lcp_unique {A} (p q xs ys : list A) :
  is_longest_common_prefix p xs ys -> is_longest_common_prefix q xs ys -> p = q.
Proof. intros (H1 & H2 & H3) (K1 & K2 & K3). apply is_prefix_antisym; auto. Qed.

Lemma lcp_nil {A} (xs ys : list A) :
  is_longest_common_prefix [] xs ys <-> (xs = [] \/ ys = [] \/ hd_error xs <> hd_error ys).
Proof.
  split.
  - intros (_ & _ & H). destruct xs as [|x xs]; [auto|]. destruct ys as [|y ys]; [auto|].
    right; right. cbn. intros [= ->].
    assert (K : is_prefix [y] []).
    { apply H; apply is_prefix_cons; split; auto using is_prefix_nil. }
    apply is_prefix_of_nil in K. discriminate.
  - intros H. repeat split; try apply is_prefix_nil.
    intros [|q qs] Hx Hy; [apply is_prefix_nil|].
    destruct Hx as [r ->], Hy as [s ->]. cbn in H. destruct H as [[=]|[[=]|H]]. congruence.
Qed.

Lemma find_common_ancestor_plain x y :
  lo_pseudo x = false -> lo_pseudo y = false ->
  find_common_ancestor x y =
  (let c := common_layers false (lo_layers x) (lo_layers y) in
   if Nat.eqb (length c) 0 then Raise ValueError else Ok (mkLocation false c None None None)).
Proof.
  intros Hx Hy. unfold find_common_ancestor. rewrite Hx, Hy. cbn [orb].
  apply new_Location_none.
Qed.
Lemma find_common_ancestor_pseudo x y :
  lo_pseudo x = true \/ lo_pseudo y = true ->
  find_common_ancestor x y =
  (let c := common_layers true (lo_layers x) (lo_layers y) in
   if Nat.eqb (length c) 0 then Raise ValueError else Ok (mkLocation true c None None None)).
Proof.
  intros H. unfold find_common_ancestor.
  assert (lo_pseudo x || lo_pseudo y = true) as -> by (destruct H as [-> | ->]; [reflexivity|apply orb_true_r]).
  apply new_Location_none.
Qed.

Lemma common_ancestor_spec x y :
  lo_pseudo x = false -> lo_pseudo y = false ->
  match find_common_ancestor x y with
  | Ok a => is_longest_common_prefix (lo_layers a) (lo_layers x) (lo_layers y)
            /\ lo_layers a <> []
            /\ lo_pseudo a = false /\ lo_segment a = None /\ lo_element a = None /\ lo_qualifier a = None
  | Raise e => e = ValueError
               /\ (lo_layers x = [] \/ lo_layers y = [] \/ hd_error (lo_layers x) <> hd_error (lo_layers y))
  end.
Proof.
  intros Hx Hy. rewrite find_common_ancestor_plain by assumption. cbv zeta.
  pose proof (common_layers_false (lo_layers x) (lo_layers y)) as H.
  destruct (common_layers false (lo_layers x) (lo_layers y)) as [|l ls] eqn:E; cbn [length Nat.eqb].
  - split; [reflexivity|]. now apply lcp_nil.
  - cbn. repeat split; try apply H; congruence.
Qed.

Lemma common_ancestor_pseudo_spec x y :
  lo_pseudo x = true \/ lo_pseudo y = true ->
  match find_common_ancestor x y with
  | Ok a => is_prefix (lo_layers a) (lo_layers x)
            /\ is_longest_common_prefix (map ly_key (lo_layers a)) (map ly_key (lo_layers x)) (map ly_key (lo_layers y))
            /\ lo_layers a <> []
            /\ lo_pseudo a = true /\ lo_segment a = None /\ lo_element a = None /\ lo_qualifier a = None
  | Raise e => e = ValueError
               /\ (lo_layers x = [] \/ lo_layers y = []
                   \/ hd_error (map ly_key (lo_layers x)) <> hd_error (map ly_key (lo_layers y)))
  end.
Proof.
  intros Hp. rewrite find_common_ancestor_pseudo by assumption. cbv zeta.
  pose proof (common_layers_true (lo_layers x) (lo_layers y)) as [H0 H].
  destruct (common_layers true (lo_layers x) (lo_layers y)) as [|l ls] eqn:E; cbn [length Nat.eqb].
  - split; [reflexivity|]. apply lcp_nil in H as [H|[H|H]].
    + left. now apply map_eq_nil in H.
    + right; left. now apply map_eq_nil in H.
    + auto.
  - cbn [lo_layers lo_pseudo lo_segment lo_element lo_qualifier]. repeat split; try apply H; try assumption; congruence.
Qed.

Lemma nonneg_difference_ok a b n : nonneg_difference a b = Ok n <-> a = b + n.
Proof.
  unfold nonneg_difference. destruct (Nat.ltb_spec a b); split; try congruence; try lia.
  - intros [= <-]. lia.
  - intros ->. f_equal. lia.
Qed.

Lemma distance_spec x y :
  lo_pseudo x = false -> lo_pseudo y = false ->
  match calculate_distance x y with
  | Ok d =>
      exists c, c <> [] /\ is_longest_common_prefix c (lo_layers x) (lo_layers y)
        /\ length (lo_layers x) = length c + layers_up d
        /\ length (lo_layers y) = length c + layers_down d
  | Raise e => e = ValueError
               /\ (lo_layers x = [] \/ lo_layers y = [] \/ hd_error (lo_layers x) <> hd_error (lo_layers y))
  end.
Proof.
  intros Hx Hy. unfold calculate_distance.
  pose proof (common_ancestor_spec x y Hx Hy) as H.
  destruct (find_common_ancestor x y) as [a|e]; cbn [bind]; [|exact H].
  destruct H as (H & Hne & _). pose proof H as (H1 & H2 & _).
  apply is_prefix_length in H1, H2.
  unfold nonneg_difference.
  destruct (Nat.ltb_spec (length (lo_layers x)) (length (lo_layers a))); [lia|].
  destruct (Nat.ltb_spec (length (lo_layers y)) (length (lo_layers a))); [lia|].
  cbn [bind]. exists (lo_layers a). cbn [layers_up layers_down]. repeat split; try assumption; try apply H; lia.
Qed.

Lemma removed_suffixes {A} (c xs ys : list A) u d :
  is_longest_common_prefix c xs ys -> length xs = length c + u -> length ys = length c + d ->
  firstn (length xs - u) xs = c /\ firstn (length ys - d) ys = c.
Proof.
  intros ([r ->] & [s ->] & _) Hu Hd. rewrite !app_length in *.
  replace (length c + length r - u) with (length c + 0) by lia.
  replace (length c + length s - d) with (length c + 0) by lia.
  rewrite !firstn_app_2. cbn. rewrite !app_nil_r. auto.
Qed.

Lemma firstn_is_prefix {A} n (l : list A) : is_prefix (firstn n l) l.
Proof. exists (skipn n l). symmetry. apply firstn_skipn. Qed.

Lemma distance_minimal x y d :
  lo_pseudo x = false -> lo_pseudo y = false -> calculate_distance x y = Ok d ->
  layers_up d < length (lo_layers x) /\ layers_down d < length (lo_layers y) /\
  firstn (length (lo_layers x) - layers_up d) (lo_layers x)
  = firstn (length (lo_layers y) - layers_down d) (lo_layers y)
  /\ (forall u' d', u' <= length (lo_layers x) -> d' <= length (lo_layers y) ->
        firstn (length (lo_layers x) - u') (lo_layers x) = firstn (length (lo_layers y) - d') (lo_layers y) ->
        layers_up d <= u' /\ layers_down d <= d').
Proof.
  intros Hx Hy E. pose proof (distance_spec x y Hx Hy) as H. rewrite E in H.
  destruct H as (c & Hne & H & Hu & Hd).
  destruct (removed_suffixes _ _ _ _ _ H Hu Hd) as [E1 E2].
  assert (0 < length c) by (destruct c; cbn; [congruence|lia]).
  split; [lia|]. split; [lia|]. split; [congruence|].
  intros u' d' Lu Ld Ef. destruct H as (_ & _ & H).
  pose proof (firstn_is_prefix (length (lo_layers x) - u') (lo_layers x)) as P1.
  pose proof (firstn_is_prefix (length (lo_layers y) - d') (lo_layers y)) as P2.
  rewrite <- Ef in P2. pose proof (is_prefix_length _ _ (H _ P1 P2)) as L.
  pose proof (f_equal (@length _) Ef) as L2. rewrite !firstn_length in *. lia.
Qed.

Lemma distance_zero x y d :
  lo_pseudo x = false -> lo_pseudo y = false -> calculate_distance x y = Ok d ->
  (layers_up d = 0 <-> is_prefix (lo_layers x) (lo_layers y)) /\
  (layers_down d = 0 <-> is_prefix (lo_layers y) (lo_layers x)).
Proof.
  intros Hx Hy E. pose proof (distance_spec x y Hx Hy) as H. rewrite E in H.
  destruct H as (c & Hne & (P1 & P2 & P3) & Hu & Hd).
  assert (K : forall l, is_prefix c l -> length l = length c -> l = c).
  { intros l [r ->] L. rewrite app_length in L. destruct r; [apply app_nil_r|cbn in L; lia]. }
  split; split; intros H.
  - rewrite (K (lo_layers x)); [assumption|assumption|lia].
  - assert (Q := is_prefix_length _ _ (P3 _ (is_prefix_refl _) H)). lia.
  - rewrite (K (lo_layers y)); [assumption|assumption|lia].
  - assert (Q := is_prefix_length _ _ (P3 _ H (is_prefix_refl _))). lia.
Qed.

Lemma distance_raises x y :
  lo_pseudo x = false -> lo_pseudo y = false -> lo_layers x <> [] -> lo_layers y <> [] ->
  (hd_error (lo_layers x) <> hd_error (lo_layers y) -> calculate_distance x y = Raise ValueError) /\
  (hd_error (lo_layers x) = hd_error (lo_layers y) -> exists d, calculate_distance x y = Ok d).
Proof.
  intros Hx Hy Nx Ny. pose proof (distance_spec x y Hx Hy) as H.
  destruct (calculate_distance x y) as [d|e].
  - split; [|eauto]. intros Hn. destruct H as (c & Hne & ((r & E1) & (s & E2) & _) & _).
    destruct c as [|a c]; [congruence|]. rewrite E1, E2 in Hn. cbn in Hn. congruence.
  - destruct H as [-> [H|[H|H]]]; try congruence. split; [reflexivity|congruence].
Qed.
