(** Lemmas: the layers of the locations follow the path in the hierarchy. *)
From Coq Require Import Ascii String List NArith ZArith Bool Lia Arith.
From Verif Require Import PyBase PyStr PyRe M_Components M_Ahb M_Sgh M_Navigation
  S_Prefix S_Text S_Sgh S_Navigation L_Base L_Prefix L_Validators L_Sgh L_Navigation.
Import ListNotations.
Local Open Scope list_scope.

Definition keys (h : Sgh) (p : list nat) : list (option pystr) := map sgh_key (nodes_on_path h p).
Lemma keys_length h p : node_at h p <> None -> List.length (keys h p) = S (List.length p).
Proof. intros H. unfold keys. rewrite map_length. now apply nodes_on_path_length. Qed.
Lemma node_at_prefix h p q : node_at h (p ++ q) <> None -> node_at h p <> None.
Proof. rewrite node_at_app. now destruct (node_at h p). Qed.
Lemma prefix_firstn {A} (a b : list A) : is_prefix a b -> a = firstn (List.length a) b.
Proof. intros [r ->]. rewrite firstn_app, Nat.sub_diag, firstn_all. cbn. now rewrite app_nil_r. Qed.
Lemma keys_prefix h p q : node_at h (p ++ q) <> None -> keys h p = firstn (S (List.length p)) (keys h (p ++ q)).
Proof.
  intros H. pose proof (nodes_on_path_prefix h p q H) as P. unfold keys.
  rewrite firstn_map, <- (nodes_on_path_length h p) by (eapply node_at_prefix; exact H).
  f_equal. now apply prefix_firstn.
Qed.
Lemma path_end h p n : node_at h p = Some n -> nodes_on_path h p = removelast (nodes_on_path h p) ++ [n].
Proof. intros H. pose proof (nodes_on_path_app h p [] n H) as E. rewrite app_nil_r in E. exact E. Qed.
Lemma keys_end h p n : node_at h p = Some n -> exists r, keys h p = r ++ [sgh_key n].
Proof. intros H. unfold keys. rewrite (path_end h p n H), map_app. eexists. reflexivity. Qed.
Lemma keys_snoc h q i m : node_at h (q ++ [i]) = Some m -> keys h (q ++ [i]) = keys h q ++ [sgh_key m].
Proof.
  intros H. destruct (node_at h q) as [n|] eqn:E; [|rewrite node_at_app, E in H; discriminate].
  unfold keys. rewrite (nodes_on_path_app h q [i] n E), (path_end h q n E) at 1. rewrite removelast_app1.
  rewrite (path_end h q n E) at 2. rewrite !map_app, <- app_assoc. f_equal.
  rewrite node_at_app, E in H. cbn [node_at nodes_on_path] in *. destruct (nth_error (olist (sgh_subs n)) i) as [c|]; [|discriminate].
  injection H as ->. reflexivity.
Qed.
Lemma keys_in h p y : node_at h p <> None -> In y (keys h p) -> exists k n, k <= List.length p /\ node_at h (firstn k p) = Some n /\ sgh_key n = y.
Proof.
  intros H Hin. apply in_map_iff in Hin as (n & Hy & Hin). apply In_nth_error in Hin as (k & Hk).
  assert (L : k < S (List.length p)) by (rewrite <- (nodes_on_path_length h p H); apply nth_error_Some; congruence).
  rewrite nodes_on_path_spec in Hk by (auto; lia). exists k, n. repeat split; auto; lia.
Qed.

(** ** leaving *)
Lemma leave_elsewhere y n : forall layers, ~ In y (map ly_key layers) -> n < List.length layers ->
  leave_layers n y layers = Ok (firstn (List.length layers - n) layers).
Proof.
  induction n as [|n IH]; intros layers Hy Hn; cbn [leave_layers].
  - now rewrite Nat.sub_0_r, firstn_all.
  - destruct (@exists_last _ layers) as (l' & x & ->); [destruct layers; [cbn in Hn; lia|discriminate]|].
    rewrite (proj2 (pop_last_ok (l' ++ [x]) l') (ex_intro _ x eq_refl)). cbn [bind]. rewrite app_length in *. cbn [List.length] in *.
    destruct (@exists_last _ l') as (l2 & z & El); [destruct l'; [cbn in Hn; lia|discriminate]|].
    assert (La : last_of l' = Ok z) by (apply last_of_ok; eauto). rewrite La. cbn [bind].
    destruct (ostr_eqb_spec (ly_key z) y) as [E|E].
    { exfalso. apply Hy. rewrite El, !map_app, <- E. cbn. apply in_or_app. left. apply in_or_app. right. now left. }
    cbn [bind]. rewrite IH; [|intros K; apply Hy; rewrite map_app; apply in_or_app; now left|lia].
    replace (List.length l' + 1 - S n) with (List.length l' - n) by lia. rewrite firstn_app.
    replace (List.length l' - n - List.length l') with 0 by lia. cbn [firstn]. now rewrite app_nil_r.
Qed.
Lemma leave_to_ancestor y l1 ly l2 : ly_key ly = y -> ~ In y (map ly_key l2) -> l2 <> [] ->
  leave_layers (List.length l2) y (l1 ++ ly :: l2) = Ok l1.
Proof.
  intros Hy. induction l2 as [|x l2 IH] using rev_ind; intros Hn Hne; [congruence|].
  rewrite app_length, Nat.add_1_r. cbn [leave_layers].
  rewrite (proj2 (pop_last_ok (l1 ++ ly :: l2 ++ [x]) (l1 ++ ly :: l2))) by (exists x; rewrite <- app_assoc; reflexivity). cbn [bind].
  destruct l2 as [|z0 l20] eqn:El.
  - assert (La : last_of (l1 ++ [ly]) = Ok ly) by (apply last_of_ok; eauto). rewrite La. cbn [bind].
    destruct (ostr_eqb_spec (ly_key ly) y) as [E|E]; [|congruence].
    rewrite (proj2 (pop_last_ok (l1 ++ [ly]) l1)) by eauto. reflexivity.
  - rewrite <- El in *. assert (Hne' : l2 <> []) by (rewrite El; discriminate).
    destruct (@exists_last _ l2 Hne') as (l3 & z & Ez).
    assert (La : last_of (l1 ++ ly :: l2) = Ok z) by (apply last_of_ok; exists (l1 ++ ly :: l3); rewrite Ez, <- app_assoc; reflexivity). rewrite La. cbn [bind].
    destruct (ostr_eqb_spec (ly_key z) y) as [E|E].
    { exfalso. apply Hn. rewrite Ez, !map_app, <- E. apply in_or_app. left. apply in_or_app. right. now left. }
    cbn [bind]. apply IH; [|exact Hne']. intros K. apply Hn. rewrite map_app. apply in_or_app. now left.
Qed.

Lemma distance_to_ancestor h layers loc p r : node_at h p <> None -> is_prefix r p ->
  lo_layers loc = layers -> map ly_key layers = keys h p ->
  calculate_distance loc (mkLocation true (map plain_layer (nodes_on_path h r)) None None None) = Ok (mkDistance (List.length p - List.length r) 0).
Proof.
  intros Hp [s ->] Hl Hk. unfold calculate_distance.
  pose proof (node_at_prefix _ _ _ Hp) as Hr.
  rewrite find_common_ancestor_pseudo by (now right). cbn [lo_layers]. cbv zeta.
  destruct (common_layers_true (lo_layers loc) (map plain_layer (nodes_on_path h r))) as [_ L].
  assert (E : map ly_key (common_layers true (lo_layers loc) (map plain_layer (nodes_on_path h r))) = keys h r).
  { eapply lcp_unique; [exact L|]. rewrite map_map. cbn [ly_key plain_layer]. fold (keys h r). rewrite Hl, Hk.
    split; [|split; [apply is_prefix_refl|intros q _ Hq; exact Hq]]. rewrite (keys_prefix h r s Hp). apply firstn_is_prefix. }
  apply (f_equal (@List.length _)) in E. rewrite map_length, (keys_length h r Hr) in E. rewrite E. cbn [Nat.eqb bind lo_layers].
  rewrite E, map_length, (nodes_on_path_length h r Hr), Hl.
  assert (Ll : List.length layers = S (List.length (r ++ s))) by (rewrite <- (keys_length h _ Hp), <- Hk, map_length; reflexivity).
  rewrite Ll. rewrite app_length.
  assert (N1 : nonneg_difference (S (List.length r + List.length s)) (S (List.length r)) = Ok (List.length r + List.length s - List.length r)) by (apply nonneg_difference_ok; lia).
  assert (N2 : nonneg_difference (S (List.length r)) (S (List.length r)) = Ok 0) by (apply nonneg_difference_ok; lia).
  rewrite N1. cbn [bind]. rewrite N2. reflexivity.
Qed.

(** ** one iteration on the path *)
Definition on_path (h : Sgh) (x : option pystr) (layers : list Layer) (res : list (AhbLine * Location)) : Prop :=
  exists p n, node_at h p = Some n /\ sgh_key n = x /\ map ly_key layers = keys h p
    /\ ((res = [] /\ layers = [plain_layer h]) \/ exists r0 l loc, res = r0 ++ [(l, loc)] /\ lo_layers loc = layers).

Definition classified (h : Sgh) (x y : option pystr) (c : Change) : Prop :=
  (y = x /\ (c = STAY \/ c = MOVE_TO_NEIGHBOUR_SAME_KEY))
  \/ (y <> x /\ key_below h y x /\ c = DIVE_INTO_SUB_GROUP)
  \/ (y <> x /\ ~ key_below h y x /\ c = LEAVE_TO_PARENT_AND_DIVE_INTO_SUB_GROUP).

Definition acceptable (first : bool) (line : AhbLine) (c : Change) (ns nq : option pystr) : Prop :=
  acceptable_segment ns /\ acceptable_element (al_element line) /\ (first = true -> acceptable_qualifier nq)
  /\ (c <> STAY -> ns <> None /\ acceptable_qualifier nq).

Section Path.
  Variable h : Sgh.
  Hypothesis D : distinct_keys h.
  Hypothesis W : well_named h.
  Hypothesis R : sgh_key h = None.

  (** the position of the next group *)
  Lemma follow_position x y p n : may_follow h x y -> node_at h p = Some n -> sgh_key n = x ->
    exists q m, node_at h q = Some m /\ sgh_key m = y /\ (q = [] \/ exists q' i, q = q' ++ [i] /\ is_prefix q' p).
  Proof.
    intros (p' & n' & q & m & Hp & Hx & Hq & Hy & H) Hp' Hx'.
    assert (p' = p) as -> by (eapply D; [exact Hp|exact Hp'|congruence]). eauto 6.
  Qed.
  Lemma below_position x y p n q m : node_at h p = Some n -> sgh_key n = x -> node_at h q = Some m -> sgh_key m = y ->
    key_below h y x <-> exists s, s <> [] /\ q = p ++ s.
  Proof.
    intros Hp Hx Hq Hy. split.
    - intros (a & d & (pa & Ha) & Ka & (s & Hs & Hd) & Kd). exists s. split; [exact Hs|].
      assert (pa = p) as -> by (eapply D; [exact Ha|exact Hp|congruence]).
      eapply D; [exact Hq| |transitivity y; [exact Hy|symmetry; exact Kd]]. rewrite node_at_app, Ha. exact Hd.
    - intros (s & Hs & ->). exists n, m. split; [now exists p|]. split; [exact Hx|]. split; [|exact Hy].
      exists s. split; [exact Hs|]. now rewrite node_at_app, Hp in Hq.
  Qed.

  Lemma leave_path x y p n layers loc : node_at h p = Some n -> sgh_key n = x -> map ly_key layers = keys h p ->
    lo_layers loc = layers -> may_follow h x y -> y <> x -> ~ key_below h y x ->
    exists q m l1, node_at h q = Some m /\ sgh_key m = y /\ map ly_key l1 ++ [y] = keys h q
      /\ (let* last_layer := last_of (lo_layers loc) in
          let* common_ancestor := find_common_ancestor_from_sgh (ly_key last_layer) y h in
          let* distance := calculate_distance loc common_ancestor in
          leave_layers (layers_up distance) y layers) = Ok l1.
  Proof.
    intros Hp Hx Hk Hl HF Hne HB. assert (Hp' : node_at h p <> None) by congruence.
    destruct (follow_position x y p n HF Hp Hx) as (q & m & Hq & Hy & Hpos).
    assert (HL : last_of (lo_layers loc) <> Raise ValueError /\ forall z, last_of (lo_layers loc) = Ok z -> ly_key z = x).
    { destruct (keys_end h p n Hp) as (r & Er). rewrite Hl. split.
      - intros E. destruct layers as [|a l]; [cbn in Hk; destruct r; rewrite Er in Hk; discriminate|].
        destruct (@exists_last _ (a :: l)) as (l' & z & Ez); [discriminate|]. rewrite Ez in E.
        rewrite (proj2 (last_of_ok (l' ++ [z]) z) (ex_intro _ l' eq_refl)) in E. discriminate.
      - intros z Hz. apply last_of_ok in Hz as (l' & ->). rewrite map_app, Er in Hk. cbn [map] in Hk. apply app_inj_tail in Hk as [_ Kz]. congruence. }
    assert (exists z, last_of (lo_layers loc) = Ok z /\ ly_key z = x) as (z & Hz & Kz).
    { destruct HL as [H1 H2]. destruct (last_of (lo_layers loc)) as [z|e] eqn:E; [eauto|].
      exfalso. apply last_of_raise in E as [_ ->]. now apply H1. }
    rewrite Hz. cbn [bind]. rewrite Kz. rewrite (common_ancestor_from_sgh_spec h x y p q n m W D Hp Hx Hq Hy). cbn [bind].
    assert (Hnb : ~ exists s, s <> [] /\ q = p ++ s) by (rewrite <- (below_position x y p n q m Hp Hx Hq Hy); exact HB).
    assert (Hqp : q <> p) by (intros ->; congruence).
    destruct (lcp_spec p q) as (L1 & L2 & L3).
    rewrite (distance_to_ancestor h layers loc p (lcp p q) Hp' L1 Hl Hk). cbn [bind layers_up].
    assert (Cases : is_prefix q p \/ (exists q' i, q = q' ++ [i] /\ is_prefix q' p /\ ~ is_prefix q p)).
    { destruct Hpos as [-> |(q' & i & -> & Hq')]; [left; apply is_prefix_nil|].
      destruct (Nat.le_gt_cases (List.length (q' ++ [i])) (List.length p)) as [L|L].
      - destruct (list_eq_dec Nat.eq_dec (q' ++ [i]) (firstn (List.length (q' ++ [i])) p)) as [E|E].
        + left. rewrite E. apply firstn_is_prefix.
        + right. exists q', i. repeat split; auto. intros K. apply E. now apply prefix_firstn.
      - right. exists q', i. repeat split; auto. intros K. apply is_prefix_length in K. lia. }
    destruct Cases as [Pq|(q' & i & -> & Pq' & Nq)].
    - assert (lcp p q = q) as -> by (apply is_prefix_antisym; [exact L2|apply L3; [exact Pq|apply is_prefix_refl]]).
      destruct Pq as [s ->]. assert (Hs : s <> []) by (intros ->; apply Hqp; now rewrite app_nil_r).
      rewrite app_length. replace (List.length q + List.length s - List.length q) with (List.length s) by lia.
      assert (Ll : List.length layers = S (List.length q + List.length s)) by (rewrite <- app_length, <- (keys_length h _ Hp'), <- Hk, map_length; reflexivity).
      pose proof (keys_prefix h q s Hp') as Kq. destruct (keys_end h q m Hq) as (kq & Ekq).
      assert (Lkq : List.length kq = List.length q) by (pose proof (keys_length h q (node_at_prefix _ _ _ Hp')) as L; rewrite Ekq, app_length in L; cbn in L; lia).
      destruct (skipn (List.length q) layers) as [|ly l2] eqn:Es; [apply (f_equal (@List.length _)) in Es; rewrite skipn_length in Es; cbn in Es; lia|].
      assert (EL : layers = firstn (List.length q) layers ++ ly :: l2) by (rewrite <- Es; symmetry; apply firstn_skipn).
      assert (Ll2 : List.length l2 = List.length s) by (apply (f_equal (@List.length _)) in Es; rewrite skipn_length in Es; cbn in Es; lia).
      set (l1 := firstn (List.length q) layers) in *.
      assert (Ll1 : List.length l1 = List.length q) by (unfold l1; rewrite firstn_length; lia).
      (* the keys of l1 ++ [ly] are those of the path to q *)
      assert (Kl : map ly_key l1 ++ [ly_key ly] = keys h q).
      { rewrite Kq, <- Hk, EL. rewrite firstn_map. transitivity (map ly_key (l1 ++ [ly])); [rewrite map_app; reflexivity|]. f_equal. change (ly :: l2) with ([ly] ++ l2). rewrite app_assoc, firstn_app.
        rewrite app_length, Ll1. cbn [List.length]. replace (S (List.length q) - (List.length q + 1)) with 0 by lia. rewrite firstn_O.
        rewrite app_nil_r, firstn_all2 by (rewrite app_length, Ll1; cbn; lia). reflexivity. }
      assert (Kly : ly_key ly = y) by (rewrite Ekq in Kl; apply app_inj_tail in Kl as [_ ->]; exact Hy).
      exists q, m, l1. split; [exact Hq|]. split; [exact Hy|]. split; [rewrite <- Kly; exact Kl|].
      rewrite <- Ll2. rewrite EL. apply leave_to_ancestor; [exact Kly| |intros ->; destruct s; [congruence|discriminate]].
      intros Hin. apply In_nth_error in Hin as (k & Hk2).
      assert (Hkl : k < List.length s) by (rewrite <- Ll2, <- (map_length ly_key); apply nth_error_Some; congruence).
      assert (N : nth_error (keys h (q ++ s)) (S (List.length q) + k) = Some y).
      { rewrite <- Hk, EL, map_app. rewrite nth_error_app2 by (rewrite map_length, Ll1; lia). rewrite map_length, Ll1.
        replace (S (List.length q) + k - List.length q) with (S k) by lia. cbn [map nth_error]. exact Hk2. }
      unfold keys in N. rewrite nth_error_map in N.
      rewrite nodes_on_path_spec in N by (auto; rewrite app_length; lia).
      destruct (node_at h (firstn (S (List.length q) + k) (q ++ s))) as [n'|] eqn:En; [|discriminate]. injection N as N.
      assert (E : firstn (S (List.length q) + k) (q ++ s) = q) by (eapply D; [exact En|exact Hq|congruence]).
      apply (f_equal (@List.length _)) in E. rewrite firstn_length, app_length in E. lia.
    - assert (lcp p (q' ++ [i]) = q') as ->.
      { apply is_prefix_antisym; [|apply L3; [exact Pq'|exists [i]; reflexivity]].
        destruct L2 as [[|a s] E]; [rewrite app_nil_r in E; exfalso; apply Nq; rewrite E; exact L1|].
        destruct (@exists_last _ (a :: s)) as (s' & b & Es); [discriminate|]. rewrite Es, app_assoc in E. apply app_inj_tail in E as [E _]. exists s'. exact E. }
      assert (Ny : ~ In y (map ly_key layers)).
      { rewrite Hk. intros K. apply (keys_in h p y Hp') in K as (k & n' & Hkl & Hn' & Ky). apply Nq.
        assert (E : firstn k p = q' ++ [i]) by (eapply D; [exact Hn'|exact Hq|congruence]). rewrite <- E. apply firstn_is_prefix. }
      assert (Ll : List.length layers = S (List.length p)) by (rewrite <- (keys_length h p Hp'), <- Hk, map_length; reflexivity).
      pose proof (is_prefix_length _ _ Pq') as Lq.
      exists (q' ++ [i]), m, (firstn (S (List.length q')) layers). split; [exact Hq|]. split; [exact Hy|]. split.
      + rewrite <- firstn_map, Hk. destruct Pq' as [s ->]. rewrite <- (keys_prefix h q' s Hp'). rewrite (keys_snoc h q' i m Hq). now rewrite Hy.
      + rewrite leave_elsewhere; [|exact Ny|lia]. repeat f_equal. lia.
  Qed.

  Lemma emit_ok layers ns line res : layers <> [] -> acceptable_segment ns -> acceptable_element (al_element line) ->
    (let* loc := new_Location false layers ns (al_element line) (al_entry line) in Ok (layers, res ++ [(line, loc)]))
    = Ok (layers, res ++ [(line, mkLocation false layers ns (al_element line) (al_entry line))]).
  Proof.
    intros H1 H2 H3. assert (E : new_Location false layers ns (al_element line) (al_entry line) = Ok (mkLocation false layers ns (al_element line) (al_entry line))) by (apply new_Location_ok; split; [reflexivity|exact (conj H1 (conj H2 H3))]).
    now rewrite E.
  Qed.
  Lemma occurs_key y q m nq o : node_at h q = Some m -> sgh_key m = y -> three_capitals o -> acceptable_qualifier nq ->
    new_Layer y (Some o) nq = Ok (mkLayer y o nq).
  Proof. intros Hq Hy Ho Hn. apply new_Layer_ok. split; [reflexivity|]. destruct (W m) as [K _]; [now exists q|]. rewrite Hy in K. exact (conj K (conj Ho Hn)). Qed.

  (** an acceptable line of a disciplined sequence is located on the path to its group *)
  Lemma step_progress x layers res line c ns nq :
    on_path h x layers res -> may_follow h x (al_group line) -> classified h x (al_group line) c ->
    (res = [] -> x = None) ->
    acceptable (match res with [] => true | _ => false end) line c ns nq ->
    exists new, location_step h (layers, res) ((line, c), ns, nq)
      = Ok (new, res ++ [(line, mkLocation false new ns (al_element line) (al_entry line))])
      /\ on_path h (al_group line) new (res ++ [(line, mkLocation false new ns (al_element line) (al_entry line))]).
  Proof.
    intros (p & n & Hp & Hx & Hk & Hres) HF HC HX (As & Ae & Af & Ac).
    (* the update of the first line *)
    assert (exists base, first_line_update h layers res nq = Ok base /\ map ly_key base = keys h p /\ (res <> [] -> base = layers)) as (base & HB & Kb & Hb).
    { unfold first_line_update. destruct Hres as [[-> ->]|(r0 & l & loc & -> & Hloc)].
      - cbn [last_of rev app bind is_none ly_qualifier plain_layer List.length Nat.eqb andb].
        rewrite (occurs_key (sgh_key h) [] h nq (sgh_opening h) eq_refl eq_refl); [|destruct (W h) as [_ ?]; [now exists []|auto]|auto].
        cbn [bind removelast app]. eexists. split; [reflexivity|]. split; [exact Hk|congruence].
      - assert (Hne : layers <> []) by (intros ->; destruct (keys_end h p n Hp) as (r & E); rewrite E in Hk; destruct r; discriminate).
        destruct (@exists_last _ layers Hne) as (l' & z & El). rewrite (proj2 (last_of_ok layers z)) by eauto. cbn [bind].
        rewrite app_length, Nat.add_1_r. cbn [Nat.eqb]. rewrite andb_false_r. eauto. }
    assert (Hbne : base <> []) by (intros ->; destruct (keys_end h p n Hp) as (r & E); rewrite E in Kb; destruct r; discriminate).
    cbn [location_step]. rewrite HB. cbn [bind].
    assert (HP : forall q m new, node_at h q = Some m -> sgh_key m = al_group line -> map ly_key new = keys h q ->
       on_path h (al_group line) new (res ++ [(line, mkLocation false new ns (al_element line) (al_entry line))])).
    { intros q m new Hq Hy Hn. exists q, m. split; [exact Hq|]. split; [exact Hy|]. split; [exact Hn|]. right. eexists. eexists. eexists. split; reflexivity. }
    destruct HC as [(Hy & [-> | ->])|[(Hne & Hbel & ->)|(Hne & Hbel & ->)]].
    - exists base. rewrite emit_ok by assumption. split; [reflexivity|]. eapply HP; [exact Hp|congruence|exact Kb].
    - destruct Ac as [Hns Hnq]; [discriminate|]. destruct ns as [o|]; [|congruence].
      destruct (@exists_last _ base Hbne) as (b' & z & ->). rewrite (proj2 (pop_last_ok (b' ++ [z]) b')) by eauto. cbn [bind].
      rewrite (occurs_key (al_group line) p n nq o Hp) by (auto; congruence). cbn [bind].
      exists (b' ++ [mkLayer (al_group line) o nq]). rewrite emit_ok by (auto; destruct b'; discriminate). split; [reflexivity|].
      eapply HP; [exact Hp|congruence|]. destruct (keys_end h p n Hp) as (r & E). rewrite map_app in *. cbn [map ly_key] in *. rewrite E in *.
      apply app_inj_tail in Kb as [-> _]. congruence.
    - destruct Ac as [Hns Hnq]; [discriminate|]. destruct ns as [o|]; [|congruence].
      destruct (follow_position _ _ p n HF Hp Hx) as (q & m & Hq & Hy & Hpos).
      apply (below_position x (al_group line) p n q m Hp Hx Hq Hy) in Hbel as (s & Hs & ->).
      assert (exists i, s = [i]) as (i & ->).
      { destruct Hpos as [E|(q' & i & E & Pq)]; [apply app_eq_nil in E; tauto|]. apply is_prefix_length in Pq. apply (f_equal (@List.length _)) in E.
        rewrite !app_length in E. cbn in E. destruct s as [|a [|b s]]; [congruence|eauto|cbn in E; lia]. }
      rewrite (occurs_key (al_group line) _ m nq o Hq) by auto. cbn [bind].
      exists (base ++ [mkLayer (al_group line) o nq]). rewrite emit_ok by (auto; destruct base; discriminate). split; [reflexivity|].
      eapply HP; [exact Hq|exact Hy|]. rewrite map_app, Kb, (keys_snoc h p i m Hq), Hy. reflexivity.
    - destruct Ac as [Hns Hnq]; [discriminate|]. destruct ns as [o|]; [|congruence].
      destruct Hres as [[-> _]|(r0 & l & loc & -> & Hloc)].
      { (* the first line: everything is below the root *)
        exfalso. apply Hbel. destruct (follow_position _ _ p n HF Hp Hx) as (q & m & Hq & Hy & Hpos). rewrite HX in * by reflexivity.
        assert (p = []) as -> by (eapply D; [exact Hp|reflexivity|congruence]).
        apply (below_position None (al_group line) [] n q m Hp Hx Hq Hy). exists q. split; [|reflexivity].
        intros ->. apply Hne. assert (n = m) as -> by congruence. congruence. }
      rewrite Hb in * by (destruct r0; discriminate).
      destruct (leave_path x (al_group line) p n layers loc Hp Hx Hk Hloc HF Hne Hbel) as (q & m & l1 & Hq & Hy & Kq & HL).
      rewrite (proj2 (last_of_ok (r0 ++ [(l, loc)]) (l, loc))) by eauto. cbn [bind snd].
      apply bind_ok in HL as (z & -> & HL). cbn [bind]. apply bind_ok in HL as (ca & -> & HL). cbn [bind]. apply bind_ok in HL as (d & -> & HL). cbn [bind].
      rewrite HL. cbn [bind]. rewrite (occurs_key (al_group line) q m nq o Hq Hy) by auto. cbn [bind].
      exists (l1 ++ [mkLayer (al_group line) o nq]). rewrite emit_ok by (auto; destruct l1; discriminate). split; [reflexivity|].
      eapply HP; [exact Hq|exact Hy|]. rewrite map_app. exact Kq.
  Qed.
  Lemma step_acceptable layers res line c ns nq st' :
    location_step h (layers, res) ((line, c), ns, nq) = Ok st' -> c <> MOVE_TO_NEIGHBOUR_DIFFERENT_KEY ->
    (res = [] -> layers = [plain_layer h]) ->
    acceptable (match res with [] => true | _ => false end) line c ns nq.
  Proof.
    intros H Hc Hl. apply location_step_ok in H as (base & new & loc & HB & _ & _ & (_ & V1 & V2) & HV & _); [|exact Hc].
    split; [exact V1|]. split; [exact V2|]. split.
    - destruct res; [|discriminate]. intros _. rewrite Hl in HB by reflexivity. destruct HB as [(_ & p & l & E & Q)|(p & l & E & _ & _ & (_ & _ & V))]; [|exact V].
      exfalso. apply Q. destruct p as [|a p]; [injection E as <-; reflexivity|]. destruct p; discriminate.
    - intros Hs. destruct HV as [->|(o & -> & (_ & _ & V))]; [congruence|]. split; [discriminate|exact V].
  Qed.

  (** ** all iterations *)
  Definition acceptable_all (st : ChangeState) (first : bool) (l : list (AhbLine * option pystr * option pystr)) : Prop :=
    forall i x, nth_error (annotate h st l) i = Some x ->
      acceptable (match i with O => first | S _ => false end) (fst (fst (fst x))) (snd (fst (fst x))) (snd (fst x)) (snd x).
  Definition prev_key_of (st : ChangeState) : option pystr := match cs_previous_line st with None => None | Some p => al_group p end.
  Lemma step_classified st line ns nq : classified h (prev_key_of st) (al_group line) (snd (change_step h st (line, ns, nq))).
  Proof.
    cbn [change_step snd]. unfold classified, prev_key_of.
    destruct (change_cases line (cs_previous_line st) ns nq (cs_last_opening_segment st) (cs_last_opening_qualifier st)
       (if is_none (al_segment line) then true else cs_segment_code_was_none st) h) as [[E [[C _]|[C _]]]|[(E & B & C)|(E & B & C)]]; auto.
  Qed.
  Lemma acceptable_all_cons st first line ns nq l :
    acceptable_all st first ((line, ns, nq) :: l) <->
    acceptable first line (snd (change_step h st (line, ns, nq))) ns nq /\ acceptable_all (fst (change_step h st (line, ns, nq))) false l.
  Proof.
    unfold acceptable_all. cbn [annotate]. destruct (change_step h st (line, ns, nq)) as [st' c]. cbn [fst snd]. split.
    - intros H. split; [exact (H 0 _ eq_refl)|]. intros i x Hx. specialize (H (S i) x Hx). now destruct i.
    - intros [H1 H2] [|i] x Hx; [injection Hx as <-; exact H1|]. specialize (H2 i x Hx). now destruct i.
  Qed.

  Lemma path_loop lines : forall st layers res,
    on_path h (prev_key_of st) layers res -> (res = [] -> prev_key_of st = None) -> disciplined h (prev_key_of st) lines ->
    ((exists r, foldM (location_step h) (layers, res) (annotate h st (items lines)) = Ok r)
      <-> acceptable_all st (match res with [] => true | _ => false end) (items lines))
    /\ forall layers' res', foldM (location_step h) (layers, res) (annotate h st (items lines)) = Ok (layers', res') ->
       exists new, res' = res ++ new /\ Forall2 (fun l y => fst y = l /\ exists p n, node_at h p = Some n /\ sgh_key n = al_group l /\ map ly_key (lo_layers (snd y)) = keys h p) lines new.
  Proof.
    induction lines as [|l lines IH]; intros st layers res HO HX HD; cbn [items annotate].
    - split.
      + split; [intros _ [|i] x Hx; discriminate|intros _; cbn; eauto].
      + intros layers' res' [= <- <-]. exists []. rewrite app_nil_r. split; constructor.
    - destruct HD as [HF HD]. rewrite acceptable_all_cons.
      set (ns := first_some al_segment (l :: lines)) in *. set (nq := first_some al_entry (l :: lines)) in *.
      pose proof (step_classified st l ns nq) as HC. pose proof (snd_step_cases h st (l, ns, nq)) as [HM _].
      assert (Hst : prev_key_of (fst (change_step h st (l, ns, nq))) = al_group l) by reflexivity.
      destruct (change_step h st (l, ns, nq)) as [st' c]. cbn [fst snd] in *. cbn [foldM].
      split; [split|].
      + intros (r & H). apply bind_ok in H as (s1 & H1 & H).
        assert (A : acceptable (match res with [] => true | _ => false end) l c ns nq).
        { eapply step_acceptable; [exact H1|exact HM|]. intros ->. destruct HO as (? & ? & ? & ? & ? & [[_ ->]|(r0 & ? & ? & E & _)]); [reflexivity|destruct r0; discriminate]. }
        split; [exact A|]. destruct (step_progress _ layers res l c ns nq HO HF HC HX A) as (new & E & HO'). rewrite E in H1. injection H1 as <-.
        rewrite <- Hst in HO'. destruct (IH st' _ _ HO') as [[IH1 _] _]; [intros K; destruct res; discriminate|rewrite Hst; exact HD|].
        replace false with (match res ++ [(l, mkLocation false new ns (al_element l) (al_entry l))] with [] => true | _ => false end) by (destruct res; reflexivity).
        apply IH1. eauto.
      + intros [A1 A2]. destruct (step_progress _ layers res l c ns nq HO HF HC HX A1) as (new & -> & HO'). cbn [bind].
        rewrite <- Hst in HO'. destruct (IH st' _ _ HO') as [[_ IH2] _]; [intros K; destruct res; discriminate|rewrite Hst; exact HD|].
        apply IH2. destruct res; exact A2.
      + intros layers' res' H. apply bind_ok in H as (s1 & H1 & H).
        assert (A : acceptable (match res with [] => true | _ => false end) l c ns nq).
        { eapply step_acceptable; [exact H1|exact HM|]. intros ->. destruct HO as (? & ? & ? & ? & ? & [[_ ->]|(r0 & ? & ? & E & _)]); [reflexivity|destruct r0; discriminate]. }
        destruct (step_progress _ layers res l c ns nq HO HF HC HX A) as (new & E & HO'). rewrite E in H1. injection H1 as <-.
        rewrite <- Hst in HO'. destruct (IH st' _ _ HO') as [_ IH3]; [intros K; destruct res; discriminate|rewrite Hst; exact HD|].
        destruct (IH3 _ _ H) as (tl & -> & F). eexists. split; [rewrite <- app_assoc; reflexivity|]. constructor; [|exact F].
        split; [reflexivity|]. destruct HO' as (p & n & Hp & Hx & Hk & _). rewrite Hst in Hx. exists p, n. auto.
  Qed.
End Path.

(** ** the result of determine_locations, position by position *)
Definition item_at (h : Sgh) (lines : list AhbLine) (i : nat) (l : AhbLine) : (AhbLine * Change) * option pystr * option pystr :=
  ((l, snd (change_step h (state_at h initial (items lines) i) (l, first_some al_segment (skipn i lines), first_some al_entry (skipn i lines)))),
   first_some al_segment (skipn i lines), first_some al_entry (skipn i lines)).
Definition layers_before (h : Sgh) (r : list (AhbLine * Location)) (i : nat) : list Layer :=
  match i with O => [plain_layer h] | S j => match nth_error r j with Some z => lo_layers (snd z) | None => [] end end.
Lemma determine_locations_steps h lines r : determine_locations h lines = Ok r ->
  List.length r = List.length lines
  /\ forall i l, nth_error lines i = Some l -> exists y, nth_error r i = Some y
       /\ steps_to h (item_at h lines i l) (firstn i r) (layers_before h r i) y.
Proof.
  intros H. rewrite determine_locations_eq in H. apply bind_ok in H as (l0 & H0 & H). apply new_Layer_ok in H0 as [-> V0].
  change (mkLayer (sgh_key h) (sgh_opening h) None) with (plain_layer h) in H.
  apply bind_ok in H as ([layers res] & H & E). injection E as <-. cbn [snd].
  apply location_loop in H as (L & _ & P); [|intros x Hx; now apply annotate_change in Hx].
  assert (La : List.length (annotate h initial (items lines)) = List.length lines).
  { generalize initial. clear. induction lines as [|l r IH]; intros st; cbn [items annotate]; [reflexivity|].
    destruct (change_step h st _). cbn. now rewrite IH. }
  split; [congruence|]. intros i l Hl. apply P. rewrite annotate_nth, items_nth, Hl. reflexivity.
Qed.
Lemma item_change h lines i l : nth_error lines i = Some l ->
  nth_error (change_loop h initial (items lines)) i = Some (l, snd (fst (fst (item_at h lines i l)))).
Proof. intros H. rewrite change_loop_nth, items_nth, H. reflexivity. Qed.
Lemma item_classified h lines i l x : nth_error lines i = Some l -> previous_key lines i x ->
  classified h x (al_group l) (snd (fst (fst (item_at h lines i l)))).
Proof.
  intros H Hx. cbn [item_at fst snd].
  pose proof (step_classified h (state_at h initial (items lines) i) l (first_some al_segment (skipn i lines)) (first_some al_entry (skipn i lines))) as C.
  pose proof (previous_state h lines i) as P. assert (Hi : i < List.length lines) by (apply nth_error_Some; congruence).
  specialize (P (Nat.lt_le_incl _ _ Hi)). fold (prev_key_of (state_at h initial (items lines) i)) in P.
  assert (prev_key_of (state_at h initial (items lines) i) = x) as <-; [|exact C].
  destruct P as [[-> ->]|(j & a & -> & Ha & <-)], Hx as [[E ->]|(j' & a' & E & Ha' & <-)]; try discriminate; try reflexivity.
  injection E as ->. congruence.
Qed.

Lemma new_layers_last c old n new : new_layers_of c old n new -> c <> STAY -> exists p, new = p ++ [n].
Proof. destruct c; cbn; intros H Hc; try congruence; try contradiction; [destruct H as (p & o & _ & H)| |destruct H as (p & _ & H)]; eauto. Qed.

Lemma last_layer_key h lines r : determine_locations h lines = Ok r ->
  (sgh_key h = None \/ forall l rest, lines = l :: rest -> al_group l <> None) ->
  forall i line loc, nth_error r i = Some (line, loc) -> exists p l, lo_layers loc = p ++ [l] /\ ly_key l = al_group line.
Proof.
  intros H Hroot. apply determine_locations_steps in H as [L P].
  induction i as [|i IH]; intros line loc Hr.
  - assert (exists l, nth_error lines 0 = Some l) as (l & Hl).
    { destruct (nth_error lines 0) as [l|] eqn:E; [eauto|]. apply nth_error_None in E. assert (0 < List.length r) by (apply nth_error_Some; congruence). lia. }
    destruct (P 0 l Hl) as (y & Hy & base & HB & Hf & Hs & _ & HV & HS & HN & _). rewrite Hr in Hy. injection Hy as <-. cbn [fst snd] in *.
    pose proof (item_classified h lines 0 l None Hl (or_introl (conj eq_refl eq_refl))) as HC.
    set (c := snd (fst (fst (item_at h lines 0 l)))) in *.
    assert (D : c = STAY \/ c <> STAY) by (destruct c; (now left) || (right; discriminate)). destruct D as [D|D].
    + rewrite (HS D). cbn in Hf. subst line.
      assert (Hg : al_group l = None) by (destruct HC as [[E _]|[(_ & _ & E)|(_ & _ & E)]]; congruence).
      destruct Hroot as [Hroot|Hroot]; [|destruct lines; [discriminate|]; injection Hl as ->; exfalso; exact (Hroot _ _ eq_refl Hg)].
      rewrite Hg. cbn [base_layers firstn layers_before] in HB. destruct HB as [[-> _]|(p & l0 & _ & _ & -> & _)]; [exists [], (plain_layer h)|exists p; eexists]; split; try reflexivity; exact Hroot.
    + destruct HV as [HV|(o & Ho & _)]; [congruence|]. specialize (HN o Ho). apply new_layers_last in HN as (p & ->); [|exact D]. eauto.
  - assert (exists l, nth_error lines (S i) = Some l) as (l & Hl).
    { destruct (nth_error lines (S i)) as [l|] eqn:E; [eauto|]. apply nth_error_None in E. assert (S i < List.length r) by (apply nth_error_Some; congruence). lia. }
    assert (exists l', nth_error lines i = Some l') as (l' & Hl').
    { destruct (nth_error lines i) as [l'|] eqn:E; [eauto|]. apply nth_error_None in E. assert (S i < List.length lines) by (apply nth_error_Some; congruence). lia. }
    destruct (P i l' Hl') as ([line' loc'] & Hy' & base' & _ & Hf' & _). cbn in Hf'. subst line'.
    destruct (IH _ _ Hy') as (p & z & Ep & Ez).
    destruct (P (S i) l Hl) as (y & Hy & base & HB & Hf & Hs & _ & HV & HS & HN & _). rewrite Hr in Hy. injection Hy as <-. cbn [fst snd] in *.
    pose proof (item_classified h lines (S i) l (al_group l') Hl) as HC. specialize (HC (or_intror (ex_intro _ i (ex_intro _ l' (conj eq_refl (conj Hl' eq_refl)))))).
    set (c := snd (fst (fst (item_at h lines (S i) l)))) in *. cbn in Hf. subst line.
    assert (D : c = STAY \/ c <> STAY) by (destruct c; (now left) || (right; discriminate)). destruct D as [D|D].
    + rewrite (HS D). assert (Hg : al_group l = al_group l') by (destruct HC as [[E _]|[(_ & _ & E)|(_ & _ & E)]]; congruence).
      cbn [layers_before] in HB. rewrite Hy' in HB. cbn [snd] in HB.
      assert (Hne : firstn (S i) r <> []) by (destruct r; [discriminate|]; discriminate).
      destruct (firstn (S i) r); [congruence|]. cbn in HB. subst base. rewrite Ep, Hg. eauto.
    + destruct HV as [HV|(o & Ho & _)]; [congruence|]. specialize (HN o Ho). apply new_layers_last in HN as (q & ->); [|exact D]. eauto.
Qed.
