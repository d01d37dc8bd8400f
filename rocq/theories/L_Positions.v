(** Lemmas for C67: the value pool objects of an AHB and their positions. *)
From Coq Require Import Ascii String List NArith ZArith Bool Lia Arith.
From Verif Require Import PyBase PyStr PyRe M_Components M_Ahb M_Transformation L_Base S_DeepAhb L_DeepAhb S_Transformation.
Import ListNotations.
Local Open Scope list_scope.

Lemma in_flat_mapi {X Y} (f : nat -> X -> list Y) l y : forall i,
  In y (flat_mapi f i l) <-> exists j x, nth_error l j = Some x /\ In y (f (i + j) x).
Proof.
  induction l as [|x l IH]; intros i; cbn [flat_mapi].
  - split; [intros []|]. intros ([|j] & x & [=] & _).
  - rewrite in_app_iff, IH. split.
    + intros [H|(j & z & N & H)]; [exists 0, x; rewrite Nat.add_0_r; auto|]. exists (S j), z. rewrite Nat.add_succ_r. auto.
    + intros ([|j] & z & N & H); cbn in N.
      * injection N as <-. rewrite Nat.add_0_r in H. auto.
      * right. exists j, z. rewrite Nat.add_succ_r in H. auto.
Qed.
Lemma map_flat_mapi {X Y Z} (g : Y -> Z) (f : nat -> X -> list Y) (h : X -> list Z) l :
  (forall i x, In x l -> map g (f i x) = h x) -> forall i, map g (flat_mapi f i l) = flat_map h l.
Proof.
  intros H. assert (K : forall x, In x l -> forall i, map g (f i x) = h x) by auto. clear H. revert K.
  induction l as [|x l IH]; intros K i; cbn; [reflexivity|]. rewrite map_app, K, IH; auto. intros; apply K; now right. now left.
Qed.
Lemma map_flat_map {X X' Y Z} (g : Y -> Z) (e : X -> X') (f : X -> list Y) (h : X' -> list Z) l :
  (forall x, map g (f x) = h (e x)) -> map g (flat_map f l) = flat_map h (map e l).
Proof. intros H. induction l as [|x l IH]; cbn; [reflexivity|]. now rewrite map_app, H, IH. Qed.

(** the element at a position, computed *)
Fixpoint below (path : list nat) (g : SegmentGroup) : option SegmentGroup :=
  match path with
  | [] => Some g
  | j :: path => match nth_error (olist (g_groups g)) j with Some h => below path h | None => None end
  end.
Definition element_of (s i : nat) (g : SegmentGroup) : option DataElement :=
  match nth_error (olist (g_segments g)) s with Some segment => nth_error (seg_elements segment) i | None => None end.
Definition group_at (ls : list SegmentGroup) (path : list nat) : option SegmentGroup :=
  match path with
  | [] => None
  | j :: path => match nth_error ls j with Some g => below path g | None => None end
  end.
Definition lookup (a : DeepAhb) (pos : position) : option DataElement :=
  match pos with
  | (path, s, i) => match group_at (da_lines a) path with Some g => element_of s i g | None => None end
  end.
Lemma below_app p q g : below (p ++ q) g = match below p g with Some h => below q h | None => None end.
Proof. revert g. induction p as [|j p IH]; intros g; cbn; [reflexivity|]. destruct (nth_error _ j); auto. Qed.
Lemma group_at_app ls p q : p <> [] -> group_at ls (p ++ q) = match group_at ls p with Some h => below q h | None => None end.
Proof. destruct p as [|j p]; [congruence|]. intros _. cbn. destruct (nth_error ls j); [apply below_app|reflexivity]. Qed.
Lemma group_at_spec ls path g : group_at_position ls path g <-> group_at ls path = Some g.
Proof.
  split.
  - induction 1 as [gs i g N|gs i g l path h N L H IH]; cbn; rewrite N; [reflexivity|]. destruct path as [|j path]; [discriminate|].
    cbn in IH. cbn. rewrite L. exact IH.
  - destruct path as [|i path]; [discriminate|]. revert ls i. induction path as [|j path IH]; intros ls i H; cbn in H; destruct (nth_error ls i) as [k|] eqn:N; try discriminate.
    + injection H as ->. now constructor.
    + destruct (g_groups k) as [l|] eqn:L; cbn in H; [|destruct j; discriminate]. eapply at_deeper; [exact N|exact L|]. apply IH. cbn. exact H.
Qed.
Lemma lookup_spec a pos d : element_at a pos d <-> lookup a pos = Some d.
Proof.
  destruct pos as [[path s] i]. unfold element_at, lookup, element_of. split.
  - intros (g & l & sg & G & L & N & E). apply group_at_spec in G. rewrite G, L. cbn. now rewrite N.
  - destruct (group_at (da_lines a) path) as [g|] eqn:G; [|discriminate]. destruct (g_segments g) as [l|] eqn:L; cbn; [|destruct s; discriminate].
    destruct (nth_error l s) as [sg|] eqn:N; [|discriminate]. intros E. exists g, l, sg. split; [now apply group_at_spec|auto].
Qed.

(** ** the pools with their positions *)
Lemma groups_at_values g : forall pos, map snd (groups_at pos g) = query_segment_group (fun _ => true) g.
Proof.
  induction g as [d e i ss gs IH] using group_ind'. rewrite Forall_forall in IH. intros pos. cbn [groups_at query_segment_group map snd app]. f_equal. destruct gs as [l|]; [|reflexivity].
  apply map_flat_mapi. intros j h I. apply IH. exact I.
Qed.
Lemma groups_at_place g : forall pos pos' h, In (pos', h) (groups_at pos g) -> exists q, pos' = pos ++ q /\ below q g = Some h.
Proof.
  induction g as [d e i ss gs IH] using group_ind'. rewrite Forall_forall in IH. intros pos pos' h. cbn [groups_at]. intros [[= <- <-]|H].
  - exists []. split; [now rewrite app_nil_r|reflexivity].
  - destruct gs as [l|]; [|destruct H]. apply in_flat_mapi in H. destruct H as (j & k & N & H).
    assert (I : In k l) by now apply nth_error_In in N. destruct (IH k I _ _ _ H) as (q & -> & B). exists (j :: q). split; [now rewrite <- app_assoc|]. cbn. now rewrite N.
Qed.
Lemma segments_at_values pos ss : map snd (segments_at pos ss) = ss.
Proof.
  unfold segments_at. rewrite (map_flat_mapi snd _ (fun s => [s])); [|reflexivity]. induction ss; cbn; congruence.
Qed.
Lemma in_segments_at pos ss pos' i s : In (pos', i, s) (segments_at pos ss) -> pos' = pos /\ nth_error ss i = Some s.
Proof. unfold segments_at. intros H. apply in_flat_mapi in H. destruct H as (j & x & N & [[= <- <- <-]|[]]). auto. Qed.
Lemma group_segments_at_values g : forall pos, map snd (group_segments_at pos g) = group_find_segments (fun _ => true) true g.
Proof.
  induction g as [d e i ss gs IH] using group_ind'. rewrite Forall_forall in IH. intros pos. cbn [group_segments_at group_find_segments]. rewrite map_app, segments_at_values. f_equal.
  - induction (olist ss); cbn; congruence.
  - destruct gs as [l|]; [|reflexivity]. apply map_flat_mapi. intros j h I. apply IH. exact I.
Qed.
Lemma group_segments_at_place g : forall pos pos' i s, In (pos', i, s) (group_segments_at pos g) ->
  exists q h, pos' = pos ++ q /\ below q g = Some h /\ nth_error (olist (g_segments h)) i = Some s.
Proof.
  induction g as [d e x ss gs IH] using group_ind'. rewrite Forall_forall in IH. intros pos pos' i s. cbn [group_segments_at]. rewrite in_app_iff. intros [H|H].
  - apply in_segments_at in H. destruct H as (-> & N). exists [], (mkGroup d e x ss gs). split; [now rewrite app_nil_r|]. split; [reflexivity|exact N].
  - destruct gs as [l|]; [|destruct H]. apply in_flat_mapi in H. destruct H as (j & k & N & H).
    assert (I : In k l) by now apply nth_error_In in N. destruct (IH k I _ _ _ _ H) as (q & h & -> & B & E). exists (j :: q), h.
    split; [now rewrite <- app_assoc|]. cbn. now rewrite N.
Qed.
Definition add_if_new (result : list (list nat * SegmentGroup)) (x : list nat * SegmentGroup) :=
  if existsb (group_eqb (snd x)) (map snd result) then result else result ++ [x].
Lemma add_if_new_values l : forall r, map snd (fold_left add_if_new l r)
  = fold_left (fun result line_result => if existsb (group_eqb line_result) result then result else result ++ [line_result]) (map snd l) (map snd r).
Proof.
  induction l as [|x l IH]; intros r; cbn [fold_left map]; [reflexivity|]. rewrite IH. unfold add_if_new. destruct (existsb _ _); [reflexivity|]. now rewrite map_app.
Qed.
Lemma add_if_new_in l x : forall r, In x (fold_left add_if_new l r) -> In x r \/ In x l.
Proof.
  induction l as [|y l IH]; intros r; cbn [fold_left]; [auto|]. intros H. apply IH in H. destruct H as [H|H]; [|now right; right].
  unfold add_if_new in H. destruct (existsb _ _); [auto|]. apply in_app_iff in H. destruct H as [H|[<-|[]]]; [auto|now right; left].
Qed.
Lemma lines_values ls : forall i r, map snd (lines_groups_at i ls r)
  = fold_left (fun result line =>
       let result := result ++ flat_map (query_segment_group (fun _ => true)) (olist (g_groups line)) in
       fold_left (fun result line_result => if existsb (group_eqb line_result) result then result else result ++ [line_result])
                 (query_segment_group (fun _ => true) line) result) ls (map snd r).
Proof.
  induction ls as [|line ls IH]; intros i r; cbn [lines_groups_at fold_left]; [reflexivity|]. rewrite IH. f_equal. unfold line_groups_at. cbv zeta.
  fold add_if_new. rewrite add_if_new_values, groups_at_values, map_app. f_equal. f_equal. apply map_flat_mapi. intros. apply groups_at_values.
Qed.
Lemma find_groups_at_values a : map snd (find_groups_at a) = find_segment_groups a (fun _ => true).
Proof. unfold find_groups_at, find_segment_groups. now rewrite lines_values. Qed.
Lemma lines_place all ls : forall i r, (forall j g, nth_error ls j = Some g -> nth_error all (i + j) = Some g) ->
  (forall pos g, In (pos, g) r -> pos <> [] /\ group_at all pos = Some g) ->
  forall pos g, In (pos, g) (lines_groups_at i ls r) -> pos <> [] /\ group_at all pos = Some g.
Proof.
  induction ls as [|line ls IH]; intros i r L R; cbn [lines_groups_at]; [exact R|]. apply IH.
  - intros j g N. specialize (L (S j) g N). now rewrite Nat.add_succ_r in L.
  - assert (N0 : nth_error all i = Some line) by (specialize (L 0 line eq_refl); now rewrite Nat.add_0_r in L).
    intros pos g H. unfold line_groups_at in H. cbv zeta in H. fold add_if_new in H. apply add_if_new_in in H. destruct H as [H|H].
    + apply in_app_iff in H. destruct H as [H|H]; [now apply R|]. apply in_flat_mapi in H. destruct H as (j & h & N & H).
      destruct (groups_at_place _ _ _ _ H) as (q & -> & B). split; [discriminate|]. cbn [app group_at]. rewrite N0. cbn. cbn in N. now rewrite N.
    + destruct (groups_at_place _ _ _ _ H) as (q & -> & B). split; [discriminate|]. cbn [app group_at]. now rewrite N0.
Qed.
Lemma find_groups_at_place a pos g : In (pos, g) (find_groups_at a) -> pos <> [] /\ group_at (da_lines a) pos = Some g.
Proof. apply lines_place; [auto|]. intros ? ? []. Qed.

Lemma find_segments_at_values a : map snd (find_segments_at a) = find_segments a (fun _ => true) (fun _ => true).
Proof.
  unfold find_segments_at, find_segments. rewrite map_app. f_equal.
  - rewrite <- find_groups_at_values. apply map_flat_map. intros [pos g]. apply group_segments_at_values.
  - apply map_flat_mapi. intros i line _. rewrite segments_at_values. induction (olist (g_segments line)); cbn; congruence.
Qed.
Lemma find_segments_at_place a pos i s : In (pos, i, s) (find_segments_at a) ->
  exists g, group_at (da_lines a) pos = Some g /\ nth_error (olist (g_segments g)) i = Some s.
Proof.
  unfold find_segments_at. rewrite in_app_iff. intros [H|H].
  - apply in_flat_map in H. destruct H as ([pos0 g] & I & H). apply find_groups_at_place in I. destruct I as (N & G). cbn [fst snd] in H.
    destruct (group_segments_at_place _ _ _ _ _ H) as (q & h & -> & B & E). exists h. rewrite group_at_app, G by exact N. auto.
  - apply in_flat_mapi in H. destruct H as (j & line & N & H). apply in_segments_at in H. destruct H as (-> & E). exists line. cbn. cbn in N. rewrite N. auto.
Qed.
Lemma segment_pools_at_values x : map snd (segment_pools_at x) = segment_value_pools (snd x).
Proof. unfold segment_pools_at, segment_value_pools. apply map_flat_mapi. intros i [p|t] _; reflexivity. Qed.
Lemma segment_pools_at_place x path s i p : In (path, s, i, p) (segment_pools_at x) -> fst x = (path, s) /\ nth_error (seg_elements (snd x)) i = Some (DPool p).
Proof.
  unfold segment_pools_at. intros H. apply in_flat_mapi in H. destruct H as (j & [t|q] & N & H); [destruct H|]. destruct H as [[= E <- <-]|[]]. auto.
Qed.

Definition pools_at_in_order (a : DeepAhb) : list (position * ValuePool) :=
  flat_map segment_pools_at (find_segments_at a)
  ++ flat_map (fun x => flat_map segment_pools_at (group_segments_at (fst x) (snd x))) (find_groups_at a).
Lemma pools_at_in_order_values a : map snd (pools_at_in_order a) = pools_in_order a.
Proof.
  unfold pools_at_in_order, pools_in_order. rewrite map_app. f_equal.
  - rewrite <- find_segments_at_values. apply map_flat_map. apply segment_pools_at_values.
  - rewrite <- find_groups_at_values. apply map_flat_map. intros [pos g]. cbn [fst snd]. unfold group_value_pools. rewrite <- (group_segments_at_values g pos).
    apply map_flat_map. apply segment_pools_at_values.
Qed.
Lemma pools_at_in_order_place a pos p : In (pos, p) (pools_at_in_order a) -> lookup a pos = Some (DPool p).
Proof.
  destruct pos as [[path s] i]. unfold pools_at_in_order. rewrite in_app_iff, !in_flat_map.
  assert (K : forall x, In x (find_segments_at a) \/ (exists y, In y (find_groups_at a) /\ In x (group_segments_at (fst y) (snd y))) ->
              In (path, s, i, p) (segment_pools_at x) -> lookup a (path, s, i) = Some (DPool p)).
  { intros [[path' s'] sg] Hx H. apply segment_pools_at_place in H. cbn [fst snd] in H. destruct H as ([= -> ->] & E).
    assert (G : exists g, group_at (da_lines a) path = Some g /\ nth_error (olist (g_segments g)) s = Some sg).
    { destruct Hx as [Hx|([pos0 g] & I & Hx)]; [now apply find_segments_at_place|]. apply find_groups_at_place in I. destruct I as (N & G). cbn [fst snd] in Hx.
      destruct (group_segments_at_place _ _ _ _ _ Hx) as (q & h & -> & B & E'). exists h. rewrite group_at_app, G by exact N. auto. }
    destruct G as (g & G & N). cbn [lookup]. rewrite G. unfold element_of. now rewrite N. }
  intros [(x & I & H)|(y & I & H)]; [apply (K x); auto|]. apply in_flat_map in H. destruct H as (x & Ix & H). apply (K x); eauto.
Qed.

Lemma add_pool_at_values l : forall r added, let st := fold_left add_pool_at l (r, added) in
  fold_left add_pool_to_result (map snd l) (map snd r, added) = (map snd (fst st), snd st).
Proof.
  induction l as [|[pos p] l IH]; intros r added; cbn [fold_left map snd]; [reflexivity|]. cbn zeta in *. cbn [add_pool_at add_pool_to_result snd].
  destruct (ostr_in (vp_discriminator p) added); [apply IH|]. destruct (existsb (pool_eqb p) (map snd r)); [apply IH|].
  rewrite <- IH. now rewrite map_app.
Qed.
Lemma add_pool_at_in l x : forall r added, In x (fst (fold_left add_pool_at l (r, added))) -> In x r \/ In x l.
Proof.
  induction l as [|[pos p] l IH]; intros r added; cbn [fold_left fst]; [auto|]. cbn [add_pool_at snd].
  destruct (ostr_in (vp_discriminator p) added); [|destruct (existsb (pool_eqb p) (map snd r))]; intros H; apply IH in H.
  1,2: destruct H; [auto|now right; right].
  destruct H as [H|H]; [|now right; right]. apply in_app_iff in H. destruct H as [H|[<-|[]]]; [auto|now right; left].
Qed.
Lemma value_pools_at_values a : map snd (value_pools_at a) = get_all_value_pools a.
Proof.
  unfold value_pools_at, get_all_value_pools. fold (pools_at_in_order a) (pools_in_order a). rewrite <- pools_at_in_order_values.
  change (@nil ValuePool) with (map snd (@nil (position * ValuePool))). now rewrite add_pool_at_values.
Qed.
Lemma value_pools_at_place a pos p : In (pos, p) (value_pools_at a) -> lookup a pos = Some (DPool p).
Proof.
  unfold value_pools_at. fold (pools_at_in_order a). intros H. apply add_pool_at_in in H. destruct H as [[]|H]. now apply pools_at_in_order_place.
Qed.

(** ** changing one pool *)
Lemma nth_modify {X} i (f : X -> X) l j : nth_error (modify_nth i f l) j = if Nat.eqb i j then option_map f (nth_error l j) else nth_error l j.
Proof.
  revert i j. induction l as [|x l IH]; intros [|i] [|j]; cbn; try reflexivity; [destruct (Nat.eqb i j); reflexivity|]. apply IH.
Qed.
Definition pos_eq_dec (p q : position) : {p = q} + {p <> q}.
Proof. repeat decide equality. Defined.
Lemma element_modify s i f d e x ss gs s' i' :
  element_of s' i' (mkGroup d e x (option_map (modify_nth s (modify_segment i f)) ss) gs)
  = if Nat.eqb s s' && Nat.eqb i i' then option_map (modify_element f) (element_of s' i' (mkGroup d e x ss gs)) else element_of s' i' (mkGroup d e x ss gs).
Proof.
  unfold element_of. cbn [g_segments]. destruct ss as [l|]; cbn [option_map olist].
  - rewrite nth_modify. destruct (Nat.eqb s s'); cbn [andb]; [|reflexivity]. destruct (nth_error l s') as [sg|]; cbn [option_map]; [|destruct (Nat.eqb i i'); reflexivity].
    unfold modify_segment. cbn [seg_elements]. apply nth_modify.
  - replace (nth_error (@nil Segment) s') with (@None Segment) by now destruct s'. now destruct (Nat.eqb s s' && Nat.eqb i i').
Qed.
Lemma below_modify path s i f : forall g path' s' i',
  match below path' (modify_group path s i f g) with Some h => element_of s' i' h | None => None end
  = if pos_eq_dec (path, s, i) (path', s', i')
    then option_map (modify_element f) (match below path' g with Some h => element_of s' i' h | None => None end)
    else match below path' g with Some h => element_of s' i' h | None => None end.
Proof.
  induction path as [|j path IH]; intros [d e x ss gs] path' s' i'; cbn [modify_group].
  - destruct path' as [|j' path']; cbn [below].
    + rewrite element_modify. destruct (Nat.eqb_spec s s') as [<-|Ns]; cbn [andb].
      * destruct (Nat.eqb_spec i i') as [<-|Ni]; destruct (pos_eq_dec _ _) as [E|E]; try reflexivity; congruence.
      * destruct (pos_eq_dec _ _) as [E|E]; [congruence|reflexivity].
    + destruct (pos_eq_dec _ _) as [E|E]; [congruence|]. reflexivity.
  - destruct path' as [|j' path']; cbn [below g_groups].
    + destruct (pos_eq_dec _ _) as [E|E]; [congruence|reflexivity].
    + assert (O : olist (option_map (modify_nth j (modify_group path s i f)) gs) = modify_nth j (modify_group path s i f) (olist gs)) by (destruct gs; [reflexivity|now destruct j]).
      rewrite O, nth_modify. destruct (Nat.eqb_spec j j') as [<-|Nj].
      * destruct (nth_error (olist gs) j) as [h|]; cbn [option_map]; [|destruct (pos_eq_dec _ _); reflexivity]. rewrite IH.
        destruct (pos_eq_dec (path, s, i) (path', s', i')) as [E|E], (pos_eq_dec (j :: path, s, i) (j :: path', s', i')) as [E'|E']; try reflexivity; congruence.
      * destruct (pos_eq_dec _ _) as [E|E]; [congruence|reflexivity].
Qed.
Lemma lookup_modify pos f a pos' : lookup (modify_pool pos f a) pos' = if pos_eq_dec pos pos' then option_map (modify_element f) (lookup a pos') else lookup a pos'.
Proof.
  destruct pos as [[[|line path] s] i], pos' as [[path' s'] i']; cbn [modify_pool lookup].
  - destruct (pos_eq_dec _ _) as [E|E]; [|reflexivity]. injection E as <- <- <-. reflexivity.
  - cbn [da_lines]. destruct path' as [|line' path']; cbn [group_at]; [destruct (pos_eq_dec _ _); reflexivity|]. rewrite nth_modify.
    destruct (Nat.eqb_spec line line') as [<-|Nl].
    + destruct (nth_error (da_lines a) line) as [g|]; cbn [option_map]; [|destruct (pos_eq_dec _ _); reflexivity]. rewrite below_modify.
      destruct (pos_eq_dec (path, s, i) (path', s', i')) as [E|E], (pos_eq_dec (line :: path, s, i) (line :: path', s', i')) as [E'|E']; try reflexivity; congruence.
    + destruct (pos_eq_dec _ _) as [E|E]; [congruence|reflexivity].
Qed.

(** ** the shape *)
Notation same_shape := (groups_related (fun _ _ => True) eq).
Lemma segment_shape_refl s : segments_related (fun _ _ => True) eq s s.
Proof. unfold segments_related. repeat split. induction (seg_elements s); constructor; auto. Qed.
Lemma shape_refl g : same_shape g g.
Proof.
  induction g as [d e i ss gs IH] using group_ind'. rewrite Forall_forall in IH. constructor; [reflexivity| |].
  - destruct ss as [l|]; constructor. induction l; constructor; auto using segment_shape_refl.
  - destruct gs as [l|]; constructor. assert (K : forall g, In g l -> same_shape g g) by (intros g I; now apply IH). clear IH. induction l as [|g l IH]; constructor; auto using in_eq, in_cons.
Qed.
Lemma Forall2_modify {X} (P : X -> X -> Prop) i f l : (forall x, P x x) -> (forall x, P x (f x)) -> Forall2 P l (modify_nth i f l).
Proof.
  intros R F. revert i. induction l as [|x l IH]; intros [|i]; cbn; constructor; auto. clear IH. induction l; constructor; auto.
Qed.
Lemma segment_shape_modify i f s : segments_related (fun _ _ => True) eq s (modify_segment i f s).
Proof. unfold segments_related, modify_segment. cbn. repeat split. now apply Forall2_modify. Qed.
Lemma shape_modify path s i f : forall g, same_shape g (modify_group path s i f g).
Proof.
  induction path as [|j path IH]; intros [d e x ss gs]; cbn [modify_group]; pose proof (shape_refl (mkGroup d e x ss gs)) as R; inversion R; subst; constructor; auto.
  - destruct ss as [l|]; constructor. apply Forall2_modify; auto using segment_shape_refl, segment_shape_modify.
  - destruct gs as [l|]; constructor. apply Forall2_modify; auto using shape_refl.
Qed.
Lemma segment_shape_trans s1 s2 s3 : segments_related (fun _ _ => True) eq s1 s2 -> segments_related (fun _ _ => True) eq s2 s3 -> segments_related (fun _ _ => True) eq s1 s3.
Proof.
  unfold segments_related. intros H1 H2. decompose [and] H1. decompose [and] H2. repeat split; try congruence.
  assert (L : forall l1 l2 : list DataElement, Forall2 (fun _ _ => True) l1 l2 <-> List.length l1 = List.length l2).
  { intros l1. induction l1 as [|x l1 IHl]; intros [|y l2]; cbn; split; intros Q; try discriminate; try (inversion Q; fail); auto.
    - inversion Q; subst. f_equal. now apply IHl.
    - constructor; [exact I|]. apply IHl. now injection Q. }
  repeat match goal with Q : Forall2 _ _ _ |- _ => apply L in Q end. apply L. congruence.
Qed.
Lemma Forall2_trans_in {X} (P : X -> X -> Prop) l1 : (forall x, In x l1 -> forall y z, P x y -> P y z -> P x z) -> forall l2 l3, Forall2 P l1 l2 -> Forall2 P l2 l3 -> Forall2 P l1 l3.
Proof.
  intros T l2 l3 H. revert l3. induction H as [|x y l1 l2 Hx H IH]; intros l3 K; inversion K; subst; constructor.
  - eapply T; [now left|exact Hx|eassumption].
  - apply IH; [|assumption]. intros; eapply T; eauto. now right.
Qed.
Lemma shape_trans g1 : forall g2 g3, same_shape g1 g2 -> same_shape g2 g3 -> same_shape g1 g3.
Proof.
  induction g1 as [d e i ss gs IH] using group_ind'. rewrite Forall_forall in IH. intros g2 g3 H K. inversion H as [? ? ? i2 ? ss2 ? gs2 Ei Es Eg]; subst. inversion K as [? ? ? i3 ? ss3 ? gs3 Ei' Es' Eg']; subst.
  constructor; [reflexivity| |].
  - inversion Es; subst; inversion Es'; subst; constructor. eapply Forall2_trans_in; try eassumption. intros; eapply segment_shape_trans; eassumption.
  - inversion Eg as [|l1 l2 F]; subst; inversion Eg' as [|l2' l3 F']; subst; constructor. eapply Forall2_trans_in; try eassumption.
Qed.
Lemma ahb_shape_refl a : ahbs_related (fun _ _ => True) eq a a.
Proof. split; [reflexivity|]. induction (da_lines a); constructor; auto using shape_refl. Qed.
Lemma ahb_shape_modify pos f a : ahbs_related (fun _ _ => True) eq a (modify_pool pos f a).
Proof.
  destruct pos as [[[|line path] s] i]; cbn [modify_pool]; [apply ahb_shape_refl|]. split; [reflexivity|]. cbn. apply Forall2_modify; auto using shape_refl, shape_modify.
Qed.
Lemma ahb_shape_trans a b c : ahbs_related (fun _ _ => True) eq a b -> ahbs_related (fun _ _ => True) eq b c -> ahbs_related (fun _ _ => True) eq a c.
Proof.
  intros (M & F) (M' & F'). split; [congruence|]. eapply Forall2_trans_in; try eassumption. intros; eapply shape_trans; eassumption.
Qed.

(** an AHB is determined by its shape and its data elements *)
Lemma elements_eq l : forall l1 l2 : list DataElement, Forall2 (fun _ _ => True) l l1 -> Forall2 (fun _ _ : DataElement => True) l l2 ->
  (forall i, nth_error l1 i = nth_error l2 i) -> l1 = l2.
Proof.
  intros l1 l2 _ _. revert l2. induction l1 as [|x l1 IH]; intros [|y l2] E; [reflexivity|specialize (E 0); discriminate|specialize (E 0); discriminate|].
  f_equal; [specialize (E 0); cbn in E; congruence|]. apply IH. intros i. exact (E (S i)).
Qed.
Lemma shape_determines g : forall g1 g2, same_shape g g1 -> same_shape g g2 ->
  (forall path s i, match below path g1 with Some h => element_of s i h | None => None end = match below path g2 with Some h => element_of s i h | None => None end) -> g1 = g2.
Proof.
  induction g as [d e x ss gs IH] using group_ind'. rewrite Forall_forall in IH. intros g1 g2 H1 H2 E. inversion H1 as [? ? ? x1 ? ss1 ? gs1 Ex1 Es1 Eg1]; subst. inversion H2 as [? ? ? x2 ? ss2 ? gs2 Ex2 Es2 Eg2]; subst.
  f_equal.
  - inversion Es1 as [|l l1 F1]; subst; inversion Es2 as [|l' l2 F2]; subst; [reflexivity|]. f_equal.
    assert (S0 : forall s i, match nth_error l1 s with Some sg => nth_error (seg_elements sg) i | None => None end = match nth_error l2 s with Some sg => nth_error (seg_elements sg) i | None => None end)
      by (intros s i; exact (E [] s i)).
    clear - F1 F2 S0. revert l2 F2 S0. induction F1 as [|sg sg1 l l1 Hs F1 IHl]; intros l2 F2 S0; inversion F2 as [|? sg2 ? l2' Hs2 F2']; subst; [reflexivity|]. f_equal.
    + unfold segments_related in *. decompose [and] Hs. decompose [and] Hs2. destruct sg1, sg2; cbn in *. f_equal; try congruence.
      eapply elements_eq; try eassumption. intros i. exact (S0 0 i).
    + apply IHl; [exact F2'|]. intros s i. exact (S0 (S s) i).
  - inversion Eg1 as [|l l1 F1]; subst; inversion Eg2 as [|l' l2 F2]; subst; [reflexivity|]. f_equal.
    assert (S0 : forall j path s i, match nth_error l1 j with Some k => match below path k with Some h => element_of s i h | None => None end | None => None end
                                  = match nth_error l2 j with Some k => match below path k with Some h => element_of s i h | None => None end | None => None end).
    { intros j path s i. specialize (E (j :: path) s i). cbn in E. destruct (nth_error l1 j), (nth_error l2 j); exact E. }
    assert (K : forall k, In k l -> forall g1 g2, same_shape k g1 -> same_shape k g2 -> (forall path s i, match below path g1 with Some h => element_of s i h | None => None end = match below path g2 with Some h => element_of s i h | None => None end) -> g1 = g2)
      by (intros k I; now apply IH).
    clear - F1 F2 S0 K. revert l2 F2 S0 K. induction F1 as [|g g1 l l1 Hg F1 IHl]; intros l2 F2 S0 K; inversion F2 as [|? g2 ? l2' Hg2 F2']; subst; [reflexivity|]. f_equal.
    + apply (K g); [now left|exact Hg|exact Hg2|]. intros path s i. exact (S0 0 path s i).
    + apply IHl; [exact F2'| |].
      * intros j path s i. exact (S0 (S j) path s i).
      * intros k I. apply K. now right.
Qed.
Lemma ahb_determined a a1 a2 : ahbs_related (fun _ _ => True) eq a a1 -> ahbs_related (fun _ _ => True) eq a a2 ->
  (forall pos, lookup a1 pos = lookup a2 pos) -> a1 = a2.
Proof.
  intros (M1 & F1) (M2 & F2) E. destruct a1 as [m1 l1], a2 as [m2 l2]. cbn in *. f_equal; [congruence|].
  assert (S0 : forall j path s i, match nth_error l1 j with Some k => match below path k with Some h => element_of s i h | None => None end | None => None end
                                = match nth_error l2 j with Some k => match below path k with Some h => element_of s i h | None => None end | None => None end).
  { intros j path s i. specialize (E (j :: path, s, i)). cbn in E. destruct (nth_error l1 j), (nth_error l2 j); exact E. }
  clear - F1 F2 S0. revert l2 F2 S0. induction F1 as [|g g1 l l1 Hg F1 IHl]; intros l2 F2 S0; inversion F2 as [|? g2 ? l2' Hg2 F2']; subst; [reflexivity|]. f_equal.
  - apply (shape_determines g); auto. intros path s i. exact (S0 0 path s i).
  - apply IHl; auto. intros j path s i. exact (S0 (S j) path s i).
Qed.
