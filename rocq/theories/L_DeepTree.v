(** Lemmas: the heap of groups built by to_deep_ahb is a tree that grows at its right edge. *)
From Coq Require Import Ascii String List NArith ZArith Bool Lia Arith.
From Verif Require Import PyBase PyStr PyRe M_Components M_Ahb M_Sgh M_Navigation M_Matching
  S_Prefix S_Text S_ValuePool S_Navigation S_Matching L_Base L_Prefix L_Matching.
Import ListNotations.
Local Open Scope list_scope.

Inductive IT := INode (id : nat) (subs : list IT).
Definition root (t : IT) : nat := let 'INode g _ := t in g.
Section IT_ind.
  Variable P : IT -> Prop.
  Hypothesis H : forall g ts, Forall P ts -> P (INode g ts).
  Fixpoint it_ind' (t : IT) : P t :=
    match t with
    | INode g ts => H g ts ((fix go (l : list IT) : Forall P l :=
                               match l with [] => Forall_nil P | x :: r => Forall_cons x (it_ind' x) (go r) end) ts)
    end.
End IT_ind.
(** ids in preorder, with the ids around them *)
Fixpoint anc (around : list nat) (t : IT) : list (list nat * nat) :=
  let 'INode g ts := t in (around, g) :: flat_map (anc (around ++ [g])) ts.
Definition ancs (around : list nat) (f : list IT) := flat_map (anc around) f.
Lemma anc_ids around around' t : map snd (anc around t) = map snd (anc around' t).
Proof.
  revert around around'; induction t as [g ts IH] using it_ind'; intros around around'. cbn [anc map snd]. f_equal.
  generalize (around ++ [g]) (around' ++ [g]). intros a b. clear -IH. induction IH as [|t ts Ht F IHF]; cbn [flat_map]; [reflexivity|].
  rewrite !map_app. now rewrite (Ht a b), IHF.
Qed.
Lemma ancs_ids around around' f : map snd (ancs around f) = map snd (ancs around' f).
Proof. induction f as [|t f IH]; cbn [ancs flat_map]; [reflexivity|]. rewrite !map_app. fold (ancs around f) (ancs around' f). now rewrite IH, (anc_ids around around'). Qed.
Definition ids (f : list IT) : list nat := map snd (ancs [] f).
Lemma ids_node g ts : map snd (anc [] (INode g ts)) = g :: ids ts.
Proof. cbn [anc map snd]. f_equal. apply (ancs_ids ([] ++ [g]) [] ts). Qed.
Lemma ids_app f f' : ids (f ++ f') = ids f ++ ids f'.
Proof. unfold ids, ancs. now rewrite flat_map_app, map_app. Qed.
Lemma ids_one g ts : ids [INode g ts] = g :: ids ts.
Proof. unfold ids at 1. cbn [ancs flat_map]. rewrite app_nil_r. apply ids_node. Qed.

Definition groups_at (cells : list GroupCell) (g : nat) : option (list nat) := option_map gc_groups (nth_error cells g).
Inductive agrees (cells : list GroupCell) : IT -> Prop :=
| agrees_node g ts : groups_at cells g = Some (map root ts) -> Forall (agrees cells) ts -> agrees cells (INode g ts).
Lemma agrees_ext cells cells' t : agrees cells t -> (forall g, In g (ids [t]) -> groups_at cells' g = groups_at cells g) -> agrees cells' t.
Proof.
  induction t as [g ts IH] using it_ind'. intros A E. inversion A as [? ? H F]; subst. rewrite ids_one in E.
  constructor; [rewrite E by (now left); exact H|].
  assert (E' : forall x, In x (ids ts) -> groups_at cells' x = groups_at cells x) by (intros x Hx; apply E; now right).
  clear -IH F E'. induction ts as [|t ts IHt]; constructor; inversion F; inversion IH; subst.
  - apply H5; [assumption|]. intros x Hx. apply E'. change (t :: ts) with ([t] ++ ts). rewrite ids_app. apply in_or_app. now left.
  - apply IHt; [assumption|assumption|]. intros x Hx. apply E'. change (t :: ts) with ([t] ++ ts). rewrite ids_app. apply in_or_app. now right.
Qed.
Lemma agrees_all_ext cells cells' f : Forall (agrees cells) f -> (forall g, In g (ids f) -> groups_at cells' g = groups_at cells g) -> Forall (agrees cells') f.
Proof.
  intros F. induction F as [|t f A F IH]; intros E; constructor.
  - apply (agrees_ext cells); [exact A|]. intros g Hg. apply E. change (t :: f) with ([t] ++ f). rewrite ids_app. apply in_or_app. now left.
  - apply IH. intros g Hg. apply E. change (t :: f) with ([t] ++ f). rewrite ids_app. apply in_or_app. now right.
Qed.

(** the tree of groups *)
Fixpoint tree_at (cells : list GroupCell) (t : IT) : SegmentGroup :=
  let 'INode g ts := t in
  match nth_error cells g with
  | Some c => mkGroup (gc_discriminator c) (gc_expression c) (gc_index c) (Some (gc_segments c)) (Some (map (tree_at cells) ts))
  | None => mkGroup [] [] None None None
  end.
Lemma render_tree cells t : agrees cells t -> forall fuel, List.length (ids [t]) <= fuel -> render fuel cells (root t) = [tree_at cells t].
Proof.
  induction t as [g ts IH] using it_ind'. intros A fuel Hf. rewrite ids_one in Hf. destruct fuel as [|fuel]; [cbn in Hf; lia|].
  inversion A as [? ? H F]; subst. cbn [root render tree_at]. unfold groups_at in H. destruct (nth_error cells g) as [c|]; [|discriminate].
  injection H as H. rewrite H. f_equal. f_equal. f_equal. cbn [List.length] in Hf. apply le_S_n in Hf. clear -IH F Hf.
  induction ts as [|t ts IHt]; cbn [map flat_map]; [reflexivity|]. inversion F; inversion IH; subst.
  change (t :: ts) with ([t] ++ ts) in Hf. rewrite ids_app, app_length in Hf.
  rewrite H5 by (auto; lia). cbn [app]. f_equal. apply IHt; auto; lia.
Qed.
Lemma render_forest cells lines f : lines = map root f -> Forall (agrees cells) f -> List.length (ids f) <= List.length cells ->
  flat_map (render (List.length cells) cells) lines = map (tree_at cells) f.
Proof.
  intros -> F. generalize (List.length cells). intros fuel. induction F as [|t f A F IH]; intros Hf; cbn [map flat_map]; [reflexivity|].
  change (t :: f) with ([t] ++ f) in Hf. rewrite ids_app, app_length in Hf. rewrite (render_tree cells t A) by lia. cbn [app]. f_equal. apply IH. lia.
Qed.
(** preorder of the tree *)
Definition group_at (cells : list GroupCell) (around : list nat) (g : nat) : SegmentGroup -> Prop :=
  fun G => exists t, agrees cells t /\ root t = g /\ G = tree_at cells t.
Lemma tree_group_at cells around t : agrees cells t -> group_at cells around (root t) (tree_at cells t).
Proof. intros A. exists t. auto. Qed.
Lemma group_at_cell cells around g G : group_at cells around g G -> exists c, nth_error cells g = Some c
  /\ g_discriminator G = gc_discriminator c /\ g_expression G = gc_expression c /\ g_index G = gc_index c /\ g_segments G = Some (gc_segments c).
Proof.
  intros (t & A & <- & ->). inversion A as [g0 ts H F]; subst. cbn [root tree_at]. unfold groups_at in H. destruct (nth_error cells g0) as [c|] eqn:E; [|discriminate]. exists c. cbn. auto.
Qed.
Lemma agrees_unique cells t : forall t', agrees cells t -> agrees cells t' -> root t = root t' -> t = t'.
Proof.
  induction t as [g ts IH] using it_ind'. intros [g' ts'] A A' E. cbn in E. subst g'. inversion A as [? ? H F]; inversion A' as [? ? H' F']; subst. f_equal.
  assert (M : map root ts = map root ts') by congruence. clear H H' A A'. revert ts' F' M. induction ts as [|t ts IHt]; intros [|t' ts'] F' M; try discriminate; [reflexivity|].
  injection M as M1 M2. inversion F; inversion IH; inversion F'; subst. f_equal; auto.
Qed.
Lemma group_at_unique cells a b g G G' : group_at cells a g G -> group_at cells b g G' -> G = G'.
Proof. intros (t & A & E & ->) (t' & A' & E' & ->). f_equal. apply (agrees_unique cells); congruence. Qed.
Lemma tree_preorder cells t : agrees cells t -> forall around AG, Forall2 (fun a A => group_at cells [] a A) around AG ->
  Forall2 (fun x y => Forall2 (fun a A => group_at cells [] a A) (fst x) (fst y) /\ group_at cells [] (snd x) (snd y))
    (anc around t) (with_ancestors AG (tree_at cells t)).
Proof.
  induction t as [g ts IH] using it_ind'. intros A around AG FA. pose proof (tree_group_at cells [] _ A) as G. cbn [root] in G.
  inversion A as [? ? H F]; subst. cbn [anc]. cbn [tree_at] in *. unfold groups_at in H. destruct (nth_error cells g) as [c|]; [|discriminate].
  cbn [with_ancestors g_groups]. constructor; [split; assumption|]. set (me := mkGroup _ _ _ _ _) in *. clearbody me. clear H.
  assert (FA' : Forall2 (fun a A => group_at cells [] a A) (around ++ [g]) (AG ++ [me])) by (apply Forall2_app; [exact FA|constructor; [exact G|constructor]]).
  clear -IH F FA'. induction ts as [|t ts IHt]; cbn [map flat_map]; [constructor|]. inversion F; inversion IH; subst.
  apply Forall2_app; [now apply H5|now apply IHt].
Qed.
Lemma forest_preorder cells f : Forall (agrees cells) f ->
  Forall2 (fun x y => Forall2 (fun a A => group_at cells [] a A) (fst x) (fst y) /\ group_at cells [] (snd x) (snd y))
    (ancs [] f) (flat_map (with_ancestors []) (map (tree_at cells) f)).
Proof.
  induction 1 as [|t f A F IH]; cbn [ancs flat_map map]; [constructor|]. apply Forall2_app; [|exact IH]. now apply tree_preorder.
Qed.

(** ** the right edge *)
Inductive spine_of : list IT -> list nat -> Prop :=
| spine_nil : spine_of [] []
| spine_cons f g ts s : spine_of ts s -> spine_of (f ++ [INode g ts]) (g :: s).
Definition target (d : nat) (s : list nat) : option nat := match d with O => None | S k => nth_error s k end.
Lemma spine_in f s : spine_of f s -> forall g, In g s -> In g (ids f).
Proof.
  induction 1 as [|f g ts s S IH]; intros x [].
  - subst. rewrite ids_app, ids_one. apply in_or_app. right. now left.
  - rewrite ids_app, ids_one. apply in_or_app. right. right. auto.
Qed.
Lemma NoDup_app_r {A} (a b : list A) : NoDup (a ++ b) -> NoDup b.
Proof. induction a as [|x a IH]; cbn [app]; intros H; [exact H|]. inversion H. auto. Qed.
Lemma NoDup_app_disjoint {A} (a b : list A) x : NoDup (a ++ b) -> In x a -> ~ In x b.
Proof.
  induction a as [|y a IH]; cbn [app]; intros H [].
  - subst. inversion H. intros K. apply H2. apply in_or_app. now right.
  - inversion H. auto.
Qed.
Lemma grow : forall f s, spine_of f s -> forall d id cells cells', d <= List.length s -> NoDup (ids f) ->
  Forall (agrees cells) f -> groups_at cells' id = Some [] ->
  (forall g, In g (ids f) -> target d s <> Some g -> groups_at cells' g = groups_at cells g) ->
  (forall g l, target d s = Some g -> groups_at cells g = Some l -> groups_at cells' g = Some (l ++ [id])) ->
  exists f', (forall around, ancs around f' = ancs around f ++ [(around ++ firstn d s, id)])
    /\ spine_of f' (firstn d s ++ [id])
    /\ Forall (agrees cells') f'
    /\ map root f' = map root f ++ (match d with O => [id] | S _ => [] end).
Proof.
  assert (Leaf : forall (f : list IT) id cells cells', Forall (agrees cells) f -> groups_at cells' id = Some [] ->
     (forall g, In g (ids f) -> groups_at cells' g = groups_at cells g) ->
     exists f', (forall around, ancs around f' = ancs around f ++ [(around ++ [], id)]) /\ spine_of f' [id] /\ Forall (agrees cells') f' /\ map root f' = map root f ++ [id]).
  { intros f id cells cells' A H0 HE. exists (f ++ [INode id []]). repeat split.
    - intros around. unfold ancs. rewrite flat_map_app. cbn. now rewrite app_nil_r.
    - constructor. constructor.
    - apply Forall_app. split; [now apply (agrees_all_ext cells)|]. constructor; [|constructor]. constructor; [exact H0|constructor].
    - now rewrite map_app. }
  induction 1 as [|f g ts s S IH]; intros d id cells cells' Hd N A H0 HE HT.
  - destruct d; [|cbn in Hd; lia]. cbn [target firstn app] in *. apply (Leaf [] id cells cells' A H0). intros x [].
  - destruct d as [|d].
    + cbn [target firstn app] in *. apply (Leaf _ id cells cells' A H0). intros x Hx. apply HE; [exact Hx|discriminate].
    + cbn [List.length] in Hd. apply le_S_n in Hd. cbn [target] in *. apply Forall_app in A as [Af At]. inversion At as [|? ? Ag _]; subst. inversion Ag as [? ? Hg Ats]; subst.
      rewrite ids_app, ids_one in N, HE. assert (N2 : NoDup (g :: ids ts)) by (eapply NoDup_app_r; exact N).
      assert (Sep : forall x, In x (ids f) -> ~ In x (g :: ids ts)) by (intros x Hx Hy; eapply NoDup_app_disjoint; eassumption).
      assert (Tin : forall t, nth_error (g :: s) d = Some t -> In t (g :: ids ts)).
      { intros t Ht. apply nth_error_In in Ht as [<-|Ht]; [now left|right]. eapply spine_in; eassumption. }
      inversion N2 as [|? ? Ng Nts]; subst.
      destruct (IH d id cells cells') as (ts' & B1 & B2 & B3 & B4); auto.
      * intros x Hx Hx'. apply HE; [apply in_or_app; right; now right|]. destruct d as [|d]; cbn [nth_error target] in *; [|exact Hx'].
        intros [= ->]. contradiction.
      * intros x l Hx. destruct d as [|d]; [discriminate|]. cbn [nth_error target] in *. intros Hl. now apply HT.
      * exists (f ++ [INode g ts']). repeat split.
        -- intros around. unfold ancs. rewrite !flat_map_app. cbn [flat_map anc firstn]. rewrite !app_nil_r.
           fold (ancs (around ++ [g]) ts') (ancs (around ++ [g]) ts). rewrite B1, <- !app_assoc. cbn [app]. reflexivity.
        -- cbn [firstn app]. constructor. exact B2.
        -- apply Forall_app. split.
           ++ apply (agrees_all_ext cells); [exact Af|]. intros x Hx. apply HE; [apply in_or_app; now left|]. intros K. exact (Sep x Hx (Tin x K)).
           ++ constructor; [|constructor]. constructor; [|exact B3]. rewrite B4.
              destruct d as [|d]; [apply HT; [reflexivity|exact Hg]|]. rewrite app_nil_r, <- Hg. apply HE; [apply in_or_app; right; now left|].
              cbn [nth_error]. intros K. apply nth_error_In in K. apply Ng. eapply spine_in; eassumption.
        -- rewrite !map_app. cbn. now rewrite app_nil_r.
Qed.
(** the last group of a list on the edge is the next one on the edge *)
Lemma spine_head f s : spine_of f s -> (s = [] /\ f = []) \/ exists g s' l, s = g :: s' /\ map root f = l ++ [g].
Proof. intros [|f' g ts s' _]; [left; auto|right]. exists g, s', (map root f'). rewrite map_app. auto. Qed.
Lemma spine_child f s cells : spine_of f s -> Forall (agrees cells) f -> forall k g, nth_error s k = Some g ->
  exists l, groups_at cells g = Some l /\ (match nth_error s (S k) with Some g' => exists l', l = l' ++ [g'] | None => l = [] end).
Proof.
  induction 1 as [|f g ts s S IH]; intros A k x Hx; [destruct k; discriminate|].
  apply Forall_app in A as [_ A]. inversion A as [|? ? Ag _]; subst. inversion Ag as [? ? Hg Ats]; subst.
  destruct k as [|k]; [|apply (IH Ats k x Hx)]. injection Hx as <-. exists (map root ts). split; [exact Hg|]. cbn [nth_error].
  destruct (spine_head ts s S) as [[-> ->]|(g' & s' & l & -> & E)]; [reflexivity|]. eauto.
Qed.

(** ** the references *)
Definition stack_for (spine : list nat) : list ListRef := rev (RefLines :: map RefGroups spine).
Lemma stack_for_snoc s g : stack_for (s ++ [g]) = RefGroups g :: stack_for s.
Proof. unfold stack_for. cbn [rev]. rewrite map_app, rev_app_distr. reflexivity. Qed.
Lemma go_up_spec n : forall spine r ps r' ps', r :: ps = stack_for spine -> go_up n (Some r) ps = Ok (r', ps') ->
  exists x, r' = Some x /\ x :: ps' = stack_for (firstn (List.length spine - n) spine) /\ n <= List.length spine.
Proof.
  induction n as [|n IH]; intros spine r ps r' ps' H G; cbn [go_up] in G.
  - injection G as <- <-. exists r. rewrite Nat.sub_0_r, firstn_all. auto with arith.
  - destruct ps as [|p ps]; [discriminate|]. destruct (rev_case spine) as [-> |(s & g & ->)]; [discriminate|].
    rewrite stack_for_snoc in H. injection H as -> H. destruct (IH s p ps r' ps' H G) as (x & -> & E & L). exists x. split; [reflexivity|].
    rewrite app_length. cbn [List.length]. replace (List.length s + 1 - S n) with (List.length s - n) by lia. split; [|lia].
    rewrite firstn_app. replace (List.length s - n - List.length s) with 0 by lia. cbn [firstn]. rewrite app_nil_r. exact E.
Qed.
Lemma stack_top s r ps : r :: ps = stack_for s -> (s = [] /\ r = RefLines /\ ps = []) \/ exists s' g, s = s' ++ [g] /\ r = RefGroups g /\ ps = stack_for s'.
Proof.
  intros H. destruct (rev_case s) as [-> |(s' & g & ->)]; [injection H as -> ->; auto|]. rewrite stack_for_snoc in H. injection H as -> ->. eauto 6.
Qed.
Definition consistent (h : Heap) (f : list IT) (spine : list nat) : Prop :=
  hp_lines h = map root f /\ Forall (agrees (hp_cells h)) f /\ ids f = seq 0 (List.length (hp_cells h)) /\ spine_of f spine.
Lemma firstn_snoc {A} (l : list A) d x : nth_error l d = Some x -> firstn (S d) l = firstn d l ++ [x].
Proof. revert d; induction l as [|y l IH]; intros [|d] H; try discriminate; [injection H as ->; reflexivity|]. cbn in H. change (firstn (S (S d)) (y :: l)) with (y :: firstn (S d) l). rewrite (IH d H). reflexivity. Qed.
Lemma go_down_spec n : forall h f spine d r ps r' ps', hp_lines h = map root f -> Forall (agrees (hp_cells h)) f -> spine_of f spine ->
  d <= List.length spine -> r :: ps = stack_for (firstn d spine) -> go_down n h (Some r) ps = Ok (r', ps') ->
  exists x, r' = Some x /\ x :: ps' = stack_for (firstn (d + n) spine) /\ d + n <= List.length spine.
Proof.
  induction n as [|n IH]; intros h f spine d r ps r' ps' HL HA HS Hd H G; cbn [go_down] in G.
  - injection G as <- <-. exists r. rewrite Nat.add_0_r. auto.
  - apply bind_ok in G as (g & Hg & G). apply last_of_ok in Hg as (l & Hg).
    assert (Hn : nth_error spine d = Some g).
    { apply stack_top in H as [(E & -> & ->)|(s' & g0 & E & -> & ->)].
      - cbn [deref] in Hg. destruct (spine_head f spine HS) as [[-> ->]|(g1 & s1 & l1 & -> & E1)]; [rewrite Hg in HL; destruct l; discriminate|].
        rewrite HL, E1 in Hg. apply app_inj_tail in Hg as [_ <-]. destruct d; [reflexivity|discriminate].
      - destruct d as [|d]; [destruct s'; discriminate|]. destruct (nth_error spine d) as [g1|] eqn:N; [|apply nth_error_None in N; lia].
        rewrite (firstn_snoc _ _ _ N) in E. apply app_inj_tail in E as [<- ->].
        destruct (spine_child f spine (hp_cells h) HS HA d g0 N) as (l0 & Hl0 & Hc). cbn [deref] in Hg. unfold groups_at in Hl0.
        destruct (nth_error (hp_cells h) g0) as [c|]; [|discriminate]. injection Hl0 as <-.
        destruct (nth_error spine (S d)) as [g'|]; [|rewrite Hg in Hc; destruct l; discriminate].
        destruct Hc as (l' & Hc). rewrite Hg in Hc. apply app_inj_tail in Hc as [_ ->]. reflexivity. }
    assert (Ld : d < List.length spine) by (apply nth_error_Some; congruence).
    destruct (IH h f spine (S d) (RefGroups g) (r :: ps) r' ps' HL HA HS Ld) as (x & -> & E & L); [|exact G|].
    + rewrite (firstn_snoc _ _ _ Hn), stack_for_snoc. now rewrite H.
    + exists x. rewrite Nat.add_succ_r. auto.
Qed.

(** ** appending a group *)
Lemma update_cell_length g f h : List.length (hp_cells (update_cell g f h)) = List.length (hp_cells h).
Proof. unfold update_cell. destruct (nth_error (hp_cells h) g); [|reflexivity]. apply list_set_length. Qed.
Lemma update_cell_nth g f h j : nth_error (hp_cells (update_cell g f h)) j =
  if Nat.eqb g j then option_map f (nth_error (hp_cells h) g) else nth_error (hp_cells h) j.
Proof.
  unfold update_cell. destruct (nth_error (hp_cells h) g) as [c|] eqn:E.
  - cbn [hp_cells]. rewrite list_set_nth. destruct (Nat.eqb_spec g j) as [-> |]; [|reflexivity].
    assert (L : j < List.length (hp_cells h)) by (apply nth_error_Some; congruence). apply Nat.ltb_lt in L. now rewrite L.
  - destruct (Nat.eqb_spec g j) as [-> |]; [exact E|reflexivity].
Qed.
Lemma update_cell_lines g f h : hp_lines (update_cell g f h) = hp_lines h.
Proof. unfold update_cell. destruct (nth_error (hp_cells h) g); reflexivity. Qed.

Lemma NoDup_seq_ids f h : ids f = seq 0 (List.length (hp_cells h)) -> NoDup (ids f).
Proof. intros ->. apply seq_NoDup. Qed.
Lemma append_group_consistent h f spine d c0 r ps :
  consistent h f spine -> d <= List.length spine -> gc_groups c0 = [] -> r :: ps = stack_for (firstn d spine) ->
  let id := List.length (hp_cells h) in
  let h' := append_group r id (mkHeap (hp_lines h) (hp_cells h ++ [c0])) in
  exists f', consistent h' f' (firstn d spine ++ [id])
    /\ ancs [] f' = ancs [] f ++ [(firstn d spine, id)]
    /\ List.length (hp_cells h') = S id
    /\ forall g, option_map (fun c => (gc_discriminator c, gc_expression c, gc_index c, gc_segments c)) (nth_error (hp_cells h') g)
       = option_map (fun c => (gc_discriminator c, gc_expression c, gc_index c, gc_segments c)) (nth_error (hp_cells h ++ [c0]) g).
Proof.
  intros (HL & HA & HI & HS) Hd Hc0 Hr id h'.
  assert (Tgt : (d = 0 /\ r = RefLines) \/ exists k g, d = S k /\ nth_error spine k = Some g /\ r = RefGroups g).
  { apply stack_top in Hr as [(E & -> & _)|(s' & g & E & -> & _)].
    - left. split; [|reflexivity]. destruct d; [reflexivity|]. destruct spine; [cbn in Hd; lia|discriminate].
    - right. destruct d as [|k]; [destruct s'; discriminate|]. exists k, g. split; [reflexivity|].
      destruct (nth_error spine k) as [g1|] eqn:N; [|apply nth_error_None in N; lia]. rewrite (firstn_snoc _ _ _ N) in E. apply app_inj_tail in E as [_ ->]. auto. }
  assert (Len : List.length (hp_cells h') = S id).
  { unfold h'. destruct r as [|p]; cbn [append_group]; [|rewrite update_cell_length]; cbn [hp_cells]; rewrite app_length, Nat.add_1_r; reflexivity. }
  assert (InId : forall x, In x (ids f) -> x < id) by (intros x Hx; rewrite HI in Hx; apply in_seq in Hx; unfold id; lia).
  assert (Nth : forall j, nth_error (hp_cells h') j = if (match r with RefLines => false | RefGroups p => Nat.eqb p j end)
      then option_map (fun c => mkCell (gc_discriminator c) (gc_expression c) (gc_index c) (gc_segments c) (gc_groups c ++ [id])) (nth_error (hp_cells h ++ [c0]) j)
      else nth_error (hp_cells h ++ [c0]) j).
  { intros j. unfold h'. destruct r as [|p]; cbn [append_group]; [reflexivity|]. rewrite update_cell_nth. cbn [hp_cells]. destruct (Nat.eqb_spec p j) as [-> |]; reflexivity. }
  assert (TgtLt : forall g, r = RefGroups g -> g < id).
  { intros g ->. destruct Tgt as [[_ K]|(k & g' & _ & N & K)]; [discriminate|]. injection K as ->. apply InId. eapply spine_in; [exact HS|]. eapply nth_error_In; exact N. }
  destruct (grow f spine HS d id (hp_cells h) (hp_cells h') Hd (NoDup_seq_ids f h HI) HA) as (f' & B1 & B2 & B3 & B4).
  - unfold groups_at. rewrite Nth. rewrite nth_error_app2, Nat.sub_diag by reflexivity. cbn [nth_error].
    destruct r as [|p]; [cbn; congruence|]. pose proof (TgtLt p eq_refl) as L. destruct (Nat.eqb_spec p id); [lia|]. cbn. congruence.
  - intros g Hg Ht. unfold groups_at. rewrite Nth, nth_error_app1 by (apply InId; exact Hg).
    destruct r as [|p]; [reflexivity|]. destruct (Nat.eqb_spec p g) as [-> |]; [|reflexivity].
    exfalso. destruct Tgt as [[_ K]|(k & g' & -> & N & K)]; [discriminate|]. injection K as ->. apply Ht. exact N.
  - intros g l Ht Hl. destruct Tgt as [[-> _]|(k & g' & -> & N & ->)]; [discriminate|]. cbn [target] in Ht. assert (g' = g) as -> by congruence.
    unfold groups_at in *. rewrite Nth, Nat.eqb_refl, nth_error_app1 by (now apply TgtLt). destruct (nth_error (hp_cells h) g); [|discriminate]. injection Hl as <-. reflexivity.
  - exists f'. split; [|split; [|split; [exact Len|]]].
    + split; [|split; [exact B3|split; [|exact B2]]].
      * rewrite B4, <- HL. unfold h'. destruct Tgt as [[-> ->]|(k & g & -> & N & ->)]; cbn [append_group]; [reflexivity|]. rewrite update_cell_lines. cbn. now rewrite app_nil_r.
      * unfold ids. rewrite B1, map_app. cbn [map snd]. fold (ids f). rewrite HI, Len. fold id. rewrite seq_S. reflexivity.
    + exact (B1 []).
    + intros g. rewrite Nth. destruct (match r with RefLines => false | RefGroups p => Nat.eqb p g end); [|reflexivity].
      destruct (nth_error (hp_cells h ++ [c0]) g); reflexivity.
Qed.
(** changing segments does not touch the tree *)
Lemma update_cell_consistent h f spine g k : consistent h f spine -> (forall c, gc_groups (k c) = gc_groups c) ->
  consistent (update_cell g k h) f spine.
Proof.
  intros (HL & HA & HI & HS) Hk. split; [rewrite update_cell_lines; exact HL|]. split; [|split; [rewrite update_cell_length; exact HI|exact HS]].
  apply (agrees_all_ext (hp_cells h)); [exact HA|]. intros x _. unfold groups_at. rewrite update_cell_nth.
  destruct (Nat.eqb_spec g x) as [-> |]; [|reflexivity]. destruct (nth_error (hp_cells h) x); cbn; [now rewrite Hk|reflexivity].
Qed.
