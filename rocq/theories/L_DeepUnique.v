(** Lemmas: the parts, and a forest of groups given by its preorder and its depths, are unique. *)
From Coq Require Import Ascii String List NArith ZArith Bool Lia Arith.
From Verif Require Import PyBase PyStr PyRe M_Components M_Ahb M_Sgh M_Navigation M_Matching
  S_Prefix S_Text S_ValuePool S_Navigation S_Matching S_DeepSuccess L_Base L_Prefix L_Str L_Validators L_Matching L_DeepTree L_DeepLoop L_DeepResult L_Parts L_DeepSuccess.
Import ListNotations.
Local Open Scope list_scope.

Definition label (g : SegmentGroup) := (g_discriminator g, g_expression g, g_index g, g_segments g).
Section Parts.
  Variable reader : Location -> result EdifactStack.
  Variable str_of_location : Location -> pystr.

  Lemma first_expression_unique (b : list AhbLine) : forall l a b' l' a', b ++ l :: a = b' ++ l' :: a' ->
    existsb has_expression b = false -> has_expression l = true -> existsb has_expression b' = false -> has_expression l' = true -> l = l'.
  Proof.
    induction b as [|x b IH]; intros l a [|y b'] l' a' E H1 H2 H3 H4; cbn [app existsb] in *; try (injection E as <- E); auto.
    - rewrite H2 in H3. discriminate.
    - rewrite H4 in H1. discriminate.
    - apply orb_false_iff in H1 as [_ H1], H3 as [_ H3]. eapply IH; eassumption.
  Qed.
  Lemma section_unique sec s s' : section_becomes reader str_of_location sec s -> section_becomes reader str_of_location sec s' -> s = s'.
  Proof.
    intros [(A1 & (b & l & a & A2 & A3 & A4 & A5) & (f & rest & A6 & A7 & A8) & A9) A] [(B1 & (b' & l' & a' & B2 & B3 & B4 & B5) & (f' & rest' & B6 & B7 & B8) & B9) B].
    assert (seg_elements s = seg_elements s').
    { revert B. generalize (seg_elements s'). induction A as [|r d rs ds M _ IH]; intros ds' B; inversion B as [|? d' ? ds'' M' Bs]; subst; [reflexivity|]. f_equal; [|now apply IH].
      apply merge_ok in M, M'. congruence. }
    rewrite A2 in B2. assert (l = l') as <- by (eapply first_expression_unique; eassumption). assert (f = f') as <- by congruence.
    destruct s, s'. cbn in *. congruence.
  Qed.
  Lemma part_label part g g' : part_becomes reader str_of_location part g -> part_becomes reader str_of_location part g' -> label g = label g'.
  Proof.
    intros [(ss & A1 & A2) (o & rest & f & e & A3 & A4 & A5 & A6 & A7 & A8)] [(ss' & B1 & B2) (o' & rest' & f' & e' & B3 & B4 & B5 & B6 & B7 & B8)].
    rewrite A3 in B3. injection B3 as <- <-. assert (f' = f) as -> by congruence. assert (e' = e) as -> by congruence.
    assert (g_discriminator g = g_discriminator g') as Ed by (eapply can_open_unique; eassumption).
    apply stripped_unique in A7, B7. assert (ss = ss') as <-.
    { clear -A2 B2. revert ss' B2. induction A2 as [|x s xs ss M _ IH]; intros ss' B; inversion B as [|? s' ? ss2 M' Bs]; subst; [reflexivity|]. f_equal; [|now apply IH]. eapply section_unique; eassumption. }
    unfold label. congruence.
  Qed.
  Lemma parts_unique_two groups : forall pre pre' groups' parts parts', map g_discriminator pre = map g_discriminator pre' ->
    NoDup (map g_discriminator (pre ++ groups)) -> NoDup (map g_discriminator (pre' ++ groups')) ->
    Forall2 (part_becomes reader str_of_location) parts groups -> Forall2 (part_becomes reader str_of_location) parts' groups' ->
    closed_after reader pre parts groups -> closed_after reader pre' parts' groups' -> concat parts = concat parts' ->
    parts = parts' /\ map label groups = map label groups'.
  Proof.
    induction groups as [|g groups IH]; intros pre pre' groups' parts parts' P N N' F F' K K' C; inversion F as [|p ? ps ? Hp Fs]; subst.
    - cbn [concat] in C. inversion F' as [|p' g' ps' gs' Hp' Fs']; subst; [auto|]. exfalso. destruct Hp' as (_ & o & rest & _ & _ & -> & _). discriminate.
    - inversion F' as [|p' g' ps' gs' Hp' Fs']; subst; [exfalso; destruct Hp as (_ & o & rest & _ & _ & -> & _); discriminate|].
      assert (Ed : g_discriminator g = g_discriminator g').
      { destruct Hp as (_ & o & rest & _ & _ & -> & O1 & _), Hp' as (_ & o' & rest' & _ & _ & -> & O2 & _). cbn [concat app] in C. injection C as -> _. eapply can_open_unique; eassumption. }
      assert (One : forall pre pre' groups groups' g g' p ps p' ps' (x : Run * list Run) l, map g_discriminator pre = map g_discriminator pre' -> g_discriminator g = g_discriminator g' ->
         NoDup (map g_discriminator (pre' ++ g' :: groups')) ->
         part_becomes reader str_of_location p' g' -> Forall2 (part_becomes reader str_of_location) ps' groups' ->
         closed_after reader pre (p :: ps) (g :: groups) -> p = p' ++ x :: l -> concat ps' = (x :: l) ++ concat ps -> False).
      { clear. intros pre pre' groups groups' g g' p ps p' ps' x l P Ed N (_ & o & rest & _ & _ & -> & _) F' K E C.
        destruct ps' as [|p2 ps']; [discriminate|]. inversion F' as [|? g2 ? gs2 Hp2 Fs2]; subst. destruct Hp2 as (_ & o2 & rest2 & fl & e & -> & O2 & _).
        cbn [concat app] in C. injection C as -> _.
        assert (Hin : In (g_discriminator g2) (map g_discriminator (pre ++ [g]))).
        { apply (K 0 o (rest ++ x :: l) x (g_discriminator g2)); [reflexivity|apply in_or_app; right; now left|exact O2]. }
        rewrite map_app in Hin. cbn [map] in Hin. rewrite P, Ed in Hin.
        clear -N Hin. rewrite !map_app in *. cbn [map] in *. change (map g_discriminator pre' ++ g_discriminator g' :: g_discriminator g2 :: map g_discriminator gs2)
          with (map g_discriminator pre' ++ [g_discriminator g'] ++ (g_discriminator g2 :: map g_discriminator gs2)) in N. rewrite app_assoc in N.
        eapply NoDup_app_disjoint; [exact N|exact Hin|now left]. }
      cbn [concat] in C. assert (p = p') as <-.
      { destruct (app_split _ _ _ _ C) as [(l & E & D)|(l & E & D)]; (destruct l as [|x l]; [rewrite app_nil_r in E; congruence|]); exfalso.
        - exact (One pre pre' groups gs' g g' p ps p' ps' x l P Ed N' Hp' Fs' K E D).
        - exact (One pre' pre gs' groups g' g p' ps' p ps x l (eq_sym P) (eq_sym Ed) N Hp Fs K' E D). }
      apply app_inv_head in C. destruct (IH (pre ++ [g]) (pre' ++ [g']) gs' ps ps') as [-> L]; auto.
      + rewrite !map_app. cbn. congruence.
      + now rewrite <- app_assoc.
      + now rewrite <- app_assoc.
      + intros k o rest r path Hk Hr Ho. rewrite <- app_assoc. exact (K (S k) o rest r path Hk Hr Ho).
      + intros k o rest r path Hk Hr Ho. rewrite <- app_assoc. exact (K' (S k) o rest r path Hk Hr Ho).
      + split; [reflexivity|]. cbn [map]. f_equal; [|exact L]. eapply part_label; eassumption.
  Qed.
End Parts.

(** ** preorder and depths *)
Definition entry := (nat * ((pystr * pystr * option Z * option (list Segment)) * bool))%type.
Definition entry_of (d : nat) (g : SegmentGroup) : entry := (d, (label g, is_some (g_groups g))).
Fixpoint pre_entries (d : nat) (g : SegmentGroup) : list entry :=
  entry_of d g :: match g_groups g with Some subs => flat_map (pre_entries (S d)) subs | None => [] end.
Lemma with_ancestors_entries g : forall around, map (fun x => entry_of (S (List.length (fst x))) (snd x)) (with_ancestors around g) = pre_entries (S (List.length around)) g.
Proof.
  induction g as [d e i ss gs IH] using group_ind'; intros around; cbn [with_ancestors pre_entries g_groups map fst snd]. f_equal. destruct gs as [subs|]; [|reflexivity].
  assert (L : S (List.length around) = List.length (around ++ [mkGroup d e i ss (Some subs)])) by (rewrite app_length; cbn; lia). rewrite L. clear L.
  revert IH. generalize (around ++ [mkGroup d e i ss (Some subs)]). intros ar IH. cbn in IH. induction subs as [|s subs IHs]; cbn [flat_map]; [reflexivity|]. inversion IH; subst. rewrite map_app. f_equal; auto.
Qed.
Definition low (b : nat) (l : list entry) : Prop := forall d x r, l = (d, x) :: r -> d < b.
Lemma forest_unique n : forall b f f' X X', List.length (flat_map (pre_entries b) f) <= n -> low b X -> low b X' ->
  flat_map (pre_entries b) f ++ X = flat_map (pre_entries b) f' ++ X' -> f = f' /\ X = X'.
Proof.
  induction n as [|n IH]; intros b f f' X X' L H H' E; destruct f as [|[d e i ss gs] f], f' as [|[d' e' i' ss' gs'] f']; cbn [flat_map pre_entries app List.length g_groups] in *; auto; try (cbn in L; lia).
  - exfalso. unfold entry_of in E. specialize (H _ _ _ E). lia.
  - exfalso. unfold entry_of in E. specialize (H _ _ _ E). lia.
  - exfalso. unfold entry_of in E. symmetry in E. specialize (H' _ _ _ E). lia.
  - unfold entry_of, label in E. cbn [g_discriminator g_expression g_index g_segments g_groups] in E.
    injection E as -> -> -> -> Eb E. rewrite app_length in L.
    assert (G : gs = gs' /\ flat_map (pre_entries b) f ++ X = flat_map (pre_entries b) f' ++ X').
    { destruct gs as [subs|], gs' as [subs'|]; try discriminate; [|auto].
      rewrite <- !app_assoc in E. apply IH in E as [-> E]; auto.
      - lia.
      - intros x y r K. destruct f as [|g0 f]; cbn [flat_map app] in K; [specialize (H _ _ _ K); lia|]. destruct g0. cbn [pre_entries app] in K. injection K as <- _. lia.
      - intros x y r K. destruct f' as [|g0 f']; cbn [flat_map app] in K; [specialize (H' _ _ _ K); lia|]. destruct g0. cbn [pre_entries app] in K. injection K as <- _. lia. }
    destruct G as [-> G]. apply IH in G as [-> ->]; auto. lia.
Qed.
Lemma map_combine2 {A B C} (f : A -> B) (g : A -> C) l l' : map f l = map f l' -> map g l = map g l' -> map (fun x => (f x, g x)) l = map (fun x => (f x, g x)) l'.
Proof. revert l'. induction l as [|x l IH]; intros [|y l'] E F; try discriminate; [reflexivity|]. cbn [map] in *. injection E as E1 E2. injection F as F1 F2. rewrite E1, F1. f_equal. auto. Qed.
Lemma deep_unique a a' : da_meta a = da_meta a' -> depths_of a = depths_of a' -> map label (all_groups a) = map label (all_groups a') ->
  (forall g, In g (all_groups a) -> g_groups g <> None) -> (forall g, In g (all_groups a') -> g_groups g <> None) -> a = a'.
Proof.
  intros M D L G G'. assert (Fl : forall x : DeepAhb, map (fun y => entry_of (S (List.length (fst y))) (snd y)) (groups_with_ancestors x) = flat_map (pre_entries 1) (da_lines x)).
  { intros x. unfold groups_with_ancestors. induction (da_lines x) as [|g gs IH]; cbn [flat_map]; [reflexivity|]. rewrite map_app, IH. f_equal. exact (with_ancestors_entries g []). }
  assert (E : flat_map (pre_entries 1) (da_lines a) = flat_map (pre_entries 1) (da_lines a')).
  { rewrite <- !Fl. unfold depths_of, all_groups in *. rewrite map_map in L.
    assert (Q : map (fun x : list SegmentGroup * SegmentGroup => (label (snd x), is_some (g_groups (snd x)))) (groups_with_ancestors a) = map (fun x => (label (snd x), is_some (g_groups (snd x)))) (groups_with_ancestors a')).
    { rewrite map_map in L. apply map_combine2; [exact L|]. 
      assert (T : forall l : list (list SegmentGroup * SegmentGroup), (forall g, In g (map snd l) -> g_groups g <> None) -> map (fun x => is_some (g_groups (snd x))) l = repeat true (List.length l)).
      { intros l. induction l as [|x l IH]; intros T; cbn [map repeat List.length]; [reflexivity|]. rewrite IH by (intros g Hg; apply T; now right). f_equal. specialize (T (snd x) (or_introl eq_refl)). now destruct (g_groups (snd x)). }
      rewrite !T by assumption. f_equal. apply (f_equal (@List.length _)) in D. now rewrite !map_length in D. }
    exact (map_combine2 _ _ _ _ D Q). }
  destruct (forest_unique _ 1 (da_lines a) (da_lines a') [] [] (le_n _)) as [F _].
  - intros d x r K. discriminate.
  - intros d x r K. discriminate.
  - now rewrite E.
  - destruct a, a'. cbn in *. congruence.
Qed.
