(** Lemmas: the runs and the parts are unique. *)
From Coq Require Import Ascii String List NArith ZArith Bool Lia Arith.
From Verif Require Import PyBase PyStr PyRe M_Components M_Ahb M_Sgh M_Navigation M_Matching
  S_Prefix S_Text S_ValuePool S_Navigation S_Matching L_Base L_Prefix L_Matching L_DeepTree L_DeepLoop.
Import ListNotations.
Local Open Scope list_scope.

Lemma app_split {A} (a b c d : list A) : a ++ b = c ++ d -> (exists l, a = c ++ l /\ d = l ++ b) \/ (exists l, c = a ++ l /\ b = l ++ d).
Proof.
  revert c. induction a as [|x a IH]; intros [|y c] H; cbn [app] in *.
  - left. exists []. auto.
  - right. exists (y :: c). auto.
  - left. exists (x :: a). auto.
  - injection H as -> H. destruct (IH c H) as [(l & -> & ->)|(l & -> & ->)]; [left|right]; exists l; auto.
Qed.
Lemma concat_head {A} (ls : list (list A)) x l : (forall q, In q ls -> q <> []) -> concat ls = x :: l -> exists q ls', ls = (x :: q) :: ls'.
Proof.
  destruct ls as [|[|y q] ls]; intros N H; [discriminate|exfalso; apply (N []); [now left|reflexivity]|]. injection H as -> _. eauto.
Qed.
Lemma maximal_runs_tail r l rs : maximal_runs (r ++ l) (r :: rs) -> maximal_runs l rs.
Proof.
  intros (C & R & B). cbn [concat] in C. apply app_inv_head in C. split; [exact C|]. split; [intros q Hq; apply R; now right|].
  intros before q x y q' after E. apply (B (r :: before) q x y q' after). cbn [app]. now rewrite E.
Qed.
Lemma maximal_runs_first r rs r' l0 x l : maximal_runs (r ++ concat rs) (r :: rs) -> r = r' ++ x :: l0 -> r' <> [] ->
  forall rs', maximal_runs (r ++ concat rs) (r' :: rs') -> (x :: l0) ++ concat rs = l -> False.
Proof.
  intros M E Hne rs' M' _. destruct M' as (C' & R' & B'). cbn [concat] in C'. rewrite E in C' at 1. rewrite <- app_assoc in C'. apply app_inv_head in C'. cbn [app] in C'.
  destruct (concat_head rs' x (l0 ++ concat rs)) as (q & rs'' & ->); [intros q Hq; apply R'; now right|exact C'|].
  destruct (rev_case r') as [-> |(r0 & y & ->)]; [congruence|]. apply (B' [] r0 y x q rs'' eq_refl).
  destruct M as (_ & R & _). apply (R r (or_introl eq_refl)).
  - rewrite E. apply in_or_app. left. apply in_or_app. right. now left.
  - rewrite E. apply in_or_app. right. now left.
Qed.
Lemma maximal_runs_unique runs : forall l runs', maximal_runs l runs -> maximal_runs l runs' -> runs = runs'.
Proof.
  induction runs as [|r rs IH]; intros l runs' M M'.
  - destruct M as (<- & _). destruct runs' as [|r' rs']; [reflexivity|]. destruct M' as (C & R & _). exfalso. cbn [concat] in C. apply app_eq_nil in C as [-> _]. apply (R [] (or_introl eq_refl)). reflexivity.
  - assert (El : l = r ++ concat rs) by (destruct M as (<- & _); reflexivity). subst l.
    destruct runs' as [|r' rs']. { destruct M' as (C & _). destruct M as (_ & R & _). exfalso. cbn [concat] in C. symmetry in C. apply app_eq_nil in C as [-> _]. apply (R [] (or_introl eq_refl)). reflexivity. }
    assert (C' : r' ++ concat rs' = r ++ concat rs) by (destruct M' as (C & _); exact C).
    assert (Hr : r <> []) by (destruct M as (_ & R & _); apply R; now left).
    assert (Hr' : r' <> []) by (destruct M' as (_ & R & _); apply R; now left).
    assert (r = r') as <-.
    { destruct (app_split r' (concat rs') r (concat rs) C') as [(l & E & K)|(l & E & K)]; (destruct l as [|x l]; [rewrite app_nil_r in E; congruence|]); exfalso.
      - assert (M2 : maximal_runs (r' ++ concat rs') (r' :: rs')) by (rewrite C'; exact M'). rewrite <- C' in M. exact (maximal_runs_first r' rs' r l x _ M2 E Hr rs M eq_refl).
      - exact (maximal_runs_first r rs r' l x _ M E Hr' rs' M' eq_refl). }
    f_equal. apply (IH (concat rs)); [exact (maximal_runs_tail r _ rs M)|exact (maximal_runs_tail r _ rs' M')].
Qed.

Section Parts.
  Variable reader : Location -> result EdifactStack.
  Variable str_of_location : Location -> pystr.
  Definition closed_after (pre : list SegmentGroup) (parts : Parts) (groups : list SegmentGroup) : Prop :=
    forall k o rest r path, nth_error parts k = Some (o :: rest) -> In r rest -> can_open reader (fst r) path ->
      In path (map g_discriminator (pre ++ firstn (S k) groups)).
  Lemma parts_unique_from groups : forall pre parts parts',
    NoDup (map g_discriminator (pre ++ groups)) ->
    Forall2 (part_becomes reader str_of_location) parts groups -> Forall2 (part_becomes reader str_of_location) parts' groups ->
    closed_after pre parts groups -> closed_after pre parts' groups -> concat parts = concat parts' -> parts = parts'.
  Proof.
    induction groups as [|g groups IH]; intros pre parts parts' N F F' K K' C; inversion F as [|p ? ps ? Hp Fs]; inversion F' as [|p' ? ps' ? Hp' Fs']; subst; [reflexivity|].
    assert (One : forall p ps p' ps' (x : Run * list Run) l, part_becomes reader str_of_location p' g -> Forall2 (part_becomes reader str_of_location) ps' groups ->
       closed_after pre (p :: ps) (g :: groups) -> p = p' ++ x :: l -> concat ps' = (x :: l) ++ concat ps -> False).
    { clear -N. intros p ps p' ps' x l (_ & o & rest & _ & _ & -> & _) F' K E C.
      destruct ps' as [|p2 ps']; [discriminate|]. inversion F' as [|? g2 ? gs2 Hp2 Fs2]; subst. destruct Hp2 as (_ & o2 & rest2 & fl & e & -> & O2 & _).
      cbn [concat app] in C. injection C as -> _.
      assert (Hin : In (g_discriminator g2) (map g_discriminator (pre ++ [g]))).
      { apply (K 0 o (rest ++ x :: l) x (g_discriminator g2)); [reflexivity|apply in_or_app; right; now left|exact O2]. }
      clear -N Hin. rewrite !map_app in *. cbn [map] in *. change (map g_discriminator pre ++ g_discriminator g :: g_discriminator g2 :: map g_discriminator gs2)
        with (map g_discriminator pre ++ [g_discriminator g] ++ (g_discriminator g2 :: map g_discriminator gs2)) in N. rewrite app_assoc in N.
      eapply NoDup_app_disjoint; [exact N|exact Hin|now left]. }
    cbn [concat] in C. assert (p = p') as <-.
    { destruct (app_split _ _ _ _ C) as [(l & E & D)|(l & E & D)]; (destruct l as [|x l]; [rewrite app_nil_r in E; congruence|]); exfalso.
      - exact (One p ps p' ps' x l Hp' Fs' K E D).
      - exact (One p' ps' p ps x l Hp Fs K' E D). }
    f_equal. apply app_inv_head in C. apply (IH (pre ++ [g])); auto.
    - rewrite <- app_assoc. exact N.
    - intros k o rest r path Hk Hr Ho. rewrite <- app_assoc. exact (K (S k) o rest r path Hk Hr Ho).
    - intros k o rest r path Hk Hr Ho. rewrite <- app_assoc. exact (K' (S k) o rest r path Hk Hr Ho).
  Qed.
  Lemma parts_unique parts parts' groups : NoDup (map g_discriminator groups) ->
    parts_become reader str_of_location parts groups -> parts_become reader str_of_location parts' groups -> concat parts = concat parts' -> parts = parts'.
  Proof. intros N [F K] [F' K'] C. exact (parts_unique_from groups [] parts parts' N F F' K K' C). Qed.
End Parts.
