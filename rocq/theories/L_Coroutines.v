(** Lemmas about coroutines, and that every schedule ends. *)
From Coq Require Import Ascii String List NArith ZArith Bool Lia Arith.
From Verif Require Import PyBase PyStr PyRe M_Components M_Ahb M_Transformation L_Base S_DeepAhb S_Transformation.
Import ListNotations.
Local Open Scope list_scope.

Arguments Returned {D X} x.
Arguments Raised {D X} e.
Arguments Suspended {D X} c.
Arguments run {D X} c s.
Arguments co_bind {D X Y} c k.
Arguments co_of {D X} r.
Arguments content {D} s _.
Arguments next {D} s.
Arguments put {D} r d s.
Arguments TRun {D} c.
Arguments TDone {D} r.
Arguments TFailed {D}.
Arguments GHead {D} c.
Arguments GGather {D} h failed tasks.
Arguments GDone {D} r.

Section Coroutines.
  Context {D : Type}.

  Lemma run_bind {X Y} (c : co D X) (k : X -> co D Y) : forall s,
    run (co_bind c k) s = match run c s with
                          | (Returned x, s') => run (k x) s'
                          | (Raised e, s') => (Raised e, s')
                          | (Suspended c', s') => (Suspended (co_bind c' k), s')
                          end.
  Proof. induction c as [x|e|r f IH|r d c IH|d f IH|c IH]; intros s; cbn [run co_bind]; auto. Qed.

  Lemma works_run {X Y} (meaning : (ref -> option D) -> X -> option Y) mine x c : works meaning mine x c -> forall s o s', holds mine s -> run c s = (o, s') ->
    next s <= next s' /\ (forall r, r < next s -> mine r = None -> content s' r = content s r)
    /\ exists mine', holds mine' s' /\ (forall r, mine' r <> None -> mine r <> None \/ next s <= r)
       /\ match o with
          | Returned v => exists y, x = Ok y /\ meaning mine' v = Some y
          | Raised e => x = Raise e
          | Suspended c' => works meaning mine' x c'
          end.
  Proof.
    induction 1 as [mine v y E|mine e|mine x r d k E H IH|mine x r d d' c E H IH|mine x d k H IH|mine x c H IH]; intros s o s' M R; cbn [run] in R.
    - injection R as <- <-. split; [lia|]. split; [auto|]. exists mine. eauto 6.
    - injection R as <- <-. split; [lia|]. split; [auto|]. exists mine. auto.
    - destruct (M r d E) as (_ & Cr). rewrite Cr in R. now apply IH.
    - destruct (M r d E) as (L & Cr). assert (M' : holds (with_object mine r d') (put r d' s)).
      { intros r1 d1. unfold with_object, put. cbn. destruct (Nat.eqb_spec r1 r) as [-> |N]; [intros [= <-]; auto|apply M]. }
      destruct (IH _ _ _ M' R) as (Nx & Fr & mine' & K1 & K2 & K3). cbn in Nx, Fr, K2. split; [exact Nx|]. split.
      + intros r1 L1 N1. rewrite Fr; [|exact L1|].
        * destruct (Nat.eqb_spec r1 r) as [-> |N]; [congruence|reflexivity].
        * unfold with_object. destruct (Nat.eqb_spec r1 r) as [-> |N]; [congruence|exact N1].
      + exists mine'. split; [exact K1|]. split; [|exact K3]. intros r1 N1. destruct (K2 r1 N1) as [K|K]; [left|auto].
        unfold with_object in K. destruct (Nat.eqb_spec r1 r) as [-> |N]; [congruence|exact K].
    - assert (Nn : mine (next s) = None). { destruct (mine (next s)) as [d1|] eqn:E1; [|reflexivity]. destruct (M _ _ E1). lia. }
      assert (M' : holds (with_object mine (next s) d) (mkStore D (content (put (next s) d s)) (S (next s)))).
      { intros r1 d1. unfold with_object, put. cbn. destruct (Nat.eqb_spec r1 (next s)) as [-> |N]; [intros [= <-]; split; [lia|reflexivity]|].
        intros E1. destruct (M r1 d1 E1). split; [lia|assumption]. }
      destruct (IH (next s) Nn _ _ _ M' R) as (Nx & Fr & mine' & K1 & K2 & K3). cbn in Nx, Fr, K2. split; [lia|]. split.
      + intros r1 L1 N1. rewrite Fr; [|lia|].
        * destruct (Nat.eqb_spec r1 (next s)); [lia|reflexivity].
        * unfold with_object. destruct (Nat.eqb_spec r1 (next s)); [lia|exact N1].
      + exists mine'. split; [exact K1|]. split; [|exact K3]. intros r1 N1. destruct (K2 r1 N1) as [K|K]; [|right; lia].
        unfold with_object in K. destruct (Nat.eqb_spec r1 (next s)) as [E1|N]; [right; lia|auto].
    - injection R as <- <-. split; [lia|]. split; [auto|]. exists mine. auto.
  Qed.
  (** a coroutine that only computes *)
  Notation ends := (works (fun _ v => Some v)).
  Lemma ends_of {X} mine (x : result X) : ends mine x (@co_of D X x).
  Proof. destruct x; constructor; reflexivity. Qed.
  Lemma ends_bind {X Y} mine (x : result X) (f : X -> result Y) (c : co D X) (k : X -> co D Y) :
    ends mine x c -> (forall mine v, ends mine (f v) (k v)) -> ends mine (bind x f) (co_bind c k).
  Proof.
    intros H K. induction H as [mine v y E|mine e|mine x r d k' E H IH|mine x r d d' c E H IH|mine x d k' H IH|mine x c H IH]; cbn [co_bind bind].
    - injection E as ->. apply K.
    - constructor.
    - eapply works_reading; [exact E|exact IH].
    - eapply works_writing; [exact E|exact IH].
    - apply works_creating. intros r N. now apply IH.
    - now apply works_later.
  Qed.

  (** everything the coroutine may return satisfies [P] *)
  Fixpoint every_return {X} (P : X -> Prop) (c : co D X) : Prop :=
    match c with
    | CRet x => P x
    | CRaise _ => True
    | CRead _ k => forall d, every_return P (k d)
    | CWrite _ _ k => every_return P k
    | CNew _ k => forall r, every_return P (k r)
    | CYield k => every_return P k
    end.
  Lemma every_run {X} (P : X -> Prop) (c : co D X) : forall s, every_return P c ->
    match fst (run c s) with Returned x => P x | Raised _ => True | Suspended c' => every_return P c' end.
  Proof. induction c as [x|e|r f IH|r d c IH|d f IH|c IH]; intros s H; cbn [run fst every_return] in *; auto; apply IH; auto. Qed.
  Lemma every_bind {X Y} (P : Y -> Prop) (c : co D X) (k : X -> co D Y) : (forall x, every_return P (k x)) -> every_return P (co_bind c k).
  Proof. intros H. induction c as [x|e|r f IH|r d c IH|d f IH|c IH]; cbn [co_bind every_return]; auto. Qed.

  (** ** every schedule ends *)
  Definition after (o : outcome D (pystr * option pystr)) : task D :=
    match o with Returned r => TDone r | Raised _ => TFailed | Suspended c => TRun c end.
  Definition task_later (t' t : task D) : Prop := exists c s, t = TRun c /\ t' = after (fst (run c s)).
  Lemma after_acc c : forall s, Acc task_later (after (fst (run c s))).
  Proof.
    induction c as [x|e|r f IH|r d c IH|d f IH|c IH]; intros s; cbn [run fst after]; auto; try (constructor; intros t' (c & s' & [=] & _)).
    constructor. intros t' (c' & s' & [= <-] & ->). apply IH.
  Qed.
  Lemma task_acc t : Acc task_later t.
  Proof. constructor. intros t' (c & s & _ & ->). apply after_acc. Qed.

  Section Lists.
    Context {X : Type}.
    Variable R : X -> X -> Prop.
    Definition one_later (l' l : list X) : Prop := exists i x x', nth_error l i = Some x /\ R x' x /\ l' = list_set i x' l.
    Lemma one_later_acc l : Forall (Acc R) l -> Acc one_later l.
    Proof.
      assert (C : forall x, Acc R x -> forall l, Acc one_later l -> Acc one_later (x :: l)).
      { intros x Hx. induction Hx as [x Hx IHx]. intros m Hm. induction Hm as [m Hm IHm]. constructor.
        intros l' ([|i] & y & y' & N & Hy & ->); cbn in N; cbn [list_set].
        - injection N as ->. apply IHx; [exact Hy|]. constructor. exact Hm.
        - apply IHm. exists i, y, y'. auto. }
      induction 1 as [|x l Hx _ IH]; [|now apply C]. constructor. intros l' ([|i] & x & x' & N & _); discriminate.
    Qed.
  End Lists.

  Section Generations.
    Context {A : Type}.
    Variable to_edi : A -> co D ref.
    Variable to_app : ref -> co D A.
    Variable edi_get : D -> pystr -> result (option pystr).
    Variable edi_set : D -> pystr -> pystr -> D * option exn.
    Variable app_get : A -> pystr -> result (option pystr).
    Notation step := (generation_step D A to_app edi_set app_get).

    Definition generation_later (g' g : generation D) : Prop := exists p c s s', step p c g s = Some (g', s').
    Lemma done_acc r : Acc generation_later (GDone r).
    Proof. constructor. intros g' (p & [|i] & s & s' & H); discriminate. Qed.
    Lemma gather_acc h ts : forall failed, Acc generation_later (GGather h failed ts).
    Proof.
      assert (T : Acc (one_later task_later) ts) by (apply one_later_acc, Forall_forall; intros t _; apply task_acc).
      induction T as [ts _ IH]. intros failed. constructor. intros g' (p & [|i] & s & s' & H); cbn [generation_step] in H.
      - destruct failed as [e|]; [injection H as <- <-; apply done_acc|]. destruct (results_of D ts); [|discriminate]. injection H as <- <-. apply done_acc.
      - destruct (nth_error ts i) as [[c|r|]|] eqn:N; try discriminate.
        assert (L : one_later task_later (list_set i (after (fst (run c s))) ts) ts).
        { exists i, (TRun c), (after (fst (run c s))). split; [exact N|]. split; [exists c, s; auto|reflexivity]. }
        destruct (run c s) as [[r|e|c'] s1]; cbn [fst after] in L; injection H as <- <-; apply IH; exact L.
    Qed.
    Lemma head_acc c : forall p s g' s', step p Outer (GHead c) s = Some (g', s') -> Acc generation_later g'.
    Proof.
      induction c as [x|e|r f IH|r d c IH|d f IH|c IH]; intros p s g' s' H; cbn [generation_step run] in *.
      - injection H as <- _. apply gather_acc.
      - injection H as <- _. apply done_acc.
      - eapply IH; exact H.
      - eapply IH; exact H.
      - eapply IH; exact H.
      - injection H as <- _. constructor. intros g2 (p2 & [|i] & s2 & s2' & H2); [|discriminate]. now apply (IH p2 s2 g2 s2').
    Qed.
    Lemma generation_acc g : Acc generation_later g.
    Proof.
      destruct g as [c|h failed ts|r]; [|apply gather_acc|apply done_acc].
      constructor. intros g' (p & [|i] & s & s' & H); [|discriminate]. now apply (head_acc c p s g' s').
    Qed.

    (** *** transformations *)
    Notation tstep := (transformation_step D A to_app edi_set app_get).
    Definition job_later (j' j : job D) : Prop :=
      match j_state D j with
      | JRun _ g => (exists x, j_state D j' = JDone D x g) \/ exists g', j_state D j' = JRun D g' /\ generation_later g' g
      | JDone _ x g => exists g', j_state D j' = JDone D x g' /\ generation_later g' g
      end.
    Lemma job_acc j : Acc job_later j.
    Proof.
      assert (Done : forall g x pos p, Acc job_later (mkJob D pos p (JDone D x g))).
      { intros g. induction (generation_acc g) as [g _ IH]. intros x pos p. constructor. intros [pos' p' st] (g' & E & L). cbn in E. subst st. now apply IH. }
      destruct j as [pos p [g|x g]]; [|apply Done].
      revert pos p. induction (generation_acc g) as [g _ IH]. intros pos p. constructor. intros [pos' p' st] H. unfold job_later in H. cbn in H.
      destruct H as [(x & ->)|(g' & -> & L)]; [apply Done|now apply IH].
    Qed.
    Definition world_later (w' w : world D) : Prop := exists i c, tstep i c w = Some w'.
    Lemma world_acc w : Acc world_later w.
    Proof.
      destruct w as [a s js f]. assert (T : Acc (one_later job_later) js) by (apply one_later_acc, Forall_forall; intros; apply job_acc).
      revert a s f. induction T as [js _ IH]. intros a s f. constructor. intros w' (i & c & H). unfold transformation_step in H. cbn [w_jobs w_ahb w_store w_failed] in H.
      destruct (nth_error js i) as [[pos p [g|x g]]|] eqn:N; try discriminate.
      2:{ destruct c as [|k]; [discriminate|]. destruct (step p (Inner k) g s) as [[g' s']|] eqn:S0; [|discriminate]. injection H as <-. apply IH.
          exists i, (mkJob D pos p (JDone D x g)), (mkJob D pos p (JDone D x g')). split; [exact N|]. split; [|reflexivity]. exists g'. split; [reflexivity|]. exists p, (Inner k), s, s'. exact S0. }
      destruct (step p c g s) as [[g' s']|] eqn:S0; [|discriminate].
      assert (L : forall st, (exists x, st = JDone D x g) \/ (exists g', st = JRun D g' /\ generation_later g' g) -> one_later job_later (list_set i (mkJob D pos p st) js) js).
      { intros st Hst. exists i, (mkJob D pos p (JRun D g)), (mkJob D pos p st). split; [exact N|]. split; [|reflexivity]. exact Hst. }
      assert (G : generation_later g' g) by (exists p, c, s, s'; exact S0).
      destruct g' as [c'|h failed ts|[m|e]]; injection H as <-; apply IH, L; eauto.
    Qed.
  End Generations.
End Coroutines.
