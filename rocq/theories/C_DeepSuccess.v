(** Properties C86 and C87: exactly when a flat AHB can be converted, and a complete description
    of the deep AHB. *)
From Coq Require Import Ascii String List NArith ZArith Bool Arith Lia.
From Verif Require Import PyBase PyStr PyRe M_Components M_Ahb M_Sgh M_Navigation M_Matching
  S_Prefix S_Text S_Sgh S_ValuePool S_Navigation S_Matching S_DeepSuccess
  L_Base L_Prefix L_Validators L_ValuePool L_Matching L_DeepTree L_DeepLoop L_DeepResult L_Parts L_DeepSuccess L_DeepUnique C_Sgh C_FlatAhb C_Matching.
Import ListNotations.
Local Open Scope list_scope.

(** ** C86: when the conversion returns *)
Theorem C86_converts_iff reader str_of_location flat h :
  (exists deep, fst (to_deep_ahb reader str_of_location flat h) = Ok deep) <->
  exists located runs depths p,
    determine_locations h (fa_lines flat) = Ok located /\ maximal_runs located runs
    /\ (forall before r after, runs = before ++ r :: after -> presentable reader before r)
    /\ walk reader runs depths p.
Proof.
  rewrite fst_to_deep. split.
  - intros (deep & H). apply bind_ok in H as (located & HL & H). apply bind_ok in H as (st & HS & _).
    destruct (w_loop reader str_of_location _ st (runs_plain h _ located HL) HS) as (P & ds & p & f & spine & _ & Wk).
    exists located, (map snd (groupby rq located)), ds, p. split; [exact HL|]. split; [apply groupby_runs|]. auto.
  - intros (located & runs & ds & p & HL & M & P & Wk). rewrite HL. cbn [bind]. rewrite (maximal_runs_unique _ _ _ (groupby_runs located) M).
    destruct (loop_returns reader str_of_location runs ds p Wk) as (st & ->); [|exact P|cbn [bind]; eauto].
    intros r Hr. apply (runs_plain h (fa_lines flat) located HL). now rewrite (maximal_runs_unique _ _ _ (groupby_runs located) M).
Qed.
Print Assumptions C86_converts_iff.

Lemma converted reader str_of_location flat h deep : fst (to_deep_ahb reader str_of_location flat h) = Ok deep ->
  exists located st ds p f spine, determine_locations h (fa_lines flat) = Ok located
    /\ W reader (map snd (groupby rq located)) st ds p f spine /\ walk reader (map snd (groupby rq located)) ds p
    /\ deep = mkDeep (stamp_version (fa_meta flat)) (render_lines (ds_heap st)).
Proof.
  rewrite fst_to_deep. intros H. apply bind_ok in H as (located & HL & H). apply bind_ok in H as (st & HS & E). injection E as <-.
  destruct (w_loop reader str_of_location _ st (runs_plain h _ located HL) HS) as (P & ds & p & f & spine & V & Wk). exists located, st, ds, p, f, spine. auto.
Qed.
Lemma pair_of_fst {A B} (x : A * B) a : fst x = a -> x = (a, snd x). Proof. destruct x. cbn. congruence. Qed.

(** the depth at which every group is nested *)
Theorem C86_depths reader str_of_location flat h deep flat' located runs depths p :
  to_deep_ahb reader str_of_location flat h = (Ok deep, flat') ->
  determine_locations h (fa_lines flat) = Ok located -> maximal_runs located runs -> walk reader runs depths p ->
  depths_of deep = depths.
Proof.
  intros H HL M Wk. destruct (converted reader str_of_location flat h deep) as (located' & st & ds & p' & f & spine & HL' & V & Wk' & ->); [now rewrite H|].
  assert (located' = located) as -> by congruence. rewrite (maximal_runs_unique _ _ _ (groupby_runs located) M) in Wk'.
  destruct (walk_unique _ _ _ _ Wk _ _ Wk') as [-> _].
  destruct (deep_groups (ds_heap st) f spine (stamp_version (fa_meta flat)) (w_cons _ _ _ _ _ _ _ V)) as [_ D]. cbv zeta in D.
  rewrite <- (w_ds _ _ _ _ _ _ _ V). unfold depths_of. clear -D. induction D as [|x y l m [D1 _] _ IH]; cbn [map]; [reflexivity|]. rewrite IH. f_equal. f_equal. symmetry. eapply Forall2_length; exact D1.
Qed.
Print Assumptions C86_depths.
(** the first group, if there is one, is the first top level group, and it is the one of the
    message in the document (the literal path [first_group] of S_DeepSuccess.v) *)
Theorem C86_first_group reader str_of_location flat h deep flat' :
  to_deep_ahb reader str_of_location flat h = (Ok deep, flat') ->
  match all_groups deep with
  | [] => True
  | g :: _ => g_discriminator g = first_group /\ hd_error (da_lines deep) = Some g
  end.
Proof.
  intros H. destruct (converted reader str_of_location flat h deep) as (located & st & ds & p & f & spine & HL & V & Wk & ->); [now rewrite H|].
  destruct (deep_groups (ds_heap st) f spine (stamp_version (fa_meta flat)) (w_cons _ _ _ _ _ _ _ V)) as [D _]. cbv zeta in D.
  set (deep := mkDeep (stamp_version (fa_meta flat)) (render_lines (ds_heap st))) in *.
  destruct (all_groups deep) as [|g gs] eqn:E; [exact I|]. split.
  - rewrite <- first_group_root.
    inversion D as [|i ? is ? S0 Ds Ei]; subst. destruct S0 as (S1 & _).
    pose proof (w_order _ _ _ _ _ _ _ V) as O. rewrite <- Ei in O. cbn [map rev] in O.
    destruct (w_mode _ _ _ _ _ _ _ V) as [(_ & _ & Est & _)|(_ & _ & (used & U) & _)].
    + rewrite Est in Ei. discriminate.
    + rewrite O in U. apply app_inj_tail in U as [_ U]. rewrite <- U. exact S1.
  - unfold all_groups, groups_with_ancestors in E. destruct (da_lines deep) as [|g0 r]; [discriminate|]. cbn [flat_map] in E. destruct g0. cbn in E. injection E as <- _. reflexivity.
Qed.
Print Assumptions C86_first_group.

(** ** C87: a complete description of the deep AHB *)
Lemma deep_listed reader str_of_location flat h deep flat' :
  to_deep_ahb reader str_of_location flat h = (Ok deep, flat') -> forall g, In g (all_groups deep) -> g_groups g <> None.
Proof.
  intros H g Hg. destruct (converted reader str_of_location flat h deep) as (located & st & ds & p & f & spine & HL & V & Wk & ->); [now rewrite H|].
  destruct (deep_groups (ds_heap st) f spine (stamp_version (fa_meta flat)) (w_cons _ _ _ _ _ _ _ V)) as [_ D]. cbv zeta in D.
  unfold all_groups in Hg. apply in_map_iff in Hg as (y & <- & Hy). clear -D Hy. induction D as [|x z l m [_ A] _ IH] in y, Hy |- *; [destruct Hy|]. destruct Hy as [<-|Hy]; [|now apply IH].
  destruct A as (t & A & _ & K). rewrite K. inversion A as [g0 ts H F]; subst. cbn [tree_at]. unfold groups_at in H. destruct (nth_error (hp_cells (ds_heap st)) g0); discriminate.
Qed.
Theorem C87_complete_description reader str_of_location flat h deep :
  fst (to_deep_ahb reader str_of_location flat h) = Ok deep <->
  exists located runs parts p,
    determine_locations h (fa_lines flat) = Ok located /\ maximal_runs located runs
    /\ (forall before r after, runs = before ++ r :: after -> presentable reader before r)
    /\ walk reader runs (depths_of deep) p
    /\ sections runs = ([], concat parts) /\ parts_become reader str_of_location parts (all_groups deep)
    /\ NoDup (map g_discriminator (all_groups deep))
    /\ (forall g, In g (all_groups deep) -> g_groups g <> None)
    /\ da_meta deep = mkMeta (me_pruefi (fa_meta flat)) (Some maus_VERSION) (me_description (fa_meta flat)) (me_direction (fa_meta flat)).
Proof.
  assert (Fwd : forall deep, fst (to_deep_ahb reader str_of_location flat h) = Ok deep ->
     exists located runs parts p,
    determine_locations h (fa_lines flat) = Ok located /\ maximal_runs located runs
    /\ (forall before r after, runs = before ++ r :: after -> presentable reader before r)
    /\ walk reader runs (depths_of deep) p
    /\ sections runs = ([], concat parts) /\ parts_become reader str_of_location parts (all_groups deep)
    /\ NoDup (map g_discriminator (all_groups deep))
    /\ (forall g, In g (all_groups deep) -> g_groups g <> None)
    /\ da_meta deep = mkMeta (me_pruefi (fa_meta flat)) (Some maus_VERSION) (me_description (fa_meta flat)) (me_direction (fa_meta flat))).
  { clear deep. intros deep H. pose proof (pair_of_fst _ _ H) as H'. destruct (C86_converts_iff reader str_of_location flat h) as [K _].
    destruct (K ltac:(eauto)) as (located & runs & ds & p & HL & M & P & Wk).
    destruct (to_deep_ahb_result _ _ _ _ _ _ H') as (located' & runs' & parts & A & B & C & D & N & _).
    assert (located' = located) as -> by congruence. rewrite (maximal_runs_unique _ _ _ B M) in C.
    exists located, runs, parts, p. split; [exact HL|]. split; [exact M|]. split; [exact P|]. split; [now rewrite (C86_depths _ _ _ _ _ _ _ _ _ _ H' HL M Wk)|].
    split; [exact C|]. split; [exact D|]. split; [exact N|]. split; [exact (deep_listed _ _ _ _ _ _ H')|].
    destruct (converted reader str_of_location flat h deep H) as (l2 & st & ds2 & p2 & f & spine & _ & _ & _ & ->). reflexivity. }
  split; [apply Fwd|].
  intros (located & runs & parts & p & HL & M & P & Wk & C & D & N & G & Me).
  destruct (proj2 (C86_converts_iff reader str_of_location flat h)) as (deep0 & H0); [exists located, runs, (depths_of deep), p; auto|].
  rewrite H0. f_equal. destruct (Fwd deep0 H0) as (located' & runs' & parts' & p' & HL' & M' & _ & Wk' & C' & D' & N' & G' & Me').
  assert (located' = located) as -> by congruence. rewrite (maximal_runs_unique _ _ _ M' M) in *.
  destruct D as [D1 D2], D' as [D1' D2'].
  destruct (parts_unique_two reader str_of_location (all_groups deep0) [] [] (all_groups deep) parts' parts) as [_ L]; auto; [congruence|].
  apply deep_unique; auto; [congruence|]. destruct (walk_unique _ _ _ _ Wk' _ _ Wk) as [E _]. exact E.
Qed.
Print Assumptions C87_complete_description.

(** ** examples *)
Example C86_instance : exists a located runs p, ex_deep ex_deep_lines = Ok a
  /\ determine_locations ex_sgh ex_deep_lines = Ok located /\ maximal_runs located runs
  /\ (forall before r after, runs = before ++ r :: after -> presentable ex_reader before r)
  /\ walk ex_reader runs [1; 2; 3; 2; 2; 3] p /\ depths_of a = [1; 2; 3; 2; 2; 3].
Proof.
  destruct (to_deep_ahb ex_reader ex_str (ex_flat ex_deep_lines) ex_sgh) as [d flat'] eqn:E.
  destruct d as [a|e]; [|exfalso; vm_compute in E; discriminate E].
  assert (Da : depths_of a = [1; 2; 3; 2; 2; 3]) by (vm_compute in E; injection E as <- _; vm_compute; reflexivity).
  destruct (proj1 (C87_complete_description ex_reader ex_str (ex_flat ex_deep_lines) ex_sgh a)) as (located & runs & parts & p & A & B & C & D & _); [now rewrite E|].
  exists a, located, runs, p. split; [unfold ex_deep; now rewrite E|]. rewrite Da in D. auto.
Qed.
(** without the lines of UNH the group of the message is not opened first: the
    conversion fails, hence the lines are not presentable or there is no way through them *)
Example C86_instance_fails : ~ exists located runs depths p,
    determine_locations ex_sgh (skipn 2 ex_deep_lines) = Ok located /\ maximal_runs located runs
    /\ (forall before r after, runs = before ++ r :: after -> presentable ex_reader before r)
    /\ walk ex_reader runs depths p.
Proof.
  intros K. apply (C86_converts_iff ex_reader ex_str (ex_flat (skipn 2 ex_deep_lines)) ex_sgh) in K as (deep & K).
  vm_compute in K. discriminate K.
Qed.
