(** Lemmas: when the main loop of to_deep_ahb returns, and the depths of the groups. *)
From Coq Require Import Ascii String List NArith ZArith Bool Lia Arith.
From Verif Require Import PyBase PyStr PyRe M_Components M_Ahb M_Sgh M_Navigation M_Matching
  S_Prefix S_Text S_ValuePool S_Navigation S_Matching S_DeepSuccess L_Base L_Prefix L_Str L_Validators L_Matching L_DeepTree L_DeepLoop L_DeepResult.
Import ListNotations.
Local Open Scope list_scope.

(** locations of lines have layers *)
Lemma located_layers h lines r : determine_locations h lines = Ok r -> Forall (fun y => lo_layers (snd y) <> []) r.
Proof.
  unfold determine_locations. intros H. apply bind_ok in H as (l0 & _ & H). apply bind_ok in H as (ch & _ & H). apply bind_ok in H as (sg & _ & H). apply bind_ok in H as (qs & _ & H).
  apply bind_ok in H as (st & H & E). injection E as <-.
  assert (G : forall xs st0 st1, foldM (location_step h) st0 xs = Ok st1 -> Forall (fun y => lo_layers (snd y) <> []) (snd st0) -> Forall (fun y => lo_layers (snd y) <> []) (snd st1)).
  { intros xs. induction xs as [|x xs IH]; intros st0 st1 K F; cbn [foldM] in K; [injection K as <-; exact F|].
    apply bind_ok in K as (st2 & K1 & K). apply (IH st2 st1 K). clear IH K. destruct x as [[[line c] ns] nq]. destruct st0 as [layers res]. cbn [location_step] in K1.
    apply bind_ok in K1 as (base & _ & K1).
    assert (EM : forall new, (let* loc := new_Location false new ns (al_element line) (al_entry line) in Ok (new, res ++ [(line, loc)])) = Ok st2 ->
       Forall (fun y => lo_layers (snd y) <> []) (snd st2)).
    { intros new E. apply bind_ok in E as (loc & El & E). unfold new_Location in El. apply bind_ok in El as (x & Ex & El). apply check_ok in Ex. apply bind_ok in El as (y & _ & El). apply bind_ok in El as (z & _ & El). injection El as <-.
      injection E as <-. cbn [snd] in *. apply Forall_app. split; [exact F|]. constructor; [|constructor]. cbn. intros ->. discriminate Ex. }
    destruct c.
    - now apply (EM base).
    - apply bind_ok in K1 as (ls & _ & K1). apply bind_ok in K1 as (n & _ & K1). eapply EM; exact K1.
    - injection K1 as <-. exact F.
    - apply bind_ok in K1 as (n & _ & K1). eapply EM; exact K1.
    - discriminate.
    - apply bind_ok in K1 as (lr & _ & K1). apply bind_ok in K1 as (ll & _ & K1). apply bind_ok in K1 as (ca & _ & K1). apply bind_ok in K1 as (di & _ & K1).
      apply bind_ok in K1 as (ly & _ & K1). apply bind_ok in K1 as (n & _ & K1). eapply EM; exact K1. }
  apply (G _ _ _ H). constructor.
Qed.
Lemma place_layers r : r <> [] -> Forall (fun y => lo_layers (snd y) <> []) r -> lo_layers (place r) <> [].
Proof. destruct r as [|[l p] [|y r]]; intros H F; [congruence| |]; inversion F; subst; assumption. Qed.

Lemma blank_strip e : blank (strip e) <-> blank e.
Proof.
  split; intros H.
  - apply strip_nil. pose proof (strip_spec e) as Q. destruct (strip e) as [|c s] eqn:E; [reflexivity|]. exfalso.
    destruct Q as (a & b & _ & _ & _ & E2 & _). inversion H as [|? ? Hc _]; subst. rewrite (E2 c s eq_refl) in Hc. discriminate.
  - apply strip_nil in H. rewrite H. constructor.
Qed.
Lemma not_blank_truthy e : ~ blank e -> truthy e = true.
Proof. destruct e; [intros H; exfalso; apply H; constructor|reflexivity]. Qed.

Lemma first_group_root : root_discriminator = first_group.
Proof. unfold root_discriminator, first_group. reflexivity. Qed.
Section Success.
  Variable reader : Location -> result EdifactStack.
  Variable str_of_location : Location -> pystr.
  Notation stack_of := (stack_of reader).
  Notation can_open := (can_open reader).
  Notation step := (deep_step reader str_of_location).

  Lemma can_open_unique r p q : can_open r p -> can_open r q -> p = q.
  Proof.
    intros (f & l & o & y & s & A1 & A2 & A3 & A4 & A5 & A6 & -> & A7) (f' & l' & o' & y' & s' & B1 & B2 & B3 & B4 & B5 & B6 & -> & B7). congruence.
  Qed.

  (** ** the lookup *)
  Lemma retry_value_error n p : (exists s, reader p = Ok s) \/ reader p = Raise ValueError -> n <> 0 ->
    retry_stack reader n p = Ok (match reader p with Ok x => Some x | Raise _ => None end).
  Proof.
    intros [(s & E)|E] N; (destruct n as [|n]; [congruence|]); cbn [retry_stack]; rewrite E; [reflexivity|].
    clear N. induction n as [|n IH]; cbn [retry_stack]; [reflexivity|]. rewrite E. exact IH.
  Qed.
  Lemma retry_raises n p s : retry_stack reader n p = Ok s -> n <> 0 -> (exists s, reader p = Ok s) \/ reader p = Raise ValueError.
  Proof. intros H N. destruct n as [|n]; [congruence|]. cbn [retry_stack] in H. destruct (reader p) as [x|e]; [left; eauto|]. destruct e; try discriminate. now right. Qed.
  Lemma lookup_iff r : lookup_returns reader r <-> lookup_stack reader (place r) r = Ok (stack_of r).
  Proof.
    unfold lookup_returns. split.
    - intros [(s & E)|[E H]].
      + unfold lookup_stack, S_Matching.stack_of. rewrite E. reflexivity.
      + unfold lookup_stack, S_Matching.stack_of. rewrite E. destruct r as [|[l p] [|x rest]]; cbn [List.length Nat.ltb Nat.leb]; [reflexivity|reflexivity|].
        apply retry_value_error; [exact (H l p x rest eq_refl)|discriminate].
    - unfold lookup_stack. intros H. destruct (reader (place r)) as [s|e] eqn:E; [left; eauto|]. destruct e; try discriminate. right. split; [reflexivity|].
      intros l p x rest ->. cbn [List.length Nat.ltb Nat.leb] in H. eapply retry_raises; [exact H|discriminate].
  Qed.
  Lemma lookup_returns_of r s : lookup_stack reader (place r) r = Ok s -> lookup_returns reader r.
  Proof. intros H. apply lookup_iff. rewrite H. f_equal. exact (lookup_ok reader r s H). Qed.

  (** ** the condition for opening a group *)
  Lemma opens_iff st r first last fr lr : run_lines r = first :: fr -> run_lines r = lr ++ [last] -> lo_layers (place r) <> [] ->
    exists b, opens_group st (place r) (stack_of r) first last = Ok b
      /\ (b = true <-> exists path, can_open r path /\ ~ In path (ds_used st)).
  Proof.
    intros Hf Hl Hlay. destruct (rev_case (lo_layers (place r))) as [E|(outer & layer & E)]; [contradiction|].
    assert (Hhd : hd_error (run_lines r) = Some first) by now rewrite Hf.
    unfold opens_group. assert (last_of (lo_layers (place r)) = Ok layer) as ->.
    { destruct (last_of (lo_layers (place r))) as [y|e] eqn:L.
      - apply last_of_ok in L as (l & L). rewrite E in L. apply app_inj_tail in L as [_ <-]. reflexivity.
      - rewrite E in L. clear -L. exfalso. revert L. induction outer as [|a [|b o] IH]; cbn; [discriminate|discriminate|exact IH]. }
    cbn [bind]. eexists. split; [reflexivity|]. rewrite !andb_true_iff. split.
    - intros [[[O1 O2] O3] O4]. apply ostr_eqb_eq in O1, O2. destruct (stack_of r) as [s|] eqn:Es; [|discriminate]. exists (to_json_path s). split.
      + exists first, last, outer, layer, s. repeat split; eauto. destruct (al_expression first); [discriminate|discriminate O4].
      + intros K. apply str_in_In in K. rewrite K in O3. discriminate.
    - intros (path & (f' & l' & o' & y' & s & A1 & (lr' & A2) & A3 & A4 & A5 & A6 & -> & A7) & NU).
      rewrite A1 in Hhd. injection Hhd as ->. rewrite Hl in A2. apply app_inj_tail in A2 as [_ <-]. rewrite E in A3. apply app_inj_tail in A3 as [_ <-].
      rewrite A4, A5, A6. rewrite !ostr_eqb_refl. repeat split; try reflexivity.
      + apply negb_true_iff. destruct (str_in (to_json_path s) (ds_used st)) eqn:K; [|reflexivity]. apply str_in_In in K. contradiction.
      + destruct (al_expression first); [reflexivity|congruence].
  Qed.

  (** ** opening a group *)
  Lemma go_up_ok n : forall spine r ps, r :: ps = stack_for spine -> n <= List.length spine -> exists r' ps', go_up n (Some r) ps = Ok (r', ps').
  Proof.
    induction n as [|n IH]; intros spine r ps H L; cbn [go_up]; [eauto|].
    destruct (rev_case spine) as [-> |(s & g & ->)]; [cbn in L; lia|]. rewrite stack_for_snoc in H. injection H as -> H.
    destruct ps as [|p ps]; [unfold stack_for in H; cbn in H; destruct (rev (map RefGroups s)); discriminate|].
    rewrite app_length in L. cbn [List.length] in L. apply (IH s p ps H). lia.
  Qed.
  Lemma last_of_snoc {A} (l : list A) x : last_of (l ++ [x]) = Ok x.
  Proof. induction l as [|a l IH]; [reflexivity|]. cbn [app]. destruct (l ++ [x]) eqn:E; [destruct l; discriminate|]. exact IH. Qed.
  Lemma go_down_ok n : forall h f spine d r ps, hp_lines h = map root f -> Forall (agrees (hp_cells h)) f -> spine_of f spine ->
    d + n <= List.length spine -> r :: ps = stack_for (firstn d spine) -> exists r' ps', go_down n h (Some r) ps = Ok (r', ps').
  Proof.
    induction n as [|n IH]; intros h f spine d r ps HL HA HS Hd H; cbn [go_down]; [eauto|].
    destruct (nth_error spine d) as [g|] eqn:N; [|apply nth_error_None in N; lia].
    assert (Hg : exists l, deref h r = l ++ [g]).
    { destruct (stack_top _ _ _ H) as [(E & -> & ->)|(s' & g0 & E & -> & ->)].
      - cbn [deref]. destruct d as [|d]; [|destruct spine; [cbn in Hd; lia|discriminate]].
        destruct (spine_head f spine HS) as [[-> ->]|(g1 & s1 & l1 & -> & E1)]; [discriminate|]. injection N as ->. exists l1. now rewrite HL.
      - destruct d as [|d]; [destruct s'; discriminate|]. destruct (nth_error spine d) as [g1|] eqn:N1; [|apply nth_error_None in N1; lia].
        rewrite (firstn_snoc _ _ _ N1) in E. apply app_inj_tail in E as [<- ->].
        destruct (spine_child f spine (hp_cells h) HS HA d g0 N1) as (l0 & Hl0 & Hc). rewrite N in Hc. destruct Hc as (l' & ->).
        unfold groups_at in Hl0. cbn [deref]. destruct (nth_error (hp_cells h) g0) as [c|]; [|discriminate]. injection Hl0 as ->. eauto. }
    destruct Hg as (l & ->). rewrite last_of_snoc. cbn [bind].
    apply (IH h f spine (S d)); auto; [lia|]. rewrite (firstn_snoc _ _ _ N), stack_for_snoc. now rewrite H.
  Qed.
  Lemma spine_cells h f spine : consistent h f spine -> spine <> [] -> hp_cells h <> [].
  Proof.
    intros (_ & _ & HI & HS) N E. destruct spine as [|g s]; [congruence|]. assert (K : In g (ids f)) by (eapply spine_in; [exact HS|now left]).
    rewrite HI, E in K. destruct K.
  Qed.
  Lemma depth_goes st spine prev pos d : depth_of st spine pos d -> hp_cells (ds_heap st) <> [] -> ds_previous st = Some prev ->
    lo_pseudo prev = false -> lo_pseudo pos = false -> d <= List.length spine -> goes (lo_layers prev) (lo_layers pos) (List.length spine) (S d).
  Proof.
    intros D Hne Hp P1 P2 Ld. destruct D as [[? _]|(prev' & Hp' & D)]; [contradiction|]. rewrite Hp in Hp'. injection Hp' as <-.
    destruct D as [[Hs ->]|[Hs (dist & Hd & L & U)]].
    - left. split; [now apply is_sub_location_of_prefix|reflexivity].
    - right. split; [intros K; apply is_sub_location_of_prefix in K; congruence|].
      pose proof (distance_spec prev pos P1 P2) as DS. rewrite Hd in DS. destruct DS as (c & Hc & C & E1 & E2).
      exists c, (layers_up dist), (layers_down dist). split; [exact Hc|]. split; [exact C|]. split; [exact E1|]. split; [exact E2|]. lia.
  Qed.
  Lemma lcp_unique {A} (a b x y : list A) : is_longest_common_prefix a x y -> is_longest_common_prefix b x y -> a = b.
  Proof. intros (A1 & A2 & A3) (B1 & B2 & B3). apply is_prefix_antisym; auto. Qed.
  Lemma open_group_ok st pos path first prev f spine d' e :
    consistent (ds_heap st) f spine -> here st spine -> str_eqb path root_discriminator = false -> ds_previous st = Some prev ->
    lo_pseudo prev = false -> lo_pseudo pos = false ->
    al_expression first = Some e -> ~ blank e -> goes (lo_layers prev) (lo_layers pos) (List.length spine) d' ->
    exists st1, open_group st pos path first = Ok st1.
  Proof.
    intros C (r & Hr & Hst) Er Ep P1 P2 He Hb G. unfold open_group. rewrite He. cbn [option_map].
    assert (exists g, new_SegmentGroup path (Some (strip e)) (al_index first) (Some []) (Some []) = Ok g /\ g_discriminator g = path) as (g & -> & Eg).
    { exists (mkGroup path (strip e) (al_index first) (Some []) (Some [])). split; [|reflexivity]. apply new_SegmentGroup_ok. exists (strip e). split; [reflexivity|]. split; [|reflexivity]. now rewrite blank_strip. }
    cbn [bind]. rewrite Eg, Er, Ep, Hr.
    destruct G as [[G ->]|[G (c & up & down & Hc & L & E1 & E2 & U & D & ->)]].
    - assert (is_sub_location_of pos prev = true) as -> by now apply is_sub_location_of_prefix. eauto.
    - assert (is_sub_location_of pos prev = false) as ->.
      { destruct (is_sub_location_of pos prev) eqn:K; [|reflexivity]. apply is_sub_location_of_prefix in K. contradiction. }
      pose proof (distance_spec prev pos P1 P2) as DS. destruct (calculate_distance prev pos) as [dist|x].
      2:{ exfalso. destruct DS as [_ DS]. destruct L as ((r1 & L1) & (r2 & L2) & _). rewrite L1, L2 in DS. destruct c; [congruence|]. cbn in DS. destruct DS as [K|[K|K]]; congruence. }
      destruct DS as (c' & _ & L' & F1 & F2). rewrite (lcp_unique _ _ _ _ L' L) in *. cbn [bind].
      assert (layers_up dist = up) as Eu by lia. assert (layers_down dist = down) as Ed by lia. rewrite Eu, Ed.
      destruct (go_up_ok up spine r (ds_parents st) Hst U) as (sg1 & ps1 & Hup). rewrite Hup. cbn [bind].
      destruct (go_up_spec _ _ _ _ _ _ Hst Hup) as (r1 & -> & S1 & _).
      match goal with |- context [go_down _ ?h _ _] => set (heap := h) end.
      destruct C as (CL & CA & CI & CS).
      assert (A : Forall (agrees (hp_cells heap)) f).
      { apply (agrees_all_ext (hp_cells (ds_heap st))); [exact CA|]. intros y Hy. rewrite CI in Hy. apply in_seq in Hy.
        unfold groups_at, heap. cbn [hp_cells]. rewrite nth_error_app1 by lia. reflexivity. }
      destruct (go_down_ok (down - 1) heap f spine (List.length spine - up) r1 ps1 CL A CS ltac:(lia) S1) as (sg2 & ps2 & Hdn). rewrite Hdn. cbn [bind].
      destruct (go_down_spec _ heap f spine (List.length spine - up) r1 ps1 sg2 ps2 CL A CS ltac:(lia) S1 Hdn) as (r2 & -> & _). eauto.
  Qed.
  Lemma goes_unique from to d a b : goes from to d a -> goes from to d b -> a = b.
  Proof.
    intros [[P ->]|[P (c & up & down & Hc & L & E1 & E2 & U & D & ->)]] [[P' ->]|[P' (c' & up' & down' & Hc' & L' & E1' & E2' & U' & D' & ->)]]; try contradiction; [reflexivity|].
    rewrite (lcp_unique _ _ _ _ L' L) in *. lia.
  Qed.
  Lemma walk_unique runs ds p : walk reader runs ds p -> forall ds' p', walk reader runs ds' p' -> ds = ds' /\ p = p'.
  Proof.
    induction 1 as [|runs ds p r W IH C1 C2|runs r W IH C1 C2|runs ds p r W IH C1|runs ds p r W IH C1 C2|runs ds p r d d' path W IH C1 C2 C3]; intros ds2 p2 W2.
    - inversion W2; try (destruct runs; discriminate). auto.
    - inversion W2 as [E|runs' ds' p' r' V D1 D2 E|runs' r' V D1 D2 E|runs' ds' p' r' V D1 E|runs' ds' p' r' V D1 D2 E|runs' ds' p' r' e e' path' V D1 D2 D3 E];
        try (destruct runs; discriminate E); apply app_inj_tail in E as [-> ->]; try congruence. now apply IH.
    - inversion W2 as [E|runs' ds' p' r' V D1 D2 E|runs' r' V D1 D2 E|runs' ds' p' r' V D1 E|runs' ds' p' r' V D1 D2 E|runs' ds' p' r' e e' path' V D1 D2 D3 E];
        try (destruct runs; discriminate E); apply app_inj_tail in E as [-> ->]; try congruence; auto; destruct (IH _ _ V); discriminate.
    - assert (counts_as_segment r = false). { unfold counts_as_element in C1. unfold counts_as_segment. destruct (has_segment_code r), (has_data_element r); auto; discriminate. }
      inversion W2 as [E|runs' ds' p' r' V D1 D2 E|runs' r' V D1 D2 E|runs' ds' p' r' V D1 E|runs' ds' p' r' V D1 D2 E|runs' ds' p' r' e e' path' V D1 D2 D3 E];
        try (destruct runs; discriminate E); apply app_inj_tail in E as [-> ->]; try congruence. destruct (IH _ _ V). auto.
    - assert (counts_as_element r = false). { unfold counts_as_segment in C1. unfold counts_as_element. destruct (has_segment_code r), (has_data_element r); auto; discriminate. }
      inversion W2 as [E|runs' ds' p' r' V D1 D2 E|runs' r' V D1 D2 E|runs' ds' p' r' V D1 E|runs' ds' p' r' V D1 D2 E|runs' ds' p' r' e e' path' V D1 D2 D3 E];
        try (destruct runs; discriminate E); apply app_inj_tail in E as [-> ->]; try congruence; destruct (IH _ _ V); try discriminate; auto.
      destruct D2 as [D2 D4]. exfalso. apply D4, C2. exact D2.
    - assert (counts_as_element r = false). { unfold counts_as_segment in C1. unfold counts_as_element. destruct (has_segment_code r), (has_data_element r); auto; discriminate. }
      inversion W2 as [E|runs' ds' p' r' V D1 D2 E|runs' r' V D1 D2 E|runs' ds' p' r' V D1 E|runs' ds' p' r' V D1 D2 E|runs' ds' p' r' e e' path' V D1 D2 D3 E];
        try (destruct runs; discriminate E); apply app_inj_tail in E as [-> ->]; try congruence; destruct (IH _ _ V) as [E1 E2]; try discriminate; auto.
      + destruct C2 as [C2 C4]. exfalso. apply C4, D2. exact C2.
      + apply app_inj_tail in E1 as [-> ->]. injection E2 as ->. split; [|reflexivity]. f_equal. f_equal. eapply goes_unique; eassumption.
  Qed.

  (** ** one step *)
  Lemma new_Segment_iff p e i els sec s : new_Segment p e i els sec None = Ok s <-> exists x, e = Some x /\ ~ blank x /\ s = mkSegment p x i els sec None.
  Proof.
    unfold new_Segment. rewrite bind_ok. split.
    - intros (x & Hx & H). apply bind_ok in H as (y & Hy & H). apply bind_ok in H as (z & Hz & [= <-]).
      apply check_is_str_ok in Hx. destruct y. apply check_not_blank_ok in Hy as (w & [= ->] & Hy). eauto.
    - intros (x & -> & Hb & ->). exists x. split; [reflexivity|]. assert (check_not_blank (Some x) = Ok tt) as -> by (apply check_not_blank_ok; eauto). reflexivity.
  Qed.
  Lemma find_some b l a e : existsb has_expression b = false -> al_expression l = Some e -> ~ blank e ->
    find (fun l => otruthy (al_expression l)) (b ++ l :: a) = Some l.
  Proof.
    intros Hb He Hn. induction b as [|x b IH]; cbn [app find].
    - rewrite He. cbn [otruthy]. now rewrite (not_blank_truthy e Hn).
    - cbn [existsb] in Hb. apply orb_false_iff in Hb as [H1 H2]. unfold has_expression in H1. rewrite H1. exact (IH H2).
  Qed.
  Lemma last_no_element r l last : has_data_element r = false -> run_lines r = l ++ [last] -> al_element last = None.
  Proof.
    unfold has_data_element. intros H E. rewrite E, existsb_app in H. cbn [existsb] in H. apply orb_false_iff in H as [_ H]. rewrite orb_false_r in H. now destruct (al_element last).
  Qed.
  Lemma run_ends r : r <> [] -> exists first fr lr last, run_lines r = first :: fr /\ run_lines r = lr ++ [last].
  Proof.
    intros H. destruct r as [|[x y] r]; [congruence|]. destruct (rev_case (run_lines ((x, y) :: r))) as [E|(lr & last & E)]; [discriminate|].
    exists x, (run_lines r), lr, last. split; [reflexivity|exact E].
  Qed.
  Lemma first_of_cons {A} (x : A) l : first_of (x :: l) = Ok x. Proof. reflexivity. Qed.

  Definition opened (done : list Run) (used : list pystr) : Prop := forall path, In path used <-> opened_by reader done path.
  Lemma opened_snoc done used r : opened done used -> counts_as_segment r = false -> opened (done ++ [r]) used.
  Proof.
    intros H C path. split.
    - intros K. apply H in K as (q & Hq & K). exists q. split; [apply in_or_app; now left|exact K].
    - intros (q & Hq & K1 & K2). apply H. apply in_app_or in Hq as [Hq|[<-|[]]]; [exists q; auto|congruence].
  Qed.
  Lemma opened_same done used r : opened done used -> (forall path, can_open r path -> In path used) -> opened (done ++ [r]) used.
  Proof.
    intros H C path. split.
    - intros K. apply H in K as (q & Hq & K). exists q. split; [apply in_or_app; now left|exact K].
    - intros (q & Hq & K1 & K2). apply in_app_or in Hq as [Hq|[<-|[]]]; [apply H; exists q; auto|now apply C].
  Qed.
  Lemma opened_more done used r path : opened done used -> counts_as_segment r = true -> can_open r path -> opened (done ++ [r]) (path :: used).
  Proof.
    intros H C1 C2 q. split.
    - intros [<-|K]; [exists r; split; [apply in_or_app; right; now left|auto]|]. apply H in K as (x & Hx & K). exists x. split; [apply in_or_app; now left|exact K].
    - intros (x & Hx & K1 & K2). apply in_app_or in Hx as [Hx|[<-|[]]]; [right; apply H; exists x; auto|left]. eapply can_open_unique; eassumption.
  Qed.

  Lemma step_presentable done st r st' : opened done (ds_used st) -> r <> [] -> lo_layers (place r) <> [] ->
    step st (run_key r, r) = Ok st' -> presentable reader done r.
  Proof.
    intros HU Hr Hlay H. destruct (run_ends r Hr) as (first & fr & lr & last & Hf & Hl). unfold deep_step in H. rewrite (place_key r Hr) in H. fold (run_lines r) in H.
    destruct (existsb (fun l => is_some (al_segment l)) (run_lines r)) eqn:ES; cbn [negb] in H.
    2:{ constructor; unfold of_a_segment, counts_as_element, counts_as_segment, has_segment_code; rewrite ES; try discriminate; intros [K _]; discriminate. }
    apply bind_ok in H as (stack & Hs & H). pose proof (lookup_returns_of r stack Hs) as LR. apply lookup_ok in Hs. subst stack.
    destruct (existsb (fun l => is_some (al_element l)) (run_lines r)) eqn:EE.
    - constructor; unfold of_a_segment, counts_as_segment; unfold has_data_element; rewrite ?EE, ?andb_false_r; try discriminate; try (intros [_ K]; discriminate).
      + intros _. exact LR.
      + intros CE. unfold counts_as_element in CE. apply andb_true_iff in CE as [_ CE]. rewrite CE in H. cbn [negb] in H. apply bind_ok in H as (d & Hd & _). exists d. apply merge_ok. exact Hd.
    - rewrite Hf in H. rewrite first_of_cons in H. cbn [bind] in H. rewrite <- Hf in H. rewrite Hl in H at 1. rewrite last_of_snoc in H. cbn [bind] in H.
      destruct (opens_iff st r first last fr lr Hf Hl Hlay) as (opens & Ho & Oi). rewrite Ho in H. cbn [bind] in H. apply bind_ok in H as (st1 & H1 & H).
      unfold add_segment in H. apply bind_ok in H as ([] & K1 & H). apply bind_ok in H as ([] & K2 & H). apply check_ok in K2.
      constructor; unfold counts_as_element; unfold has_data_element; rewrite ?EE, ?andb_false_r; try discriminate.
      + intros _. exact LR.
      + intros _. exists lr, last. split; [exact Hl|]. destruct (al_segment last); [discriminate|discriminate K2].
      + intros CS. unfold counts_as_segment in CS. apply andb_true_iff in CS as [_ CS].
        destruct (find (fun l => otruthy (al_expression l)) (run_lines r)) as [x|] eqn:Fd; [|apply find_nothing in Fd; congruence].
        apply bind_ok in H as (sg & Hsg & _). apply new_Segment_iff in Hsg as (e & He & Hb & _). destruct (find_first _ _ Fd) as (b & a & F1 & F2 & F3). exists b, x, a, e. auto.
      + intros _ path [O1 O2]. assert (opens = true) as ->. { apply Oi. exists path. split; [exact O1|]. intros K. apply O2, HU, K. }
        pose proof O1 as (f' & l' & o' & y' & s & A1 & A2 & A3 & A4 & A5 & A6 & A7 & A8). rewrite A6 in H1. apply open_group_expression in H1 as (e & He & Hb).
        exists first, fr, e. split; [exact Hf|]. split; [exact He|]. intros K. apply Hb, blank_strip, K.
  Qed.

  (** the converse: the step returns *)
  Lemma step_idle done st r : opened done (ds_used st) -> r <> [] -> lo_layers (place r) <> [] -> presentable reader done r ->
    counts_as_segment r = false -> counts_as_element r = false -> step st (run_key r, r) = Ok st.
  Proof.
    intros HU Hr Hlay P CS CE. destruct (run_ends r Hr) as (first & fr & lr & last & Hf & Hl). unfold deep_step. rewrite (place_key r Hr). fold (run_lines r).
    destruct (existsb (fun l => is_some (al_segment l)) (run_lines r)) eqn:ES; cbn [negb]; [|reflexivity].
    assert (LR := pr_lookup _ _ _ P ES). apply lookup_iff in LR. rewrite LR. cbn [bind].
    destruct (existsb (fun l => is_some (al_element l)) (run_lines r)) eqn:EE.
    - assert (existsb (fun l => is_some (al_expression l)) (run_lines r) = false) as ->; [|reflexivity].
      unfold counts_as_element, has_segment_code, has_data_element in CE. rewrite ES, EE in CE. exact CE.
    - rewrite Hf, first_of_cons. cbn [bind]. rewrite <- Hf. rewrite Hl at 1. rewrite last_of_snoc. cbn [bind].
      destruct (opens_iff st r first last fr lr Hf Hl Hlay) as (opens & Ho & Oi). rewrite Ho. cbn [bind].
      assert (OS : of_a_segment r) by (split; assumption).
      assert (NE : existsb has_expression (run_lines r) = false) by (unfold counts_as_segment, has_segment_code, has_data_element in CS; rewrite ES, EE in CS; exact CS).
      assert (opens = false) as ->.
      { destruct opens; [|reflexivity]. destruct Oi as [Oi _]. destruct (Oi eq_refl) as (path & O1 & O2). exfalso.
        destruct (pr_group _ _ _ P OS path) as (f & rest & e & E1 & E2 & E3).
        - split; [exact O1|]. intros K. apply O2, HU, K.
        - rewrite E1 in NE. cbn [existsb] in NE. unfold has_expression in NE. rewrite E2 in NE. cbn [otruthy] in NE. rewrite (not_blank_truthy e E3) in NE. discriminate. }
      cbn [bind]. unfold add_segment. rewrite (last_no_element r lr last EE Hl). cbn [is_none check bind].
      destruct (pr_code _ _ _ P OS) as (l' & last' & E & N). rewrite Hl in E. apply app_inj_tail in E as [_ <-]. destruct (al_segment last); [|congruence]. cbn [is_some check bind].
      apply find_nothing in NE. now rewrite NE.
  Qed.
  Lemma step_element done st r ref : r <> [] -> presentable reader done r -> counts_as_element r = true -> ds_elements_here st = Some ref ->
    exists st', step st (run_key r, r) = Ok st'.
  Proof.
    intros Hr P CE ER. pose proof CE as CE'. unfold counts_as_element in CE'. apply andb_true_iff in CE' as [C EX]. apply andb_true_iff in C as [ES EE]. unfold has_segment_code in ES. unfold has_data_element in EE.
    unfold deep_step. rewrite (place_key r Hr). fold (run_lines r). rewrite ES. cbn [negb]. assert (LR := pr_lookup _ _ _ P ES). apply lookup_iff in LR. rewrite LR. cbn [bind].
    rewrite EE, EX. cbn [negb]. destruct (pr_element _ _ _ P CE) as (d & Hd). apply merge_ok in Hd. rewrite Hd. cbn [bind]. rewrite ER. eauto.
  Qed.
  Lemma step_segment_ok done st r : r <> [] -> lo_layers (place r) <> [] -> presentable reader done r -> counts_as_segment r = true ->
    (forall path, can_open r path -> In path (ds_used st)) /\ (exists g, ds_segments_here st = Some g)
    \/ (exists path first fr st1 g, can_open r path /\ ~ In path (ds_used st) /\ run_lines r = first :: fr
          /\ open_group st (place r) path first = Ok st1 /\ ds_segments_here st1 = Some g) ->
    exists st', step st (run_key r, r) = Ok st'.
  Proof.
    intros Hr Hlay P CS D. pose proof CS as CS'. unfold counts_as_segment in CS'. apply andb_true_iff in CS' as [C NE]. apply andb_true_iff in C as [ES EE]. apply negb_true_iff in EE.
    assert (OS : of_a_segment r) by (split; assumption). unfold has_segment_code in ES. unfold has_data_element in EE.
    destruct (run_ends r Hr) as (first & fr & lr & last & Hf & Hl). unfold deep_step. rewrite (place_key r Hr). fold (run_lines r).
    rewrite ES. cbn [negb]. assert (LR := pr_lookup _ _ _ P ES). apply lookup_iff in LR. rewrite LR. cbn [bind]. rewrite EE.
    rewrite Hf, first_of_cons. cbn [bind]. rewrite <- Hf. assert (last_of (run_lines r) = Ok last) as -> by (rewrite Hl; apply last_of_snoc). cbn [bind].
    destruct (opens_iff st r first last fr lr Hf Hl Hlay) as (opens & Ho & Oi). rewrite Ho. cbn [bind].
    assert (Fin : forall st1 g, ds_segments_here st1 = Some g -> exists st', add_segment str_of_location st1 (place r) (stack_of r) (run_lines r) first last = Ok st').
    { intros st1 g Hg. unfold add_segment. rewrite (last_no_element r lr last EE Hl). cbn [is_none check bind].
      destruct (pr_code _ _ _ P OS) as (l' & last' & E & N). rewrite Hl in E. apply app_inj_tail in E as [_ <-]. destruct (al_segment last); [|congruence]. cbn [is_some check bind].
      destruct (pr_segment _ _ _ P CS) as (b & l & a & e & E1 & E2 & E3 & E4). rewrite E1, (find_some b l a e E2 E3 E4), E3.
      match goal with |- context [new_Segment ?d ?x ?i ?el ?sec None] => assert (exists s, new_Segment d x i el sec None = Ok s) as (s & ->) by (eexists; apply new_Segment_iff; eauto) end.
      cbn [bind]. rewrite Hg. eexists. reflexivity. }
    destruct D as [[D (g & Hg)]|(path & first' & fr' & st1 & g & D1 & D2 & D3 & D4 & D5)].
    - assert (opens = false) as ->. { destruct opens; [|reflexivity]. destruct Oi as [Oi _]. destruct (Oi eq_refl) as (path & O1 & O2). exfalso. apply O2, D, O1. }
      cbn [bind]. eapply Fin; exact Hg.
    - assert (opens = true) as -> by (apply Oi; eauto). rewrite Hf in D3. injection D3 as <- <-.
      pose proof D1 as (f' & l' & o' & y' & s & A1 & A2 & A3 & A4 & A5 & A6 & A7 & A8). rewrite A6. subst path. rewrite D4. cbn [bind]. rewrite <- A6. eapply Fin; exact D5.
  Qed.

  (** ** the invariant *)
  Record W (done : list Run) (st : DeepState) (ds : list nat) (p : option Location) (f : list IT) (spine : list nat) : Prop := {
    w_cons : consistent (ds_heap st) f spine;
    w_used : opened done (ds_used st);
    w_ds : map (fun x => S (List.length (fst x))) (ancs [] f) = ds;
    w_order : ds_used st = rev (map disc (infos (ds_heap st)));
    w_mode : (ds = [] /\ p = None /\ st = initial_deep_state /\ spine = [])
      \/ (spine <> [] /\ here st spine /\ (exists u, ds_used st = u ++ [root_discriminator])
          /\ (exists is x ss s, infos (ds_heap st) = is ++ [x] /\ segs x = ss ++ [s]
                /\ ds_segments_here st = Some (List.length is) /\ ds_elements_here st = Some (List.length is, List.length ss))
          /\ (exists q, p = Some q /\ ds_previous st = Some q /\ lo_pseudo q = false)
          /\ exists ds0, ds = ds0 ++ [List.length spine])
  }.
  Lemma w_initial : W [] initial_deep_state [] None [] [].
  Proof.
    constructor; cbn; try reflexivity; auto.
    - split; [reflexivity|]. split; [constructor|]. split; [reflexivity|constructor].
    - intros path. split; [intros []|intros (r & [] & _)].
  Qed.
  Lemma used_infos_same st is x y : infos (ds_heap st) = is ++ [x] -> disc x = disc y -> forall is', is' = is ++ [y] -> map disc is' = map disc (infos (ds_heap st)).
  Proof. intros -> E is' ->. rewrite !map_app. cbn. now rewrite E. Qed.

  Lemma w_step done st ds p f spine r st' : W done st ds p f spine -> r <> [] -> lo_pseudo (place r) = false ->
    step st (run_key r, r) = Ok st' ->
    exists ds' p' f' spine', W (done ++ [r]) st' ds' p' f' spine' /\ (walk reader done ds p -> walk reader (done ++ [r]) ds' p').
  Proof.
    intros [V1 V2 V3 VO V4] Hr Hps Hstep. apply (step_spec reader str_of_location st r st' Hr) in Hstep.
    destruct Hstep as [CS CE ->|d ref CS CE Hd Href ->|st1 g s CS Hs Hs0 Hopen Hg ->].
    - exists ds, p, f, spine. split; [|intros Wk; now constructor]. constructor; auto. now apply opened_snoc.
    - destruct V4 as [(-> & -> & -> & ->)|(M1 & M2 & M3 & (is & x & ss & s & E1 & E2 & E3 & E4) & (q & -> & M5 & M6) & M7)]; [discriminate|].
      rewrite Href in E4. injection E4 as ->.
      assert (Ei := append_element_infos (ds_heap st) is x ss s d E1 E2).
      exists ds, (Some (place r)), f, spine. split; [|intros Wk; eapply walk_element; eassumption]. constructor; cbn [ds_heap ds_used].
      + apply update_cell_consistent; [exact V1|reflexivity].
      + now apply opened_snoc.
      + exact V3.
      + rewrite VO. f_equal. rewrite Ei, E1, !map_app. reflexivity.
      + right. split; [exact M1|]. split; [exact M2|]. split; [exact M3|]. split; [|split; [eauto|exact M7]].
        exists is, (with_segs x (ss ++ [add_element d s])), ss, (add_element d s). cbn [ds_heap ds_segments_here ds_elements_here]. auto 8.
    - destruct Hopen as [[-> Hno]|(path & first & Hcan & Hnu & Hhd & Hog)].
      + destruct V4 as [(-> & -> & -> & ->)|(M1 & M2 & M3 & (is & x & ss & s0 & E1 & E2 & E3 & E4) & (q & -> & M5 & M6) & M7)]; [discriminate|].
        rewrite Hg in E3. injection E3 as ->.
        assert (Ei := append_segment_infos (ds_heap st) is x s E1).
        exists ds, (Some (place r)), f, spine. split.
        2:{ intros Wk. eapply walk_segment; [eassumption|exact CS|]. intros path Hp. apply V2, Hno, Hp. }
        constructor; cbn [ds_heap ds_used].
        * apply update_cell_consistent; [exact V1|reflexivity].
        * now apply opened_same.
        * exact V3.
        * rewrite VO. f_equal. rewrite Ei, E1, !map_app. reflexivity.
        * right. split; [exact M1|]. split; [exact M2|]. split; [exact M3|]. split; [|split; [eauto|exact M7]].
          exists is, (with_segs x (segs x ++ [s])), (segs x), s. cbn [ds_heap ds_segments_here ds_elements_here]. rewrite (segment_count_infos _ _ _ E1). auto 8.
      + assert (M : st = initial_deep_state \/ here st spine /\ In root_discriminator (ds_used st)).
        { destruct V4 as [(_ & _ & -> & _)|(_ & M2 & (u & M3) & _)]; [now left|right]. split; [exact M2|]. rewrite M3. apply in_or_app. right. now left. }
        destruct (open_group_spec st (place r) path first st1 f spine V1 M Hnu Hog) as (d & f1 & e & Ld & Dd & He & C1 & C2 & C3 & C4 & C5 & C6 & C7).
        set (n := List.length (hp_cells (ds_heap st))) in *. rewrite Hg in C5. injection C5 as ->.
        assert (Hn : n = List.length (infos (ds_heap st))) by (unfold infos; now rewrite map_length).
        assert (Ei := append_segment_infos (ds_heap st1) (infos (ds_heap st)) _ s C3). rewrite <- Hn in Ei.
        assert (Common : forall ds', map (fun x => S (List.length (fst x))) (ancs [] f1) = ds' -> (exists ds0, ds' = ds0 ++ [S d]) -> (exists u, ds_used st1 = u ++ [root_discriminator]) ->
          W (done ++ [r]) (mkDS (append_segment n s (ds_heap st1)) (ds_segments_here st1) (ds_sg_here st1) (Some (n, segment_count (ds_heap st1) n)) (Some (place r)) (ds_parents st1) (ds_used st1))
            ds' (Some (place r)) f1 (firstn d spine ++ [n])).
        { intros ds' Hds Hds0 Hu. constructor; cbn [ds_heap ds_used].
          - apply update_cell_consistent; [exact C1|reflexivity].
          - rewrite C4. now apply opened_more.
          - exact Hds.
          - rewrite C4, VO, Ei, map_app, rev_app_distr. reflexivity.
          - right. split; [destruct (firstn d spine); discriminate|]. split; [exact C6|]. split; [exact Hu|]. split; [|split; [eauto|]].
            + exists (infos (ds_heap st)), (with_segs (path, strip e, al_index first, []) (segs (path, strip e, al_index first, []) ++ [s])), [], s. cbn [ds_heap ds_segments_here ds_elements_here].
              split; [exact Ei|]. split; [reflexivity|]. rewrite <- Hn. split; [exact Hg|]. rewrite Hn, (segment_count_infos _ _ _ C3). reflexivity.
            + destruct Hds0 as (ds0 & ->). exists ds0. f_equal. f_equal. rewrite app_length, firstn_length. cbn. lia. }
        assert (Dep : map (fun x => S (List.length (fst x))) (ancs [] f1) = ds ++ [S d]).
        { rewrite C2, map_app, V3. cbn [map fst]. rewrite firstn_length. replace (Nat.min d (List.length spine)) with d by lia. reflexivity. }
        destruct V4 as [(-> & -> & -> & ->)|(M1 & M2 & (u & M3) & _ & (q & -> & M5 & M6) & (ds0 & M7))].
        * assert (d = 0) as -> by (cbn in Ld; lia). rewrite C4 in C7. cbn [initial_deep_state ds_used] in *. destruct C7 as [C7|[]]. subst path.
          exists [1], (Some (place r)), f1, (firstn 0 [] ++ [n]). split.
          -- apply Common; [exact Dep|exists []; reflexivity|]. rewrite C4. exists []. reflexivity.
          -- intros Wk. rewrite first_group_root in Hcan. exact (walk_first reader done r Wk CS Hcan).
        * exists (ds ++ [S d]), (Some (place r)), f1, (firstn d spine ++ [n]). split.
          -- apply Common; [exact Dep|eauto|]. rewrite C4, M3. exists (path :: u). reflexivity.
          -- intros Wk. rewrite M7 in Wk |- *. apply (walk_group reader done ds0 q r (List.length spine) (S d) path); auto.
             ++ split; [exact Hcan|]. intros K. apply Hnu, V2, K.
             ++ eapply depth_goes; try eassumption. eapply spine_cells; eassumption.
  Qed.
  Definition plain (r : Run) : Prop := r <> [] /\ lo_pseudo (place r) = false /\ lo_layers (place r) <> [].
  Definition steps st (runs : list Run) := foldM step st (map (fun r => (run_key r, r)) runs).
  Lemma steps_snoc st runs r : steps st (runs ++ [r]) = let* st1 := steps st runs in step st1 (run_key r, r).
  Proof. unfold steps. rewrite map_app, foldM_app. cbn [map foldM]. destruct (foldM step st (map (fun r => (run_key r, r)) runs)) as [st1|e]; cbn [bind]; [|reflexivity]. destruct (step st1 (run_key r, r)); reflexivity. Qed.
  Lemma w_loop runs st : (forall r, In r runs -> plain r) -> steps initial_deep_state runs = Ok st ->
    (forall before r after, runs = before ++ r :: after -> presentable reader before r)
    /\ exists ds p f spine, W runs st ds p f spine /\ walk reader runs ds p.
  Proof.
    revert st. induction runs as [|r runs IH] using rev_ind; intros st Hp H.
    - injection H as <-. split; [intros [|? ?]; discriminate|]. exists [], None, [], []. split; [exact w_initial|constructor].
    - rewrite steps_snoc in H. apply bind_ok in H as (st1 & H1 & H). destruct (IH st1 ltac:(intros x Hx; apply Hp, in_or_app; now left) H1) as (P & ds & p & f & spine & V & Wk).
      destruct (Hp r ltac:(apply in_or_app; right; now left)) as (R1 & R2 & R3). split.
      + intros before x after E. destruct (rev_case after) as [-> |(a & y & ->)].
        * apply app_inj_tail in E as [<- <-]. eapply step_presentable; [exact (w_used _ _ _ _ _ _ V)|exact R1|exact R3|exact H].
        * change (before ++ x :: a ++ [y]) with (before ++ (x :: a) ++ [y]) in E. rewrite app_assoc in E. apply app_inj_tail in E as [-> _]. exact (P before x a eq_refl).
      + destruct (w_step _ _ _ _ _ _ r st V R1 R2 H) as (ds' & p' & f' & spine' & V' & Wk'). exists ds', p', f', spine'. auto.
  Qed.
  Lemma loop_returns runs ds p : walk reader runs ds p -> (forall r, In r runs -> plain r) ->
    (forall before r after, runs = before ++ r :: after -> presentable reader before r) -> exists st, steps initial_deep_state runs = Ok st.
  Proof.
    intros Wk.
    assert (Go : forall runs r ds p, walk reader runs ds p -> ((forall r, In r runs -> plain r) -> (forall before r after, runs = before ++ r :: after -> presentable reader before r) -> exists st, steps initial_deep_state runs = Ok st) ->
       (forall x, In x (runs ++ [r]) -> plain x) -> (forall before x after, runs ++ [r] = before ++ x :: after -> presentable reader before x) ->
       (forall st f spine, W runs st ds p f spine -> plain r -> presentable reader runs r -> exists st', step st (run_key r, r) = Ok st') ->
       exists st, steps initial_deep_state (runs ++ [r]) = Ok st).
    { intros rs r ds0 p0 Wk0 IH Hp Hq K.
      assert (Hp1 : forall x, In x rs -> plain x) by (intros x Hx; apply Hp, in_or_app; now left).
      destruct IH as (st & Hst); [exact Hp1|intros b x a ->; apply (Hq b x (a ++ [r])); now rewrite <- app_assoc|].
      destruct (w_loop rs st Hp1 Hst) as (_ & ds1 & p1 & f & spine & V & Wk1). destruct (walk_unique _ _ _ Wk0 _ _ Wk1) as [<- <-].
      destruct (K st f spine V) as (st' & Hst'); [apply Hp, in_or_app; right; now left|exact (Hq rs r [] eq_refl)|]. exists st'. rewrite steps_snoc, Hst. exact Hst'. }
    induction Wk as [|runs ds p r Wk IH C1 C2|runs r Wk IH C1 C2|runs ds p r Wk IH C1|runs ds p r Wk IH C1 C2|runs ds p r d d' path Wk IH C1 C2 C3]; intros Hp Hq.
    - exists initial_deep_state. reflexivity.
    - apply (Go runs r ds p); auto. intros st f spine V (R1 & R2 & R3) P. exists st. eapply step_idle; try eassumption. exact (w_used _ _ _ _ _ _ V).
    - apply (Go runs r [] None); auto. intros st f spine V (R1 & R2 & R3) P. destruct (w_mode _ _ _ _ _ _ V) as [(_ & _ & -> & ->)|(_ & _ & _ & _ & (q & K & _) & _)]; [|discriminate].
      destruct (pr_group _ _ _ P) with (path := first_group) as (first & rest & e & E1 & E2 & E3).
      + unfold counts_as_segment in C1. apply andb_true_iff in C1 as [C1 _]. apply andb_true_iff in C1 as [C1 C3]. apply negb_true_iff in C3. split; assumption.
      + split; [exact C2|]. intros K. apply (w_used _ _ _ _ _ _ V) in K. destruct K.
      + apply (step_segment_ok runs initial_deep_state r); auto. right.
        assert (G : new_SegmentGroup first_group (Some (strip e)) (al_index first) (Some []) (Some []) = Ok (mkGroup first_group (strip e) (al_index first) (Some []) (Some []))).
        { apply new_SegmentGroup_ok. exists (strip e). split; [reflexivity|]. split; [now rewrite blank_strip|reflexivity]. }
        eexists first_group, first, rest, _, _. split; [exact C2|]. split; [intros []|]. split; [exact E1|].
        unfold open_group. rewrite E2. cbn [option_map]. rewrite G. cbn [bind g_discriminator]. rewrite first_group_root. rewrite (proj2 (str_eqb_eq first_group first_group) eq_refl). split; reflexivity.
    - apply (Go runs r ds (Some p)); auto. intros st f spine V (R1 & R2 & R3) P. destruct (w_mode _ _ _ _ _ _ V) as [(_ & K & _)|(_ & _ & _ & (is & x & ss & s & _ & _ & _ & E4) & _)]; [discriminate|].
      eapply step_element; eassumption.
    - apply (Go runs r ds (Some p)); auto. intros st f spine V (R1 & R2 & R3) P. destruct (w_mode _ _ _ _ _ _ V) as [(_ & K & _)|(_ & _ & _ & (is & x & ss & s & _ & _ & E3 & _) & _)]; [discriminate|].
      apply (step_segment_ok runs st r); auto. left. split; [|eauto]. intros path Hpath. apply (w_used _ _ _ _ _ _ V), C2, Hpath.
    - apply (Go runs r (ds ++ [d]) (Some p)); auto. intros st f spine V (R1 & R2 & R3) P. destruct (w_mode _ _ _ _ _ _ V) as [(_ & K & _)|(M1 & M2 & (u & M3) & _ & (q & Eq & M5 & M6) & (ds0 & M7))]; [discriminate|].
      injection Eq as <-. apply app_inj_tail in M7 as [_ ->]. destruct C2 as [C2 C4].
      assert (NU : ~ In path (ds_used st)) by (intros K; apply C4, (w_used _ _ _ _ _ _ V), K).
      destruct (pr_group _ _ _ P) with (path := path) as (first & rest & e & E1 & E2 & E3).
      + unfold counts_as_segment in C1. apply andb_true_iff in C1 as [C1 _]. apply andb_true_iff in C1 as [C1 C5]. apply negb_true_iff in C5. split; assumption.
      + split; assumption.
      + assert (Er : str_eqb path root_discriminator = false).
        { destruct (str_eqb path root_discriminator) eqn:K; [|reflexivity]. apply str_eqb_eq in K. subst path. exfalso. apply NU. rewrite M3. apply in_or_app. right. now left. }
        destruct (open_group_ok st (place r) path first p f spine d' e (w_cons _ _ _ _ _ _ V) M2 Er M5 M6 R2 E2 E3 C3) as (st1 & H1).
        apply (step_segment_ok runs st r); auto. right. 
        destruct (open_group_spec st (place r) path first st1 f spine (w_cons _ _ _ _ _ _ V)) as (dd & f1 & e1 & _ & _ & _ & _ & _ & _ & _ & K & _); auto.
        { right. split; [exact M2|]. rewrite M3. apply in_or_app. right. now left. }
        eauto 10.
  Qed.
End Success.

Section Result.
  Variable reader : Location -> result EdifactStack.
  Variable str_of_location : Location -> pystr.
  Lemma fst_to_deep flat h : fst (to_deep_ahb reader str_of_location flat h) =
    let* located := determine_locations h (fa_lines flat) in
    let* st := steps reader str_of_location initial_deep_state (map snd (groupby rq located)) in
    Ok (mkDeep (stamp_version (fa_meta flat)) (render_lines (ds_heap st))).
  Proof.
    unfold to_deep_ahb. cbn [fst]. destruct (determine_locations h (fa_lines flat)) as [located|e]; cbn [bind]; [|reflexivity].
    change (fun x : AhbLine * Location => remove_qualifier (snd x)) with rq. destruct (groupby_spec located) as (GE & _). cbv zeta in GE. unfold steps. rewrite <- GE. reflexivity.
  Qed.
  Lemma runs_plain h lines located : determine_locations h lines = Ok located -> forall r, In r (map snd (groupby rq located)) -> plain r.
  Proof.
    intros HL r Hr. destruct (groupby_spec located) as (_ & GC & GR & _). cbv zeta in *. destruct (GR r Hr) as [Hne _].
    assert (Sub : forall y, In y r -> In y located) by (intros y Hy; rewrite <- GC; apply in_concat; eauto).
    pose proof (located_plain h lines located HL) as PL. pose proof (located_layers h lines located HL) as LL. rewrite Forall_forall in PL, LL.
    split; [exact Hne|]. split; [apply place_plain|apply place_layers; [exact Hne|]]; apply Forall_forall; auto.
  Qed.
End Result.
