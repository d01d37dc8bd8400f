(** Lemmas: the main loop of to_deep_ahb. *)
From Coq Require Import Ascii String List NArith ZArith Bool Lia Arith.
From Verif Require Import PyBase PyStr PyRe M_Components M_Ahb M_Sgh M_Navigation M_Matching
  S_Prefix S_Text S_ValuePool S_Navigation S_Matching L_Base L_Prefix L_Str L_Validators L_Matching L_DeepTree.
Import ListNotations.
Local Open Scope list_scope.

Definition Info := (pystr * pystr * option Z * list Segment)%type.
Definition info (c : GroupCell) : Info := (gc_discriminator c, gc_expression c, gc_index c, gc_segments c).
Definition infos (h : Heap) : list Info := map info (hp_cells h).
Definition disc (i : Info) : pystr := fst (fst (fst i)).
Definition segs (i : Info) : list Segment := snd i.
Definition with_segs (i : Info) (l : list Segment) : Info := (fst i, l).

Lemma map_ext_nth {A B C} (f : A -> C) (g : B -> C) (l : list A) : forall l' : list B,
  (forall n, option_map f (nth_error l n) = option_map g (nth_error l' n)) -> map f l = map g l'.
Proof.
  induction l as [|a l IH]; intros [|b l'] H.
  - reflexivity.
  - specialize (H 0). discriminate.
  - specialize (H 0). discriminate.
  - cbn [map]. pose proof (H 0) as H0. injection H0 as ->. f_equal. apply IH. intros n. exact (H (S n)).
Qed.
Lemma infos_last h l x : infos h = l ++ [x] -> exists cs c, hp_cells h = cs ++ [c] /\ map info cs = l /\ info c = x.
Proof.
  unfold infos. intros H. destruct (rev_case (hp_cells h)) as [E|(cs & c & E)]; rewrite E in H; [destruct l; discriminate|].
  rewrite map_app in H. apply app_inj_tail in H as [<- <-]. eauto.
Qed.
Lemma update_last h g k cs c : hp_cells h = cs ++ [c] -> g = List.length cs -> hp_cells (update_cell g k h) = cs ++ [k c].
Proof.
  intros E ->. unfold update_cell. rewrite E, nth_error_app2, Nat.sub_diag by reflexivity. cbn [nth_error hp_cells].
  clear E. induction cs as [|x cs IH]; cbn; [reflexivity|]. now rewrite IH.
Qed.
Lemma append_segment_infos h l x s : infos h = l ++ [x] ->
  infos (append_segment (List.length l) s h) = l ++ [with_segs x (segs x ++ [s])].
Proof.
  intros H. apply infos_last in H as (cs & c & E & <- & <-). rewrite map_length. unfold append_segment, infos.
  rewrite (update_last _ _ _ cs c E eq_refl), map_app. reflexivity.
Qed.
Lemma append_element_infos h l x ss s d : infos h = l ++ [x] -> segs x = ss ++ [s] ->
  infos (append_element (List.length l, List.length ss) d h) = l ++ [with_segs x (ss ++ [add_element d s])].
Proof.
  intros H Hs. apply infos_last in H as (cs & c & E & <- & <-). rewrite map_length. unfold append_element, infos. cbn [fst snd].
  rewrite (update_last _ _ _ cs c E eq_refl), map_app. cbn [map]. unfold segs in Hs. cbn in Hs. f_equal. f_equal. unfold info, with_segs; cbn [fst gc_discriminator gc_expression gc_index gc_segments].
  rewrite Hs, nth_error_app2, Nat.sub_diag by reflexivity. cbn [nth_error]. f_equal.
  clear. induction ss as [|y ss IH]; cbn; [reflexivity|]. now rewrite IH.
Qed.
Lemma segment_count_infos h l x : infos h = l ++ [x] -> segment_count h (List.length l) = List.length (segs x).
Proof.
  intros H. apply infos_last in H as (cs & c & E & <- & <-). rewrite map_length. unfold segment_count. rewrite E, nth_error_app2, Nat.sub_diag by reflexivity. reflexivity.
Qed.

Lemma Forall2_length {A B} (R : A -> B -> Prop) l m : Forall2 R l m -> List.length l = List.length m.
Proof. induction 1; cbn; congruence. Qed.
Section Loop.
  Variable reader : Location -> result EdifactStack.
  Variable str_of_location : Location -> pystr.
  Notation stack_of := (stack_of reader).
  Notation segment_of_run := (segment_of_run reader str_of_location).
  Notation element_of_run := (element_of_run reader).
  Notation section_becomes := (section_becomes reader str_of_location).
  Notation can_open := (can_open reader).
  Notation part_becomes := (part_becomes reader str_of_location).

  Lemma retry_ok n p s : retry_stack reader n p = Ok s -> n <> 0 -> s = match reader p with Ok x => Some x | Raise _ => None end.
  Proof.
    induction n as [|n IH]; intros H Hn; [congruence|]. cbn [retry_stack] in H. destruct (reader p) as [x|e] eqn:E; [congruence|].
    destruct e; try discriminate. destruct n; [cbn in H; congruence|]. apply IH; [exact H|discriminate].
  Qed.
  Lemma lookup_ok r s : lookup_stack reader (place r) r = Ok s -> s = stack_of r.
  Proof.
    unfold lookup_stack, S_Matching.stack_of. destruct (reader (place r)) as [x|e]; [congruence|]. destruct e; try discriminate.
    destruct r as [|[l p] [|y r]]; cbn [List.length Nat.ltb Nat.leb]; [congruence|congruence|]. intros H. apply retry_ok in H; [|discriminate]. exact H.
  Qed.

  Lemma find_first l x : find (fun l => otruthy (al_expression l)) l = Some x ->
    exists before after, l = before ++ x :: after /\ existsb has_expression before = false /\ has_expression x = true.
  Proof.
    induction l as [|y l IH]; cbn [find]; [discriminate|]. destruct (otruthy (al_expression y)) eqn:E.
    - intros [= <-]. exists [], l. auto.
    - intros H. destruct (IH H) as (b & a & -> & Hb & Hx). exists (y :: b), a. split; [reflexivity|]. split; [|exact Hx]. cbn [existsb]. unfold has_expression at 1. rewrite E. exact Hb.
  Qed.
  Lemma find_nothing l : find (fun l => otruthy (al_expression l)) l = None <-> existsb has_expression l = false.
  Proof.
    induction l as [|y l IH]; cbn [find existsb]; [tauto|]. unfold has_expression at 1. destruct (otruthy (al_expression y)); [cbn; split; discriminate|]. exact IH.
  Qed.
  Lemma new_SegmentGroup_ok p e i a b g : new_SegmentGroup p e i a b = Ok g <-> exists x, e = Some x /\ ~ blank x /\ g = mkGroup p x i a b.
  Proof.
    unfold new_SegmentGroup. rewrite bind_ok. split.
    - intros (x & Hx & H). apply bind_ok in H as (y & Hy & [= <-]). apply check_is_str_ok in Hx. exists x. split; [exact Hx|]. split; [|reflexivity].
      destruct y. apply check_not_blank_ok in Hy as (z & [= ->] & Hz). exact Hz.
    - intros (x & -> & Hb & ->). exists x. split; [now apply check_is_str_ok|]. apply bind_ok. exists tt. split; [apply check_not_blank_ok; eauto|reflexivity].
  Qed.
  Lemma new_Segment_ok p e i els sec id s : new_Segment p e i els sec id = Ok s -> exists x, e = Some x /\ s = mkSegment p x i els sec id.
  Proof.
    unfold new_Segment. rewrite bind_ok. intros (x & Hx & H). apply bind_ok in H as (y & Hy & H). apply bind_ok in H as (z & Hz & [= <-]).
    apply check_is_str_ok in Hx. eauto.
  Qed.

  (** ** one step *)
  Inductive step_case (st : DeepState) (r : Run) (st' : DeepState) : Prop :=
  | step_nothing : counts_as_segment r = false -> counts_as_element r = false -> st' = st -> step_case st r st'
  | step_element d ref : counts_as_segment r = false -> counts_as_element r = true -> element_of_run r d ->
      ds_elements_here st = Some ref ->
      st' = mkDS (append_element ref d (ds_heap st)) (ds_segments_here st) (ds_sg_here st)
                 (ds_elements_here st) (Some (place r)) (ds_parents st) (ds_used st) ->
      step_case st r st'
  | step_segment st1 g s : counts_as_segment r = true -> segment_of_run r s -> seg_elements s = [] ->
      (st1 = st /\ (forall path, can_open r path -> In path (ds_used st))
       \/ exists path first, can_open r path /\ ~ In path (ds_used st) /\ hd_error (run_lines r) = Some first
            /\ open_group st (place r) path first = Ok st1) ->
      ds_segments_here st1 = Some g ->
      st' = mkDS (append_segment g s (ds_heap st1)) (ds_segments_here st1) (ds_sg_here st1)
                 (Some (g, segment_count (ds_heap st1) g)) (Some (place r)) (ds_parents st1) (ds_used st1) ->
      step_case st r st'.

  Lemma open_group_expression st p path first st' : open_group st p path first = Ok st' -> exists e, al_expression first = Some e /\ ~ blank (strip e).
  Proof.
    unfold open_group. rewrite bind_ok. intros (g & Hg & _). apply new_SegmentGroup_ok in Hg as (x & Hx & Hb & _).
    destruct (al_expression first) as [e|]; [|discriminate]. injection Hx as <-. eauto.
  Qed.
  Lemma blank_nil : blank []. Proof. unfold blank. constructor. Qed.
  Lemma step_spec st r st' : r <> [] -> deep_step reader str_of_location st (run_key r, r) = Ok st' -> step_case st r st'.
  Proof.
    intros Hr H. unfold deep_step in H. rewrite (place_key r Hr) in H. fold (run_lines r) in H.
    destruct (existsb (fun l => is_some (al_segment l)) (run_lines r)) eqn:ES; cbn [negb] in H.
    2:{ apply step_nothing; [unfold counts_as_segment, has_segment_code; now rewrite ES|unfold counts_as_element, has_segment_code; now rewrite ES|congruence]. }
    apply bind_ok in H as (stack & Hs & H). apply lookup_ok in Hs. subst stack.
    destruct (existsb (fun l => is_some (al_element l)) (run_lines r)) eqn:EE.
    - assert (CS : counts_as_segment r = false) by (unfold counts_as_segment, has_segment_code, has_data_element; now rewrite ES, EE).
      destruct (existsb (fun l => is_some (al_expression l)) (run_lines r)) eqn:EX; cbn [negb] in H.
      2:{ apply step_nothing; [exact CS|unfold counts_as_element; rewrite EX; apply andb_false_r|congruence]. }
      apply bind_ok in H as (d & Hd & H). destruct (ds_elements_here st) as [ref|] eqn:ER; [|discriminate].
      apply (step_element _ _ _ d ref); [exact CS|unfold counts_as_element, has_segment_code, has_data_element; now rewrite ES, EE, EX|apply merge_ok; exact Hd|exact ER|]. rewrite ER. congruence.
    - assert (CE : counts_as_element r = false) by (unfold counts_as_element, has_segment_code, has_data_element; now rewrite ES, EE).
      apply bind_ok in H as (first & Hf & H). apply bind_ok in H as (last & Hl & H). apply bind_ok in H as (opens & Ho & H). apply bind_ok in H as (st1 & H1 & H).
      apply first_of_ok in Hf as (fr & Hf). apply last_of_ok in Hl as (lr & Hl).
      assert (Hhd : hd_error (run_lines r) = Some first) by now rewrite Hf.
      unfold opens_group in Ho. apply bind_ok in Ho as (layer & Hlay & Ho). apply last_of_ok in Hlay as (outer & Hlay).
      match type of Ho with Ok ?b = Ok ?c => assert (Ho' : b = c) by congruence; clear Ho; rename Ho' into Ho end.
      assert (Oc : (st1 = st /\ (forall path, can_open r path -> In path (ds_used st)))
        \/ exists path, can_open r path /\ ~ In path (ds_used st) /\ open_group st (place r) path first = Ok st1).
      { destruct opens.
        - right. apply andb_true_iff in Ho as [Ho O4]. apply andb_true_iff in Ho as [Ho O3]. apply andb_true_iff in Ho as [O1 O2].
          apply ostr_eqb_eq in O1, O2. destruct (stack_of r) as [s|] eqn:Es; [|discriminate]. exists (to_json_path s). split; [|split; [|exact H1]].
          + exists first, last, outer, layer, s. repeat split; eauto. destruct (al_expression first); [discriminate|discriminate O4].
          + intros K. apply str_in_In in K. rewrite K in O3. discriminate.
        - left. split; [congruence|]. intros path (f' & l' & o' & y' & s & A1 & (lr' & A2) & A3 & A4 & A5 & A6 & -> & A7).
          rewrite A1 in Hhd. injection Hhd as ->. rewrite Hl in A2. apply app_inj_tail in A2 as [_ <-]. rewrite Hlay in A3. apply app_inj_tail in A3 as [_ <-].
          rewrite A4, A5, A6 in Ho. rewrite !ostr_eqb_refl in Ho. destruct (al_expression first); [|congruence]. cbn [is_some andb] in Ho. rewrite andb_true_r in Ho.
          apply negb_false_iff in Ho. now apply str_in_In. }
      unfold add_segment in H. apply bind_ok in H as ([] & _ & H). apply bind_ok in H as ([] & _ & H).
      destruct (find (fun l => otruthy (al_expression l)) (run_lines r)) as [x|] eqn:Fd.
      + apply bind_ok in H as (s & Hs & H). apply new_Segment_ok in Hs as (e & He & ->). destruct (ds_segments_here st1) as [g|] eqn:Eg; [|discriminate].
        destruct (find_first _ _ Fd) as (before & after & F1 & F2 & F3). injection H as <-.
        apply (step_segment _ _ _ st1 g (mkSegment (match stack_of r with None => str_of_location (place r) | Some s => to_json_path s end) e (al_index first) [] (al_section first) None)).
        * unfold counts_as_segment, has_segment_code, has_data_element. rewrite ES, EE. cbn [andb negb]. rewrite F1, existsb_app. cbn [existsb]. rewrite F3. apply orb_true_r.
        * split; [|split; [|split]]; cbn [seg_discriminator seg_expression seg_index seg_section seg_id]; [|eauto 8|eauto 8|reflexivity]. destruct (stack_of r); reflexivity.
        * reflexivity.
        * destruct Oc as [Oc|(path & O1 & O2 & O3)]; [left; exact Oc|right]. eauto 8.
        * exact Eg.
        * rewrite Eg. reflexivity.
      + assert (st1 = st) as ->.
        { destruct Oc as [[-> _]|(path & O1 & O2 & O3)]; [reflexivity|]. exfalso. apply open_group_expression in O3 as (e & He & Hb).
          apply find_nothing in Fd. rewrite Hf in Fd. cbn [existsb] in Fd. apply orb_false_iff in Fd as [Fd _]. unfold has_expression in Fd. rewrite He in Fd.
          destruct e; [|discriminate]. apply Hb. exact blank_nil. }
        apply step_nothing; [|exact CE|congruence]. unfold counts_as_segment. apply find_nothing in Fd. rewrite Fd. apply andb_false_r.
  Qed.

  (** ** opening a group *)
  Definition here (st : DeepState) (spine : list nat) : Prop := exists r, ds_sg_here st = Some r /\ r :: ds_parents st = stack_for spine.
  Definition depth_of (st : DeepState) (spine : list nat) (pos : Location) (d : nat) : Prop :=
    (hp_cells (ds_heap st) = [] /\ d = 0)
    \/ exists prev, ds_previous st = Some prev
         /\ (is_sub_location_of pos prev = true /\ d = List.length spine
             \/ is_sub_location_of pos prev = false /\ exists dist, calculate_distance prev pos = Ok dist /\ d + layers_up dist = List.length spine + (layers_down dist - 1)
               /\ layers_up dist <= List.length spine).
  Lemma open_group_spec st pos path first st1 f spine :
    consistent (ds_heap st) f spine ->
    (st = initial_deep_state \/ here st spine /\ In root_discriminator (ds_used st)) -> ~ In path (ds_used st) ->
    open_group st pos path first = Ok st1 ->
    let id := List.length (hp_cells (ds_heap st)) in
    exists d f1 e, d <= List.length spine /\ depth_of st spine pos d /\ al_expression first = Some e
      /\ consistent (ds_heap st1) f1 (firstn d spine ++ [id]) /\ ancs [] f1 = ancs [] f ++ [(firstn d spine, id)]
      /\ infos (ds_heap st1) = infos (ds_heap st) ++ [(path, strip e, al_index first, [])]
      /\ ds_used st1 = path :: ds_used st /\ ds_segments_here st1 = Some id
      /\ here st1 (firstn d spine ++ [id]) /\ In root_discriminator (ds_used st1).
  Proof.
    intros C M NU H id. unfold open_group in H. apply bind_ok in H as (g & Hg & H). apply new_SegmentGroup_ok in Hg as (x & Hx & Hb & ->).
    destruct (al_expression first) as [e|] eqn:Ee; [|discriminate]. injection Hx as <-. cbn [g_discriminator g_expression g_index] in H.
    set (c0 := mkCell path (strip e) (al_index first) [] []) in *.
    set (heap := mkHeap (hp_lines (ds_heap st)) (hp_cells (ds_heap st) ++ [c0])) in *. fold id in H.
    assert (Done : forall d r ps, d <= List.length spine -> depth_of st spine pos d -> r :: ps = stack_for (firstn d spine) ->
       st1 = mkDS (append_group r id heap) (Some id) (Some (RefGroups id)) (ds_elements_here st) (ds_previous st) (r :: ps) (path :: ds_used st) ->
       In root_discriminator (path :: ds_used st) ->
       exists d f1 e0, d <= List.length spine /\ depth_of st spine pos d /\ Some e = Some e0
      /\ consistent (ds_heap st1) f1 (firstn d spine ++ [id]) /\ ancs [] f1 = ancs [] f ++ [(firstn d spine, id)]
      /\ infos (ds_heap st1) = infos (ds_heap st) ++ [(path, strip e0, al_index first, [])]
      /\ ds_used st1 = path :: ds_used st /\ ds_segments_here st1 = Some id
      /\ here st1 (firstn d spine ++ [id]) /\ In root_discriminator (ds_used st1)).
    { intros d r ps Ld Hd Hs -> Hroot. destruct (append_group_consistent (ds_heap st) f spine d c0 r ps C Ld eq_refl Hs) as (f1 & A1 & A2 & A3 & A4).
      fold id heap in A1, A2, A3, A4. exists d, f1, e. cbn [ds_heap ds_used ds_segments_here]. split; [exact Ld|]. split; [exact Hd|]. split; [reflexivity|].
      split; [exact A1|]. split; [exact A2|]. split.
      - unfold infos. transitivity (map info (hp_cells (ds_heap st) ++ [c0])); [|now rewrite map_app]. apply map_ext_nth. exact A4.
      - split; [reflexivity|]. split; [reflexivity|]. split; [|exact Hroot]. exists (RefGroups id). split; [reflexivity|]. cbn [ds_parents]. now rewrite stack_for_snoc, Hs. }
    destruct (str_eqb path root_discriminator) eqn:Er.
    - apply str_eqb_eq in Er. subst path. destruct M as [-> |[_ M]]; [|contradiction]. cbn [ds_elements_here ds_previous ds_parents initial_deep_state ds_heap hp_cells hp_lines ds_used] in *.
      apply (Done 0 RefLines []); [lia|left; auto|reflexivity|cbn [initial_deep_state ds_elements_here ds_previous ds_parents ds_used]; congruence|now left].
    - destruct (ds_previous st) as [prev|] eqn:Ep; [|discriminate]. destruct M as [-> |[(r & Hr & Hst) Hroot]]; [discriminate|]. rewrite Hr in H.
      destruct (is_sub_location_of pos prev) eqn:Esub.
      + apply (Done (List.length spine) r (ds_parents st)); [lia| |now rewrite firstn_all|congruence|now right].
        right. exists prev. auto.
      + apply bind_ok in H as (dist & Hdist & H). apply bind_ok in H as ([sg1 ps1] & Hup & H). apply bind_ok in H as ([sg2 ps2] & Hdn & H).
        destruct (go_up_spec _ _ _ _ _ _ Hst Hup) as (r1 & -> & E1 & L1).
        assert (A : Forall (agrees (hp_cells heap)) f).
        { destruct C as (_ & CA & CI & _). apply (agrees_all_ext (hp_cells (ds_heap st))); [exact CA|]. intros y Hy. rewrite CI in Hy. apply in_seq in Hy.
          unfold groups_at, heap. cbn [hp_cells]. rewrite nth_error_app1 by lia. reflexivity. }
        destruct C as (CL & CA & CI & CS).
        destruct (go_down_spec _ heap f spine (List.length spine - layers_up dist) r1 ps1 sg2 ps2 CL A CS ltac:(lia) E1 Hdn) as (r2 & -> & E2 & L2).
        apply (Done (List.length spine - layers_up dist + (layers_down dist - 1)) r2 ps2); [exact L2| |exact E2|congruence|now right].
        right. exists prev. split; [exact Ep|]. right. split; [exact Esub|]. exists dist. split; [exact Hdist|]. split; lia.
  Qed.

  (** ** nesting *)
  Definition mirrors (layers : list (list Layer)) (l : list (list nat * nat)) : Prop :=
    forall i around g ls, nth_error l i = Some (around, g) -> nth_error layers i = Some ls ->
      S (List.length around) = List.length ls
      /\ forall k h, nth_error around k = Some h -> h < i /\ nth_error layers h = Some (firstn (S k) ls)
           /\ forall j ls', h < j < i -> nth_error layers j = Some ls' -> ls' <> firstn (S k) ls.
  Definition edge (layers : list (list Layer)) (spine : list nat) : Prop :=
    exists before ls, layers = before ++ [ls] /\ List.length spine = List.length ls
      /\ forall k h, nth_error spine k = Some h -> h < List.length layers /\ nth_error layers h = Some (firstn (S k) ls)
           /\ forall j ls', h < j -> nth_error layers j = Some ls' -> ls' <> firstn (S k) ls.
  Lemma nth_snoc {A} (l : list A) x n y : nth_error (l ++ [x]) n = Some y -> (n < List.length l /\ nth_error l n = Some y) \/ (n = List.length l /\ y = x).
  Proof.
    intros H. destruct (Nat.lt_trichotomy n (List.length l)) as [L|[-> |L]].
    - left. rewrite nth_error_app1 in H by exact L. auto.
    - right. rewrite nth_error_app2, Nat.sub_diag in H by reflexivity. cbn in H. split; congruence.
    - rewrite nth_error_app2 in H by lia. destruct (n - List.length l) as [|k] eqn:E; [lia|]. destruct k; discriminate.
  Qed.
  Lemma prefix_firstn {A} (p l : list A) k : is_prefix p l -> k <= List.length p -> firstn k l = firstn k p.
  Proof. intros [r ->] L. rewrite firstn_app. replace (k - List.length p) with 0 by lia. cbn [firstn]. apply app_nil_r. Qed.
  Lemma mirrors_snoc layers l spine outer layer id from before :
    layers = before ++ [from] -> mirrors layers l -> edge layers spine -> List.length l = List.length layers -> id = List.length layers ->
    is_prefix outer from ->
    let to := outer ++ [layer] in let d := List.length outer in
    mirrors (layers ++ [to]) (l ++ [(firstn d spine, id)]) /\ edge (layers ++ [to]) (firstn d spine ++ [id]).
  Proof.
    intros EL M (before' & ls & E & Lsp & Hsp) Ll -> P to d. assert (ls = from) as -> by (rewrite EL in E; apply app_inj_tail in E as [_ ->]; reflexivity). clear before' E.
    assert (Hd : d <= List.length spine) by (rewrite Lsp; apply is_prefix_length; exact P).
    assert (Hout : forall k, k < d -> firstn (S k) to = firstn (S k) from).
    { intros k Hk. rewrite (prefix_firstn outer from) by (auto; unfold d in Hk; lia). apply prefix_firstn; [exists [layer]; reflexivity|unfold d in Hk; lia]. }
    assert (Lto : List.length to = S d) by (unfold to; rewrite app_length; cbn; unfold d; lia).
    assert (Old : forall k h, k < d -> nth_error spine k = Some h -> h < List.length layers /\ nth_error (layers ++ [to]) h = Some (firstn (S k) to)
        /\ forall j ls', h < j -> nth_error (layers ++ [to]) j = Some ls' -> ls' <> firstn (S k) to).
    { intros k h Hk Hh. destruct (Hsp k h Hh) as (A1 & A2 & A3). split; [exact A1|]. rewrite nth_error_app1 by exact A1. rewrite (Hout k Hk). split; [exact A2|].
      intros j ls' Hj Hn. apply nth_snoc in Hn as [[_ Hn]|[_ ->]]; [now apply (A3 j)|]. intros K. apply (f_equal (@List.length _)) in K. rewrite firstn_length in K.
      rewrite Lto in K. pose proof (is_prefix_length _ _ P) as LP. fold d in LP. lia. }
    assert (Fn : forall k h, nth_error (firstn d spine) k = Some h -> k < d /\ nth_error spine k = Some h).
    { intros k h H. assert (k < d) by (assert (K : k < List.length (firstn d spine)) by (apply nth_error_Some; congruence); rewrite firstn_length in K; lia).
      split; [assumption|]. rewrite <- H. rewrite <- (firstn_skipn d spine) at 1. rewrite nth_error_app1; [reflexivity|rewrite firstn_length; lia]. }
    split.
    - intros i around g lsi H1 H2. apply nth_snoc in H1 as [[Li H1]|[-> H1]].
      + rewrite nth_error_app1 in H2 by lia. destruct (M i around g lsi H1 H2) as [A B]. split; [exact A|]. intros k h Hh. destruct (B k h Hh) as (B1 & B2 & B3).
        split; [exact B1|]. rewrite nth_error_app1 by lia. split; [exact B2|]. intros j ls' Hj. rewrite nth_error_app1 by lia. apply B3. exact Hj.
      + injection H1 as -> ->. rewrite Ll in *. apply nth_snoc in H2 as [[? _]|[_ ->]]; [lia|]. split; [rewrite firstn_length, Lto; lia|].
        intros k h Hh. apply Fn in Hh as [Hk Hh]. destruct (Old k h Hk Hh) as (A1 & A2 & A3). split; [exact A1|]. split; [exact A2|]. intros j ls' Hj. apply A3. lia.
    - exists layers, to. split; [reflexivity|]. split; [rewrite app_length, firstn_length, Lto; cbn; lia|].
      intros k h Hh. apply nth_snoc in Hh as [[_ Hh]|[-> ->]].
      + apply Fn in Hh as [Hk Hh]. destruct (Old k h Hk Hh) as (A1 & A2 & A3). split; [rewrite app_length; lia|]. auto.
      + split; [rewrite app_length; cbn; lia|]. rewrite firstn_length. replace (Nat.min d (List.length spine)) with d by lia.
        rewrite firstn_all2 by lia. rewrite nth_error_app2, Nat.sub_diag by reflexivity. split; [reflexivity|].
        intros j ls' Hj Hn. apply nth_snoc in Hn as [[? _]|[? _]]; lia.
  Qed.
  Lemma depth_enters st spine pos prev d from :
    depth_of st spine pos d -> hp_cells (ds_heap st) <> [] -> ds_previous st = Some prev -> lo_layers prev = from ->
    lo_pseudo prev = false -> lo_pseudo pos = false ->
    List.length spine = List.length from -> enters from (lo_layers pos) ->
    exists outer layer, lo_layers pos = outer ++ [layer] /\ is_prefix outer from /\ d = List.length outer.
  Proof.
    intros D Hne Hp <- P1 P2 Ls (outer & layer & E & Hno & Hpre & Hnp). exists outer, layer. split; [exact E|]. split; [exact Hpre|].
    destruct D as [[? _]|(prev' & Hp' & D)]; [contradiction|]. rewrite Hp in Hp'. injection Hp' as <-.
    destruct D as [[Hs ->]|[Hs (dist & Hd & L & _)]].
    - apply is_sub_location_of_prefix in Hs. rewrite Ls. rewrite E in Hs. destruct Hs as [r Hr]. destruct (rev_case r) as [-> |(r' & y & ->)].
      + rewrite app_nil_r in Hr. exfalso. apply Hnp. rewrite E, Hr. exists []. now rewrite app_nil_r.
      + rewrite app_assoc in Hr. apply app_inj_tail in Hr as [Hr _]. destruct Hpre as [q Hq]. rewrite Hq in Hr |- *.
        apply (f_equal (@List.length _)) in Hr. rewrite !app_length in Hr. rewrite app_length. lia.
    - pose proof (distance_spec prev pos P1 P2) as DS. rewrite Hd in DS. destruct DS as (c & _ & (C1 & C2 & C3) & U & V).
      assert (c = outer) as ->.
      { apply is_prefix_antisym; [|apply C3; [exact Hpre|rewrite E; exists [layer]; reflexivity]].
        destruct C2 as [r Hr]. rewrite E in Hr. destruct (rev_case r) as [-> |(r' & y & ->)].
        - rewrite app_nil_r in Hr. exfalso. apply Hnp. rewrite E, Hr. exact C1.
        - rewrite app_assoc in Hr. apply app_inj_tail in Hr as [-> _]. exists r'. reflexivity. }
      rewrite E, app_length in V. cbn [List.length] in V. lia.
  Qed.

  (** ** the invariant *)
  Definition Parts := list (list (Run * list Run)).
  Definition cell_matches (part : list (Run * list Run)) (i : Info) : Prop :=
    Forall2 section_becomes part (segs i)
    /\ exists opening rest first e, part = opening :: rest /\ can_open (fst opening) (disc i)
         /\ hd_error (run_lines (fst opening)) = Some first /\ al_expression first = Some e
         /\ snd (fst (fst i)) = strip e /\ snd (fst i) = al_index first.
  Definition closed (parts : Parts) (is : list Info) : Prop :=
    forall k opening rest r path, nth_error parts k = Some (opening :: rest) -> In r rest -> can_open (fst r) path ->
      In path (map disc (firstn (S k) is)).
  Definition nested (parts : Parts) (f : list IT) (spine : list nat) : Prop :=
    (forall p ps, parts = p :: ps -> List.length (opening_layers p) = 1) -> enters_step_by_step parts -> parts <> [] ->
    mirrors (map opening_layers parts) (ancs [] f) /\ edge (map opening_layers parts) spine.
  Definition running (st : DeepState) (parts : Parts) (spine : list nat) : Prop :=
    here st spine /\ In root_discriminator (ds_used st)
    /\ exists is x ss s, infos (ds_heap st) = is ++ [x] /\ segs x = ss ++ [s]
         /\ ds_segments_here st = Some (List.length is) /\ ds_elements_here st = Some (List.length is, List.length ss)
         /\ ds_previous st = Some (last_place (List.last parts [])) /\ lo_pseudo (last_place (List.last parts [])) = false.
  Record Inv (done : list Run) (st : DeepState) (parts : Parts) (f : list IT) (spine : list nat) : Prop := {
    i_cons : consistent (ds_heap st) f spine;
    i_sec : sections done = ([], concat parts);
    i_cells : Forall2 cell_matches parts (infos (ds_heap st));
    i_used : ds_used st = rev (map disc (infos (ds_heap st)));
    i_nodup : NoDup (ds_used st);
    i_closed : closed parts (infos (ds_heap st));
    i_mode : parts = [] /\ st = initial_deep_state \/ running st parts spine;
    i_nest : nested parts f spine
  }.

  Lemma forall2_snoc_r {A B} (R : A -> B -> Prop) l m y : Forall2 R l (m ++ [y]) -> exists l' x, l = l' ++ [x] /\ Forall2 R l' m /\ R x y.
  Proof.
    intros H. apply Forall2_app_inv_r in H as (l' & t & H1 & H2 & ->). inversion H2 as [|x ? ? ? Hx Hn]; subst. inversion Hn; subst. eauto.
  Qed.
  Lemma ess_change ps : forall p p2, enters_step_by_step (ps ++ [p2]) -> opening_layers p2 = opening_layers p -> enters_step_by_step (ps ++ [p]).
  Proof.
    induction ps as [|a ps IH]; intros p p2 H E; [exact I|]. destruct ps as [|b ps].
    - cbn in *. destruct H as (H1 & H2 & _). rewrite <- E. auto.
    - cbn [app] in *. destruct H as (H1 & H2 & H3). split; [exact H1|]. split; [exact H2|]. exact (IH p p2 H3 E).
  Qed.
  Lemma ess_snoc ps : forall p q, enters_step_by_step ((ps ++ [p]) ++ [q]) ->
    enters_step_by_step (ps ++ [p]) /\ lo_layers (last_place p) = opening_layers p /\ enters (opening_layers p) (opening_layers q).
  Proof.
    induction ps as [|a ps IH]; intros p q H.
    - destruct H as (H1 & H2 & _). split; [exact I|]. split; [exact H1|exact H2].
    - cbn [app] in H. destruct ps as [|b ps].
      + cbn [app] in *. destruct H as (H1 & H2 & H3). destruct (IH p q H3) as (A & B & C). split; [|split; [exact B|exact C]]. split; [exact H1|]. split; [exact H2|exact A].
      + cbn [app] in *. destruct H as (H1 & H2 & H3). destruct (IH p q H3) as (A & B & C). split; [|split; [exact B|exact C]]. split; [exact H1|]. split; [exact H2|exact A].
  Qed.
  Lemma nested_change ps p p2 f spine : nested (ps ++ [p]) f spine -> opening_layers p2 = opening_layers p -> nested (ps ++ [p2]) f spine.
  Proof.
    intros N E H1 H2 _. assert (M : map opening_layers (ps ++ [p2]) = map opening_layers (ps ++ [p])) by (rewrite !map_app; cbn; congruence). rewrite M. apply N.
    - intros q qs Hq. destruct ps as [|a ps]; [injection Hq as <- _; rewrite <- E; apply (H1 p2 []); reflexivity|]. injection Hq as <- _. apply (H1 a (ps ++ [p2])). reflexivity.
    - apply (ess_change ps p p2); assumption.
    - destruct ps; discriminate.
  Qed.
  Lemma last_snoc {A} (l : list A) x d : List.last (l ++ [x]) d = x.
  Proof. induction l as [|y l IH]; [reflexivity|]. cbn [app]. destruct l; [reflexivity|exact IH]. Qed.
  Lemma closed_change ps p p2 is x y : closed (ps ++ [p]) (is ++ [x]) -> disc x = disc y -> List.length ps = List.length is ->
    (forall o2 rest2 r path, p2 = o2 :: rest2 -> In r rest2 -> can_open (fst r) path ->
        (exists o rest r', p = o :: rest /\ In r' rest /\ can_open (fst r') path) \/ In path (map disc (is ++ [x]))) ->
    closed (ps ++ [p2]) (is ++ [y]).
  Proof.
    intros C E L H k o rest r path Hk Hr Ho.
    assert (Eis : forall n, map disc (firstn n (is ++ [y])) = map disc (firstn n (is ++ [x]))).
    { intros n. rewrite !firstn_app, !map_app. f_equal. destruct (n - List.length is); [reflexivity|]. cbn [firstn map]. rewrite !firstn_nil. cbn. congruence. }
    rewrite Eis. apply nth_snoc in Hk as [[Lk Hk]|[-> Hy]].
    - apply (C k o rest r path); [|assumption|assumption]. rewrite nth_error_app1 by exact Lk. exact Hk.
    - destruct (H o rest r path (eq_sym Hy) Hr Ho) as [(o' & rest' & r' & -> & Hr' & Ho')|K].
      + apply (C (List.length ps) o' rest' r' path); [|assumption|assumption]. rewrite nth_error_app2, Nat.sub_diag by reflexivity. reflexivity.
      + rewrite firstn_all2; [exact K|]. rewrite app_length, L. cbn. lia.
  Qed.

  Lemma add_run_element els secs q es r : counts_as_segment r = false -> counts_as_element r = true ->
    add_run (els, secs ++ [(q, es)]) r = (els, secs ++ [(q, es ++ [r])]).
  Proof. intros E1 E2. unfold add_run. rewrite E1, E2, rev_app_distr. cbn [rev app]. now rewrite rev_involutive. Qed.

  Lemma inv_step done st parts f spine r st' : Inv done st parts f spine -> r <> [] -> lo_pseudo (place r) = false ->
    deep_step reader str_of_location st (run_key r, r) = Ok st' -> exists parts' f' spine', Inv (done ++ [r]) st' parts' f' spine'.
  Proof.
    intros V Hr Hps Hstep. apply (step_spec st r st' Hr) in Hstep.
    destruct V as [V1 V2 V3 V4 V5 V6 V7 V8].
    destruct Hstep as [CS CE ->|d ref CS CE Hd Href ->|st1 g s CS Hs Hs0 Hopen Hg ->].
    - exists parts, f, spine. constructor; try assumption. rewrite sections_snoc, V2. unfold add_run. now rewrite CS, CE.
    - destruct V7 as [[-> ->]|R]; [discriminate|]. destruct R as (Hh & Hroot & is & x & ss & s & E1 & E2 & E3 & E4 & E5 & E6).
      rewrite Href in E4. injection E4 as ->.
      rewrite E1 in V3. apply forall2_snoc_r in V3 as (ps & p & -> & F1 & (M1 & M2)).
      rewrite E2 in M1. apply forall2_snoc_r in M1 as (p' & [q es] & -> & G1 & (G2 & G3)).
      set (p2 := p' ++ [(q, es ++ [r])]).
      assert (Eo : opening_layers p2 = opening_layers (p' ++ [(q, es)])) by (unfold p2; destruct p'; reflexivity).
      assert (Ei := append_element_infos (ds_heap st) is x ss s d E1 E2).
      exists (ps ++ [p2]), f, spine. constructor; cbn [ds_heap ds_used].
      + apply update_cell_consistent; [exact V1|reflexivity].
      + rewrite sections_snoc, V2, !concat_app. cbn [concat]. rewrite !app_nil_r. unfold p2. rewrite !app_assoc. apply add_run_element; assumption.
      + rewrite Ei. apply Forall2_app; [exact F1|]. constructor; [|constructor]. split.
        * cbn [segs with_segs snd]. unfold p2. apply Forall2_app; [exact G1|]. constructor; [|constructor]. split; cbn [fst snd] in *.
          -- exact G2.
          -- unfold add_element. cbn [seg_elements]. apply Forall2_app; [exact G3|]. constructor; [exact Hd|constructor].
        * destruct M2 as (o & rest & fl & e & B1 & B2 & B3 & B4 & B5 & B6). unfold p2. destruct p' as [|o' p''].
          -- injection B1 as <- <-. cbn [fst] in *. exists (q, es ++ [r]), [], fl, e. cbn [app fst]. auto 8.
          -- injection B1 as <- B1. exists o', (p'' ++ [(q, es ++ [r])]), fl, e. cbn [app]. auto 8.
      + rewrite V4, Ei, E1, !map_app. reflexivity.
      + exact V5.
      + rewrite Ei. rewrite E1 in V6. apply (closed_change ps (p' ++ [(q, es)]) p2 is x); [exact V6|reflexivity|eapply Forall2_length; exact F1|].
        intros o2 rest2 r0 path Hp2 Hin Hcan. left. unfold p2 in Hp2. destruct p' as [|o' p''].
        * injection Hp2 as <- <-. destruct Hin.
        * injection Hp2 as <- <-. apply in_app_or in Hin as [Hin|[<-|[]]].
          -- exists o', (p'' ++ [(q, es)]), r0. split; [reflexivity|]. split; [apply in_or_app; now left|exact Hcan].
          -- exists o', (p'' ++ [(q, es)]), (q, es). split; [reflexivity|]. split; [apply in_or_app; right; now left|exact Hcan].
      + right. split; [exact Hh|]. split; [exact Hroot|]. exists is, (with_segs x (ss ++ [add_element d s])), ss, (add_element d s). cbn [ds_heap ds_segments_here ds_elements_here ds_previous].
        split; [exact Ei|]. split; [reflexivity|]. split; [exact E3|]. split; [exact Href|]. rewrite last_snoc.
        assert (last_place p2 = place r) as ->.
        { unfold last_place, p2. rewrite flat_map_app. cbn [flat_map fst snd]. rewrite app_nil_r.
          change (q :: es ++ [r]) with ((q :: es) ++ [r]). rewrite app_assoc, last_snoc. reflexivity. }
        auto.
      + apply (nested_change ps (p' ++ [(q, es)])); [exact V8|exact Eo].
    - destruct Hopen as [[-> Hno]|(path & first & Hcan & Hnu & Hhd & Hog)].
      + (* the segment goes into the current group *)
        destruct V7 as [[-> ->]|R]; [discriminate|]. destruct R as (Hh & Hroot & is & x & ss & s0 & E1 & E2 & E3 & E4 & E5 & E6).
        rewrite Hg in E3. injection E3 as ->.
        rewrite E1 in V3. apply forall2_snoc_r in V3 as (ps & p & -> & F1 & (M1 & M2)).
        set (p2 := p ++ [(r, [])]).
        assert (Hpne : p <> []) by (destruct M2 as (o & rest & fl & e & -> & _); discriminate).
        assert (Eo : opening_layers p2 = opening_layers p) by (unfold p2; destruct p; [congruence|reflexivity]).
        assert (Ei := append_segment_infos (ds_heap st) is x s E1).
        exists (ps ++ [p2]), f, spine. constructor; cbn [ds_heap ds_used].
        * apply update_cell_consistent; [exact V1|reflexivity].
        * rewrite sections_snoc, V2, !concat_app. cbn [concat]. rewrite !app_nil_r. unfold add_run. rewrite CS. unfold p2. now rewrite app_assoc.
        * rewrite Ei. apply Forall2_app; [exact F1|]. constructor; [|constructor]. split.
          -- cbn [segs with_segs snd]. unfold p2. apply Forall2_app; [exact M1|]. constructor; [|constructor]. split; cbn [fst snd]; [exact Hs|]. rewrite Hs0. constructor.
          -- destruct M2 as (o & rest & fl & e & -> & B2 & B3 & B4 & B5 & B6). exists o, (rest ++ [(r, [])]), fl, e. unfold p2. cbn [app]. auto 8.
        * rewrite V4, Ei, E1, !map_app. reflexivity.
        * exact V5.
        * rewrite Ei. rewrite E1 in V6. apply (closed_change ps p p2 is x); [exact V6|reflexivity|eapply Forall2_length; exact F1|].
          intros o2 rest2 r0 path Hp2 Hin Hcan. unfold p2 in Hp2. destruct p as [|o' p'']; [congruence|]. injection Hp2 as <- <-.
          apply in_app_or in Hin as [Hin|[<-|[]]].
          -- left. exists o', p'', r0. auto.
          -- right. cbn [fst] in Hcan. apply Hno in Hcan. rewrite V4, E1 in Hcan. now apply in_rev in Hcan.
        * right. split; [exact Hh|]. split; [exact Hroot|]. exists is, (with_segs x (segs x ++ [s])), (segs x), s. cbn [ds_heap ds_segments_here ds_elements_here ds_previous].
          split; [exact Ei|]. split; [reflexivity|]. split; [exact Hg|]. split; [now rewrite (segment_count_infos _ _ _ E1)|]. rewrite last_snoc.
          assert (last_place p2 = place r) as ->.
          { unfold last_place, p2. rewrite flat_map_app. cbn [flat_map fst snd]. rewrite app_nil_r, last_snoc. reflexivity. }
          auto.
        * apply (nested_change ps p); [exact V8|exact Eo].
      + (* a new group *)
        assert (M : st = initial_deep_state \/ here st spine /\ In root_discriminator (ds_used st)).
        { destruct V7 as [[_ ->]|(A & B & _)]; auto. }
        destruct (open_group_spec st (place r) path first st1 f spine V1 M Hnu Hog) as (d & f1 & e & Ld & Dd & He & C1 & C2 & C3 & C4 & C5 & C6 & C7).
        set (n := List.length (hp_cells (ds_heap st))) in *. rewrite Hg in C5. injection C5 as ->.
        set (x := (path, strip e, al_index first, [])) in *.
        assert (Hn : n = List.length (infos (ds_heap st))) by (unfold infos; now rewrite map_length). rewrite Hn in C1, C2, C6 |- *.
        assert (Ei := append_segment_infos (ds_heap st1) (infos (ds_heap st)) x s C3).
        assert (Lp : List.length parts = List.length (infos (ds_heap st))) by (eapply Forall2_length; exact V3).
        exists (parts ++ [[(r, [])]]), f1, (firstn d spine ++ [List.length (infos (ds_heap st))]). constructor; cbn [ds_heap ds_used].
        * apply update_cell_consistent; [exact C1|reflexivity].
        * rewrite sections_snoc, V2, !concat_app. cbn [concat]. rewrite !app_nil_r. unfold add_run. now rewrite CS.
        * rewrite Ei. apply Forall2_app; [exact V3|]. constructor; [|constructor]. split.
          -- cbn. constructor; [|constructor]. split; cbn [fst snd]; [exact Hs|]. rewrite Hs0. constructor.
          -- exists (r, []), [], first, e. cbn. auto 8.
        * rewrite C4, Ei, !map_app, rev_app_distr. cbn [map rev app]. now rewrite V4.
        * rewrite C4. constructor; assumption.
        * rewrite Ei. intros k o rest r0 path0 Hk Hin Hcan0. apply nth_snoc in Hk as [[Lk Hk]|[_ Hk]].
          -- rewrite firstn_app. replace (S k - List.length (infos (ds_heap st))) with 0 by lia. cbn [firstn]. rewrite app_nil_r. exact (V6 k o rest r0 path0 Hk Hin Hcan0).
          -- injection Hk as _ ->. destruct Hin.
        * right. split; [exact C6|]. split; [exact C7|]. exists (infos (ds_heap st)), (with_segs x (segs x ++ [s])), (segs x), s. cbn [ds_heap ds_segments_here ds_elements_here ds_previous].
          split; [exact Ei|]. split; [reflexivity|]. split; [now rewrite Hg, Hn|]. split; [now rewrite (segment_count_infos _ _ _ C3)|]. rewrite last_snoc.
          cbn. auto.
        * intros N1 N2 _. rewrite map_app. cbn [map opening_layers fst].
          destruct V7 as [[-> ->]|R].
          -- (* the first group *)
             assert (L1 : List.length (lo_layers (place r)) = 1) by (apply (N1 [(r, [])] []); reflexivity).
             destruct V1 as (_ & _ & VI & VS). cbn [initial_deep_state ds_heap hp_cells infos map List.length] in *.
             inversion V3. cbn [map app List.length] in *.
             assert (f = []) as ->.
             { destruct f as [|[g ts] f]; [reflexivity|]. change (INode g ts :: f) with ([INode g ts] ++ f) in VI. rewrite ids_app, ids_one in VI. discriminate. }
             assert (spine = []) as -> by (inversion VS as [|? ? ? ? ? K]; [reflexivity|destruct f; discriminate]).
             cbn [ancs flat_map app firstn List.length] in *. rewrite firstn_nil in *. assert (d = 0) as -> by lia. rewrite C2.
             split.
             ++ intros i around g ls Hi1 Hi2. destruct i; [|destruct i; discriminate]. injection Hi1 as <- <-. injection Hi2 as <-. split; [rewrite L1; reflexivity|]. intros k h Hk. destruct k; discriminate.
             ++ exists [], (lo_layers (place r)). split; [reflexivity|]. split; [rewrite L1; reflexivity|]. intros k h Hk. destruct k; [|destruct k; discriminate]. injection Hk as <-.
                split; [cbn; lia|]. cbn [nth_error]. rewrite firstn_all2 by lia. split; [reflexivity|]. intros j ls' Hj Hn'. destruct j as [|[|j]]; [lia|discriminate|discriminate].
          -- destruct R as (_ & _ & is & x0 & ss & s0 & E1 & E2 & E3 & E4 & E5 & E6).
             destruct (rev_case parts) as [-> |(ps & p & ->)]; [rewrite E1, app_length in Lp; cbn in Lp; lia|]. rewrite last_snoc in E5, E6.
             apply ess_snoc in N2 as (N2 & N3 & N4). cbn [opening_layers fst] in N4.
             assert (NE : nested (ps ++ [p]) f spine) by exact V8.
             destruct NE as [NM NEd].
             { intros q qs Hq. apply (N1 q (qs ++ [[(r, [])]])). rewrite Hq. reflexivity. }
             { exact N2. }
             { destruct ps; discriminate. }
             assert (Hne : hp_cells (ds_heap st) <> []) by (intros K; unfold infos in E1; rewrite K in E1; destruct is; discriminate).
             assert (Ls : List.length spine = List.length (opening_layers p)).
             { destruct NEd as (b & ls & Eb & Ls & _). rewrite map_app in Eb. cbn [map] in Eb. apply app_inj_tail in Eb as [_ <-]. exact Ls. }
             destruct (depth_enters st spine (place r) _ d (opening_layers p) Dd Hne E5 N3 E6 Hps Ls N4) as (outer & layer & O1 & O2 & ->).
             rewrite O1, C2. assert (Lanc : List.length (ancs [] f) = List.length (map opening_layers (ps ++ [p]))).
             { destruct V1 as (_ & _ & VI & _). rewrite map_length, Lp, <- Hn. unfold ids in VI. apply (f_equal (@List.length _)) in VI. rewrite map_length, seq_length in VI. exact VI. }
             apply (mirrors_snoc (map opening_layers (ps ++ [p])) (ancs [] f) spine outer layer _ (opening_layers p) (map opening_layers ps)); auto.
             ++ now rewrite map_app.
             ++ now rewrite map_length.
  Qed.
  Lemma inv_initial : Inv [] initial_deep_state [] [] [].
  Proof.
    constructor; cbn; try constructor; try reflexivity.
    - split; [constructor|]. split; [reflexivity|constructor].
    - intros k o rest r path H. destruct k; discriminate.
    - auto.
    - congruence.
    - congruence.
  Qed.
  Lemma inv_loop runs : forall done st parts f spine st', Inv done st parts f spine -> (forall r, In r runs -> r <> [] /\ lo_pseudo (place r) = false) ->
    foldM (deep_step reader str_of_location) st (map (fun r => (run_key r, r)) runs) = Ok st' ->
    exists parts' f' spine', Inv (done ++ runs) st' parts' f' spine'.
  Proof.
    induction runs as [|r runs IH]; intros done st parts f spine st' V Hr H; cbn [map foldM] in H.
    - injection H as <-. rewrite app_nil_r. eauto.
    - apply bind_ok in H as (st1 & H1 & H). destruct (Hr r (or_introl eq_refl)) as [Hr1 Hr2].
      destruct (inv_step done st parts f spine r st1 V Hr1 Hr2 H1) as (parts1 & f1 & spine1 & V1).
      destruct (IH (done ++ [r]) st1 parts1 f1 spine1 st' V1 ltac:(intros x Hx; apply Hr; now right) H) as (p' & f' & s' & V').
      rewrite <- app_assoc in V'. eauto.
  Qed.
End Loop.
