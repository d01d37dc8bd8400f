(** Properties C36 - C42: merging lines and building a deep AHB. *)
From Coq Require Import Ascii String List NArith ZArith Bool Arith Lia.
From Verif Require Import PyBase PyStr PyRe M_Components M_Ahb M_Sgh M_Navigation M_Matching
  S_Prefix S_Text S_Sgh S_ValuePool S_Navigation S_Matching
  L_Base L_Prefix L_Validators L_ValuePool L_Matching L_DeepTree L_DeepLoop L_DeepResult L_DeepLookup L_Parts C_Sgh C_FlatAhb.
Import ListNotations.
Local Open Scope list_scope.

(** ** C36: merging lines *)
Theorem C36_different_data_elements lines stack : ~ (exists d, share_one_data_element lines d) ->
  merge_lines_with_same_data_element lines stack = Raise ValueError.
Proof.
  intros H. unfold merge_lines_with_same_data_element. destruct (Nat.eqb_spec (List.length (distinct_data_element_keys lines)) 1) as [E|E]; [|reflexivity].
  exfalso. apply H. now apply distinct_one.
Qed.
Print Assumptions C36_different_data_elements.
(** the lines of a value pool: one entry per line with an expression *)
Theorem C36_value_pool first rest d stack e :
  share_one_data_element (first :: rest) d -> al_entry first <> None ->
  (merge_lines_with_same_data_element (first :: rest) stack = Ok e <->
   exists id entries, d = Some id /\ n_digits 4 id
     /\ e = DPool (mkPool (option_map to_json_path stack) id None (Some VALUE_POOL) entries)
     /\ Forall2 entry_of_line (filter has_expression (first :: rest)) entries).
Proof. apply merge_pool. Qed.
Print Assumptions C36_value_pool.
(** a free text: the expression of the first line; DATETIME for DTM *)
Theorem C36_free_text first rest d stack e :
  share_one_data_element (first :: rest) d -> al_entry first = None ->
  (merge_lines_with_same_data_element (first :: rest) stack = Ok e <->
   exists id expression type, d = Some id /\ n_digits 4 id /\ al_expression first = Some expression /\ ~ blank expression
     /\ (type = DATETIME /\ al_segment first = Some (u "DTM") \/ type = TEXT /\ al_segment first <> Some (u "DTM"))
     /\ e = DFree (mkFreeText (option_map to_json_path stack) id None (Some type) expression)).
Proof. apply merge_free. Qed.
Print Assumptions C36_free_text.
(** the value type of a segment code: DATETIME for DTM and nothing else *)
Theorem C36_data_type code :
  (code = Some (u "DTM") -> derive_data_type_from_segment_code code = Some DATETIME)
  /\ (code <> Some (u "DTM") -> derive_data_type_from_segment_code code = None).
Proof.
  split; [intros ->; reflexivity|]. intros H. destruct code as [s|]; [|reflexivity]. cbn [derive_data_type_from_segment_code].
  destruct (str_in s [u "DTM"]) eqn:E; [|reflexivity]. apply str_in_In in E as [E|[]]. now destruct H; rewrite <- E.
Qed.
Print Assumptions C36_data_type.
(** both cases at once *)
Theorem C36_merged_lines lines stack e :
  merge_lines_with_same_data_element lines stack = Ok e <-> element_of_lines lines (option_map to_json_path stack) e.
Proof. apply merge_ok. Qed.
Print Assumptions C36_merged_lines.
Definition ex_pool_lines : list AhbLine :=
  [ ex_line (Some "SG4") (Some "STS") (Some "9015") (Some "7") (Some " Transaktionsgrund ") (Some "X") None;
    ex_line (Some "SG4") (Some "STS") (Some "9015") (Some "E01") (Some "nicht erlaubt") None None;
    ex_line (Some "SG4") (Some "STS") (Some "9015") (Some "Z26") (Some "Vorschlag") (Some "X [5]") None ]%string.
Example C36_instance :
  share_one_data_element ex_pool_lines (Some (u "9015"))
  /\ merge_lines_with_same_data_element ex_pool_lines (Some []) =
     Ok (DPool (mkPool (Some (u "$")) (u "9015") None (Some VALUE_POOL)
                       [mkEntry (u "7") (u "Transaktionsgrund") (u "X"); mkEntry (u "Z26") (u "Vorschlag") (u "X [5]")]))
  /\ merge_lines_with_same_data_element [ex_line None (Some "DTM"%string) (Some "2380"%string) None None (Some "X"%string) None] None =
     Ok (DFree (mkFreeText None (u "2380") None (Some DATETIME) (u "X")))
  /\ ~ (exists d, share_one_data_element (ex_line None None None None None None None :: ex_pool_lines) d).
Proof.
  split; [|split; [vm_compute; reflexivity|split; [vm_compute; reflexivity|]]].
  - split; [discriminate|]. intros l [<-|[<-|[<-|[]]]]; reflexivity.
  - intros (d & _ & H). pose proof (H _ (or_introl eq_refl)) as H1. pose proof (H _ (or_intror (or_introl eq_refl))) as H2. rewrite <- H1 in H2. discriminate H2.
Qed.

(** ** an example: a flat AHB and a MIG reader that knows the places by their layers *)
Definition ex_name (l : Layer) : pystr :=
  match ly_key l, ly_qualifier l with Some k, Some q => k ++ u " " ++ q | Some k, None => k | None, _ => u "Nachricht" end.
Definition ex_reader (p : Location) : result EdifactStack :=
  match lo_segment p with
  | Some s => if str_eqb s (u "UNT") || str_eqb s (u "LIN") then Raise ValueError
              else Ok (mkLevel (u "Dokument") true (Some 0%Z) :: map (fun l => mkLevel (ex_name l) true (Some 0%Z)) (lo_layers p)
                       ++ match lo_element p with Some d => [mkLevel d false None] | None => [] end)
  | None => Raise ValueError
  end.
Definition ex_str (p : Location) : pystr := u "AhbLocation" ++ match lo_segment p with Some s => u "-" ++ s | None => [] end.
Definition ex_deep_lines : list AhbLine :=
  [ ex_line None (Some "UNH") None None None (Some "Muss") (Some "Nachrichtenkopf");
    ex_line None (Some "UNH") (Some "0062") None None (Some "X") (Some "Nachrichtenkopf");
    ex_line (Some "SG2") (Some "NAD") None None None (Some " Muss ") (Some "Absender");
    ex_line (Some "SG2") (Some "NAD") (Some "3035") (Some "MS") (Some "Absender") (Some "X") (Some "Absender");
    ex_line (Some "SG3") (Some "CTA") None None None (Some "Kann") (Some "Kontakt");
    ex_line (Some "SG3") (Some "CTA") (Some "3139") (Some "IC") (Some "Information") (Some "X") (Some "Kontakt");
    ex_line (Some "SG2") (Some "NAD") None None None (Some "Muss") (Some "Empf");
    ex_line (Some "SG2") (Some "NAD") (Some "3035") (Some "MR") (Some "Empf") (Some "X") (Some "Empf");
    ex_line (Some "SG4") (Some "IDE") None None None (Some "Muss") (Some "Vorgang");
    ex_line (Some "SG4") (Some "IDE") (Some "7495") (Some "24") (Some "Transaktion") (Some "X") (Some "Vorgang");
    ex_line (Some "SG4") None None None None None (Some "Beginn");
    ex_line (Some "SG4") (Some "DTM") None None None (Some "Muss") (Some "Beginn");
    ex_line (Some "SG4") (Some "DTM") (Some "2380") None None (Some "X") (Some "Beginn");
    ex_line (Some "SG5") (Some "LOC") None None None (Some "Muss") (Some "Lokation");
    ex_line (Some "SG5") (Some "LOC") (Some "3227") (Some "172") (Some "Meldepunkt") (Some "X") (Some "Lokation") ]%string.
Definition ex_flat (lines : list AhbLine) : FlatAhb := mkFlat (mkMeta (u "11042") None (Some (u "Lieferbeginn")) None) lines.
Definition ex_deep (lines : list AhbLine) : result DeepAhb := fst (to_deep_ahb ex_reader ex_str (ex_flat lines) ex_sgh).
Definition ex_unt : AhbLine := ex_line None (Some "UNT"%string) None None None (Some "Muss"%string) (Some "Ende"%string).
Definition ex_id (d : DataElement) : pystr := match d with DFree f => ft_id f | DPool p => vp_id p end.
(** discriminator, number of groups around, segments with their data elements *)
Definition outline (a : DeepAhb) : list (pystr * nat * list (pystr * list pystr)) :=
  map (fun x => (g_discriminator (snd x), List.length (fst x),
                 map (fun s => (seg_discriminator s, map ex_id (seg_elements s))) (olist (g_segments (snd x)))))
      (groups_with_ancestors a).
Definition fst3 {A B C} (x : A * B * C) : A * B := fst x.
Example ex_deep_result : exists a, ex_deep ex_deep_lines = Ok a
  /\ map fst3 (outline a) =
     [ (u "$[""Dokument""][0][""Nachricht""][0]", 0);
       (u "$[""Dokument""][0][""Nachricht""][0][""SG2 MS""][0]", 1);
       (u "$[""Dokument""][0][""Nachricht""][0][""SG2 MS""][0][""SG3 IC""][0]", 2);
       (u "$[""Dokument""][0][""Nachricht""][0][""SG2 MR""][0]", 1);
       (u "$[""Dokument""][0][""Nachricht""][0][""SG4 24""][0]", 1);
       (u "$[""Dokument""][0][""Nachricht""][0][""SG4 24""][0][""SG5 172""][0]", 2) ]
  /\ map (fun x => List.length (snd x)) (outline a) = [1; 1; 1; 1; 2; 1].
Proof. eexists. split; [vm_compute; reflexivity|]. split; vm_compute; reflexivity. Qed.

(** ** C37 *)
Theorem C37_group_discriminators_are_unique reader str_of_location flat h deep flat' :
  to_deep_ahb reader str_of_location flat h = (Ok deep, flat') -> NoDup (map g_discriminator (all_groups deep)).
Proof. intros H. destruct (to_deep_ahb_result _ _ _ _ _ _ H) as (located & runs & parts & _ & _ & _ & _ & N & _). exact N. Qed.
Print Assumptions C37_group_discriminators_are_unique.
Example C37_instance : exists a, ex_deep ex_deep_lines = Ok a /\ List.length (all_groups a) = 6.
Proof. eexists. split; vm_compute; reflexivity. Qed.

(** ** C38: the segments of the deep AHB, in document order, are the sections of the located
    lines; nothing comes before the first section *)
Lemma parts_sections reader str parts groups : Forall2 (part_becomes reader str) parts groups ->
  Forall2 (section_becomes reader str) (concat parts) (flat_map (fun g => olist (g_segments g)) groups).
Proof.
  induction 1 as [|p g parts groups [(segs & E & F) _] _ IH]; cbn [concat flat_map]; [constructor|]. rewrite E. cbn [olist]. now apply Forall2_app.
Qed.
Theorem C38_nothing_is_lost reader str_of_location flat h deep flat' :
  to_deep_ahb reader str_of_location flat h = (Ok deep, flat') ->
  exists located runs secs,
    determine_locations h (fa_lines flat) = Ok located /\ maximal_runs located runs
    /\ sections runs = ([], secs)
    /\ Forall2 (section_becomes reader str_of_location) secs (all_segments deep).
Proof.
  intros H. destruct (to_deep_ahb_result _ _ _ _ _ _ H) as (located & runs & parts & A & B & C & [D _] & _).
  exists located, runs, (concat parts). split; [exact A|]. split; [exact B|]. split; [exact C|]. exact (parts_sections _ _ _ _ D).
Qed.
Print Assumptions C38_nothing_is_lost.
Lemma sections_count runs : List.length (snd (sections runs)) = List.length (filter counts_as_segment runs)
  /\ List.length (fst (sections runs)) + List.length (flat_map snd (snd (sections runs))) = List.length (filter counts_as_element runs).
Proof.
  induction runs as [|r runs [IH1 IH2]]; cbn [sections filter]; [auto|]. destruct (sections runs) as [els secs]. cbn [fst snd] in *.
  assert (X : counts_as_segment r = true -> counts_as_element r = false).
  { unfold counts_as_segment, counts_as_element. destruct (has_segment_code r), (has_data_element r); cbn; auto; discriminate. }
  destruct (counts_as_segment r).
  - rewrite (X eq_refl). cbn [fst snd List.length flat_map]. split; [congruence|]. rewrite app_length. exact IH2.
  - destruct (counts_as_element r); cbn [fst snd List.length]; split; auto. cbn [List.length]. rewrite <- IH2. reflexivity.
Qed.
Theorem C38_counts reader str_of_location flat h deep flat' :
  to_deep_ahb reader str_of_location flat h = (Ok deep, flat') ->
  exists located runs, determine_locations h (fa_lines flat) = Ok located /\ maximal_runs located runs
    /\ List.length (all_segments deep) = List.length (filter counts_as_segment runs)
    /\ List.length (flat_map seg_elements (all_segments deep)) = List.length (filter counts_as_element runs).
Proof.
  intros H. destruct (C38_nothing_is_lost _ _ _ _ _ _ H) as (located & runs & secs & A & B & C & F). exists located, runs. split; [exact A|]. split; [exact B|].
  pose proof (sections_count runs) as [N1 N2]. rewrite C in N1, N2. cbn [fst snd List.length Nat.add] in *. split; [rewrite <- N1; symmetry; eapply Forall2_length; exact F|].
  rewrite <- N2. clear -F. induction F as [|sec s secs ss [_ E] F IH]; cbn [flat_map]; [reflexivity|]. rewrite !app_length, IH. f_equal. symmetry. eapply Forall2_length; exact E.
Qed.
Print Assumptions C38_counts.
Example C38_instance : exists a, ex_deep ex_deep_lines = Ok a
  /\ List.length (all_segments a) = 7 /\ List.length (flat_map seg_elements (all_segments a)) = 7.
Proof. eexists. split; [vm_compute; reflexivity|]. split; vm_compute; reflexivity. Qed.

(** ** C39: both AHBs end up with the meta information stamped with the version *)
Theorem C39_meta_is_stamped reader str_of_location flat h deep flat' :
  to_deep_ahb reader str_of_location flat h = (deep, flat') ->
  fa_lines flat' = fa_lines flat
  /\ (me_pruefi (fa_meta flat') = me_pruefi (fa_meta flat) /\ me_version (fa_meta flat') = Some (u "0.3.0")
      /\ me_description (fa_meta flat') = me_description (fa_meta flat) /\ me_direction (fa_meta flat') = me_direction (fa_meta flat))
  /\ forall a, deep = Ok a -> da_meta a = fa_meta flat'.
Proof.
  intros [= <- <-]. cbn [fa_lines fa_meta]. split; [reflexivity|]. split; [repeat split|].
  intros a H. apply bind_ok in H as (l & _ & H). apply bind_ok in H as (st & _ & H). injection H as <-. reflexivity.
Qed.
Print Assumptions C39_meta_is_stamped.
Example C39_instance : me_version (fa_meta (ex_flat ex_deep_lines)) = None
  /\ me_version (fa_meta (snd (to_deep_ahb ex_reader ex_str (ex_flat ex_deep_lines) ex_sgh))) = Some (u "0.3.0").
Proof. split; vm_compute; reflexivity. Qed.

(** ** C40: the i-th group (in document order) gets the sections from the one that opens it up
    to the one that opens the next group *)
Theorem C40_segments_go_to_the_latest_group reader str_of_location flat h deep flat' :
  to_deep_ahb reader str_of_location flat h = (Ok deep, flat') ->
  exists located runs parts,
    determine_locations h (fa_lines flat) = Ok located /\ maximal_runs located runs
    /\ sections runs = ([], concat parts) /\ parts_become reader str_of_location parts (all_groups deep).
Proof.
  intros H. destruct (to_deep_ahb_result _ _ _ _ _ _ H) as (located & runs & parts & A & B & C & D & _). exists located, runs, parts. auto.
Qed.
Print Assumptions C40_segments_go_to_the_latest_group.
(** hence a segment of the root that follows a nested group is not put into the root group *)
Theorem C40_root_segments_stay_in_the_root_refuted :
  ~ (forall reader str_of_location flat h deep flat' located runs r,
       to_deep_ahb reader str_of_location flat h = (Ok deep, flat') ->
       determine_locations h (fa_lines flat) = Ok located -> maximal_runs located runs ->
       In r runs -> (forall l, In l (run_lines r) -> al_group l = sgh_key h) -> counts_as_segment r = true ->
       exists g s, In g (da_lines deep) /\ In s (olist (g_segments g)) /\ segment_of_run reader str_of_location r s).
Proof.
  intros H. set (flat := ex_flat (ex_deep_lines ++ [ex_unt])).
  destruct (to_deep_ahb ex_reader ex_str flat ex_sgh) as [d flat'] eqn:E.
  destruct d as [deep|e]; [|exfalso; vm_compute in E; discriminate E].
  destruct (determine_locations ex_sgh (fa_lines flat)) as [located|] eqn:EL; [|vm_compute in EL; discriminate EL].
  specialize (H _ _ _ _ _ _ _ (map snd (groupby rq located)) [nth 15 located (ex_unt, mkLocation false [] None None None)] E EL (groupby_runs located)).
  destruct H as (g & s & G1 & G2 & (G3 & _)).
  - vm_compute in EL. injection EL as <-. vm_compute. auto 20.
  - intros l [<-|[]]. vm_compute in EL. injection EL as <-. reflexivity.
  - vm_compute in EL. injection EL as <-. reflexivity.
  - vm_compute in EL. injection EL as <-. cbn [nth] in G3. vm_compute in E. injection E as <- _. cbn [da_lines] in G1. destruct G1 as [<-|[]]. cbn in G2. destruct G2 as [<-|[]]. vm_compute in G3. discriminate G3.
Qed.
Print Assumptions C40_root_segments_stay_in_the_root_refuted.
Example C40_instance : exists a, ex_deep (ex_deep_lines ++ [ex_unt]) = Ok a
  /\ map (fun x => map fst (snd x)) (outline a) =
     [ [u "$[""Dokument""][0][""Nachricht""][0]"];
       [u "$[""Dokument""][0][""Nachricht""][0][""SG2 MS""][0]"];
       [u "$[""Dokument""][0][""Nachricht""][0][""SG2 MS""][0][""SG3 IC""][0]"];
       [u "$[""Dokument""][0][""Nachricht""][0][""SG2 MR""][0]"];
       [u "$[""Dokument""][0][""Nachricht""][0][""SG4 24""][0]"; u "$[""Dokument""][0][""Nachricht""][0][""SG4 24""][0]"];
       [u "$[""Dokument""][0][""Nachricht""][0][""SG4 24""][0][""SG5 172""][0]"; u "AhbLocation-UNT"] ].
Proof. eexists. split; vm_compute; reflexivity. Qed.

(** there is only one way to choose the runs and the parts *)
Theorem C40_runs_and_parts_are_determined reader str_of_location flat h deep flat' located runs parts runs' parts' :
  to_deep_ahb reader str_of_location flat h = (Ok deep, flat') ->
  maximal_runs located runs -> sections runs = ([], concat parts) -> parts_become reader str_of_location parts (all_groups deep) ->
  maximal_runs located runs' -> sections runs' = ([], concat parts') -> parts_become reader str_of_location parts' (all_groups deep) ->
  runs' = runs /\ parts' = parts.
Proof.
  intros H A B C A' B' C'. assert (runs' = runs) as -> by (eapply maximal_runs_unique; eassumption). split; [reflexivity|].
  apply (parts_unique reader str_of_location parts' parts (all_groups deep)); auto; [|congruence]. exact (C37_group_discriminators_are_unique _ _ _ _ _ _ H).
Qed.
Print Assumptions C40_runs_and_parts_are_determined.

(** ** C41: nesting *)
Theorem C41_nesting_mirrors_the_layers reader str_of_location flat h deep flat' located runs parts :
  to_deep_ahb reader str_of_location flat h = (Ok deep, flat') ->
  determine_locations h (fa_lines flat) = Ok located -> maximal_runs located runs ->
  sections runs = ([], concat parts) -> parts_become reader str_of_location parts (all_groups deep) ->
  (forall p ps, parts = p :: ps -> List.length (opening_layers p) = 1) -> enters_step_by_step parts ->
  nesting_mirrors (map opening_layers parts) deep.
Proof.
  intros H A B C D N1 N2. destruct (to_deep_ahb_result _ _ _ _ _ _ H) as (located' & runs' & parts' & A' & B' & C' & D' & _ & E).
  assert (located' = located) as -> by congruence.
  destruct (C40_runs_and_parts_are_determined _ _ _ _ _ _ _ _ _ _ _ H B C D B' C' D') as [-> ->]. exact (E N1 N2).
Qed.
Print Assumptions C41_nesting_mirrors_the_layers.
Fixpoint split_by {A} (ns : list nat) (l : list A) : list (list A) :=
  match ns with [] => [] | n :: r => firstn n l :: split_by r (skipn n l) end.
Lemma split_by_concat {A} (ls : list (list A)) : split_by (map (@List.length A) ls) (concat ls) = ls.
Proof.
  induction ls as [|a ls IH]; cbn [map split_by concat]; [reflexivity|]. rewrite firstn_app, firstn_all, Nat.sub_diag, firstn_O, app_nil_r.
  rewrite skipn_app, skipn_all, Nat.sub_diag. cbn [skipn app]. now rewrite IH.
Qed.
Ltac entering := split; [reflexivity|split; [eexists; eexists; split; [vm_compute; lazymatch goal with |- [?a; ?b] = _ => instantiate (2 := [a]) | |- [?a; ?b; ?c] = _ => instantiate (2 := [a; b]) end; reflexivity|split; [discriminate|split; [eexists; vm_compute; reflexivity|intros [? K]; vm_compute in K; discriminate K]]]|]].
Example C41_instance : exists a located runs parts,
  ex_deep ex_deep_lines = Ok a /\ determine_locations ex_sgh ex_deep_lines = Ok located /\ maximal_runs located runs
  /\ sections runs = ([], concat parts) /\ parts_become ex_reader ex_str parts (all_groups a)
  /\ (forall p ps, parts = p :: ps -> List.length (opening_layers p) = 1) /\ enters_step_by_step parts /\ List.length parts = 6.
Proof.
  destruct (to_deep_ahb ex_reader ex_str (ex_flat ex_deep_lines) ex_sgh) as [d flat'] eqn:E.
  destruct d as [a|e]; [|exfalso; vm_compute in E; discriminate E].
  destruct (C40_segments_go_to_the_latest_group _ _ _ _ _ _ E) as (located & runs & parts & A & B & C & D).
  exists a, located, runs, parts. split; [unfold ex_deep; now rewrite E|]. split; [exact A|]. split; [exact B|]. split; [exact C|]. split; [exact D|].
  assert (P : parts = split_by [1; 1; 1; 1; 2; 1] (snd (sections (map snd (groupby rq located))))).
  { rewrite <- (maximal_runs_unique _ _ _ B (groupby_runs located)), C. cbn [snd]. rewrite <- (split_by_concat parts) at 1. f_equal.
    destruct D as [D _]. transitivity (map (fun g => List.length (olist (g_segments g))) (all_groups a)).
    - clear -D. induction D as [|p g ps gs [(s & Es & Fs) _] _ IH]; cbn [map]; [reflexivity|]. rewrite IH, Es. f_equal. eapply Forall2_length; exact Fs.
    - vm_compute in E. injection E as <- _. vm_compute. reflexivity. }
  rewrite P. clear - A. vm_compute in A. injection A as <-. split; [|split].
  - intros p ps H. vm_compute in H. injection H as <- _. reflexivity.
  - vm_compute split_by. do 5 entering. exact I.
  - reflexivity.
Qed.
(** ** C42: failing lookups *)
Theorem C42_failing_lookups_do_not_abort reader reader' str_of_location flat h deep flat' :
  to_deep_ahb reader str_of_location flat h = (Ok deep, flat') ->
  only_value_errors reader' ->
  (forall located runs r, determine_locations h (fa_lines flat) = Ok located -> maximal_runs located runs ->
     In r runs -> opening_lines r -> stack_of reader' r = stack_of reader r) ->
  exists deep', to_deep_ahb reader' str_of_location flat h = (Ok deep', flat') /\ anonymous deep' = anonymous deep.
Proof.
  unfold to_deep_ahb. intros H OV HO. assert (H1 : fst (Ok deep, flat') = Ok deep) by reflexivity. assert (H2 : snd (Ok deep, flat') = flat') by reflexivity.
  rewrite <- H in H1 at 1. rewrite <- H in H2 at 1. cbn [fst] in H1. cbn [snd] in H2. rewrite <- H2. clear H H2.
  apply bind_ok in H1 as (located & HL & H1). apply bind_ok in H1 as (st & HF & H1). injection H1 as <-. rewrite HL. cbn [bind].
  change (fun x : AhbLine * Location => remove_qualifier (snd x)) with rq in *.
  destruct (groupby_spec located) as (GE & GC & GR & GS). cbv zeta in *. rewrite GE in HF |- *. pose proof (groupby_runs located) as MR. set (runs := map snd (groupby rq located)) in *.
  destruct (loop_two reader reader' str_of_location OV runs initial_deep_state initial_deep_state st) as (st3 & HF3 & E3); [|reflexivity|exact HF|].
  - intros r Hr. split; [apply GR; exact Hr|]. intros O. exact (HO located runs r HL MR Hr O).
  - rewrite HF3. cbn [bind]. eexists. split; [reflexivity|]. unfold anonymous. cbn [da_meta da_lines]. f_equal. rewrite <- !render_lines_eh. apply es_fields in E3 as (E3 & _). now rewrite E3.
Qed.
Print Assumptions C42_failing_lookups_do_not_abort.
(** what is not known gets the stringified place, data elements get no discriminator *)
Theorem C42_unknown_places reader str_of_location flat h deep flat' :
  to_deep_ahb reader str_of_location flat h = (Ok deep, flat') ->
  exists located runs secs,
    determine_locations h (fa_lines flat) = Ok located /\ maximal_runs located runs
    /\ sections runs = ([], secs)
    /\ Forall2 (fun sec s =>
         (stack_of reader (fst sec) = None -> seg_discriminator s = str_of_location (place (fst sec)))
         /\ Forall2 (fun r d => stack_of reader r = None -> de_discriminator d = None) (snd sec) (seg_elements s)) secs (all_segments deep).
Proof.
  intros H. destruct (C38_nothing_is_lost _ _ _ _ _ _ H) as (located & runs & secs & A & B & C & F). exists located, runs, secs. split; [exact A|]. split; [exact B|]. split; [exact C|].
  revert F. apply forall2_impl. intros sec s [(S1 & _) S2]. split; [intros E; rewrite E in S1; exact S1|]. revert S2. apply forall2_impl. intros r d M E. unfold element_of_run in M. rewrite E in M.
  destruct M as (l0 & ls & id & _ & _ & _ & [(_ & es & -> & _)|(_ & x & t & -> & _)]); reflexivity.
Qed.
Print Assumptions C42_unknown_places.

(** the lookup of the place that opens the first group must not fail *)
Theorem C42_first_lookup_may_fail_refuted :
  ~ (forall reader reader' str_of_location flat h deep flat',
       to_deep_ahb reader str_of_location flat h = (Ok deep, flat') -> only_value_errors reader' ->
       (forall p s, reader' p = Ok s -> reader p = Ok s) ->
       exists deep', to_deep_ahb reader' str_of_location flat h = (Ok deep', flat')).
Proof.
  intros H. destruct (to_deep_ahb ex_reader ex_str (ex_flat ex_deep_lines) ex_sgh) as [d flat'] eqn:E. destruct d as [deep|e]; [|vm_compute in E; discriminate E].
  destruct (H ex_reader (fun _ => Raise ValueError) ex_str _ _ _ _ E) as (deep' & K).
  - intros p e [= <-]. reflexivity.
  - intros p s K. discriminate K.
  - vm_compute in K. discriminate K.
Qed.
Print Assumptions C42_first_lookup_may_fail_refuted.
(** a reader that does not know the data elements *)
Definition ex_reader' (p : Location) : result EdifactStack := if is_some (lo_element p) then Raise ValueError else ex_reader p.
Example C42_instance : exists a a', ex_deep ex_deep_lines = Ok a /\ fst (to_deep_ahb ex_reader' ex_str (ex_flat ex_deep_lines) ex_sgh) = Ok a'
  /\ anonymous a' = anonymous a /\ a' <> a
  /\ only_value_errors ex_reader'
  /\ forall r, opening_lines r -> lo_element (place r) = None -> stack_of ex_reader' r = stack_of ex_reader r.
Proof.
  eexists. eexists. split; [vm_compute; reflexivity|]. split; [vm_compute; reflexivity|]. split; [vm_compute; reflexivity|]. split; [intros K; vm_compute in K; discriminate K|]. split.
  - intros p e. unfold ex_reader', ex_reader. destruct (is_some (lo_element p)); [congruence|]. destruct (lo_segment p); [|congruence]. destruct (_ || _); congruence.
  - intros r _ Hn. unfold stack_of, ex_reader'. rewrite Hn. cbn [is_some]. destruct (ex_reader (place r)); [reflexivity|]. destruct r as [|[l p] [|y r]]; try reflexivity.
    cbn [place lo_element] in Hn. rewrite Hn. reflexivity.
Qed.
