(** C48-C52: the CSV reader *)
From Coq Require Import Ascii String List NArith ZArith Bool Lia Arith.
From Verif Require Import PyBase PyStr PyRe M_Components M_Ahb M_Schema M_CsvReader.
From Verif Require Import S_Text S_FlatAhb S_ValuePool S_LocationXml S_Csv L_Base L_Str L_FlatAhb L_ValuePool L_Csv.
From Verif Require C_FlatAhb.
Import ListNotations.
Local Open Scope list_scope.

(** rows for the examples: index, segment group, segment, data element, code, description, expression, condition *)
Definition ex_row (i g s d c n e b : string) : row :=
  [([], Some (u i)); (u "Segment Gruppe", Some (u g)); (u "Segment", Some (u s)); (u "Datenelement", Some (u d));
   (u "Codes und Qualifier", Some (u c)); (u "Beschreibung", Some (u n)); (u "11042", Some (u e)); (u "Bedingung", Some (u b))].
Definition ex_rows : list row :=
  [ex_row "0" "Nachrichten-" "" "" "" "" "" ""; ex_row "1" "Kopfsegment" "" "" "" "" "" "";
   ex_row "2" "" "UNH" "" "" "" "Muss" ""; ex_row "3" "" "UNH" "0062" "Nachrichten-Referenznummer" "" "X" "";
   ex_row "4" "Beginn" "" "" "" "" "" ""; ex_row "5" "SG2" "NAD" "3035" " Sender" "MS " "X [931]" "[931] Format: ZZZ = +00 [492] Strom";
   ex_row "6" "Ende" "" "" "" "" "" ""].

(** *** C48 *)

(** merging replaces every run of headings in front of another row by one row and drops the
    headings at the end; all other rows are kept in their order *)
Theorem C48_merging rows out : merge_section_only_lines rows = Ok out <-> merged rows out.
Proof. apply merge_ok. Qed.
Theorem C48_other_rows_kept rows out : merge_section_only_lines rows = Ok out ->
  (exists kept, without_headings rows kept /\ subsequence kept out)
  /\ List.length out <= List.length rows
  /\ (forall a b, adjacent a b out -> no_heading a \/ no_heading b).
Proof.
  rewrite merge_ok. intros H. split; [|split].
  - assert (D : forall hs texts rows kept, Forall2 heading hs texts -> without_headings rows kept -> without_headings (hs ++ rows) kept).
    { clear. induction 1 as [|h t hs texts Ht Hh IH]; intros H; [exact H|]. cbn [app]. econstructor; [exact Ht|auto]. }
    induction H as [hs Hh|r rows out E H (kept & IH & S)|hs texts r rows out m Hh Hn E Hs H (kept & IH & S)].
    + exists []. apply headings_texts in Hh as (texts & Hh). split; [|constructor]. rewrite <- (app_nil_r hs). eapply D; [exact Hh|constructor].
    + exists (r :: kept). split; constructor; assumption.
    + exists (r :: kept). split; [eapply D; [exact Hh|]; now constructor|]. apply subseq_skip. now constructor.
  - induction H as [hs Hh|r rows out E H IH|hs texts r rows out m Hh Hn E Hs H IH]; [cbn; lia|cbn [List.length]; lia|].
    rewrite app_length. destruct hs; [congruence|]. cbn [List.length]. lia.
  - intros a b. induction H as [hs Hh|r rows out E H IH|hs texts r rows out m Hh Hn E Hs H IH]; intros (l1 & l2 & Eq).
    + destruct l1; discriminate.
    + destruct l1 as [|x l1]; cbn [app] in Eq; injection Eq as -> Eq; [auto|]. apply IH. exists l1, l2. exact Eq.
    + destruct l1 as [|x l1]; cbn [app] in Eq.
      * injection Eq as -> -> Eq. auto.
      * injection Eq as -> Eq. destruct l1 as [|y l1]; cbn [app] in Eq; injection Eq as -> Eq; [auto|]. apply IH. exists l1, l2. exact Eq.
Qed.
(** headings at the end have no effect *)
Theorem C48_headings_at_the_end_are_dropped rows hs : (forall h, In h hs -> exists t, heading h t) ->
  merge_section_only_lines (rows ++ hs) = merge_section_only_lines rows.
Proof.
  intros Hh. unfold merge_section_only_lines. generalize (@nil char). induction rows as [|r rows IH]; intros acc.
  - cbn [app]. apply headings_texts in Hh as (texts & Hh). rewrite <- (app_nil_r hs), (merge_loop_headings _ _ Hh). reflexivity.
  - cbn [app merge_loop]. destruct (heading_text r); [apply IH|]. now rewrite IH.
Qed.
(** when merging succeeds; only the index column can make it fail *)
Theorem C48_success rows :
  (exists out, merge_section_only_lines rows = Ok out)
  <-> forall l1 h r l2, rows = l1 ++ h :: r :: l2 -> (exists t, heading h t) -> no_heading r -> numbered r.
Proof.
  split.
  - intros (out & H). apply merge_ok in H. eapply merged_numbered, H.
  - intros H. apply (merge_loop_total rows []); [congruence|exact H].
Qed.
Theorem C48_exceptions rows e : merge_section_only_lines rows = Raise e -> e = KeyError \/ e = TypeError \/ e = ValueError.
Proof. apply merge_raise. Qed.
Print Assumptions C48_merging.
Print Assumptions C48_other_rows_kept.
Print Assumptions C48_headings_at_the_end_are_dropped.
Print Assumptions C48_success.
Print Assumptions C48_exceptions.
Example C48_instance : exists a b c d e,
  merge_section_only_lines ex_rows = Ok [a; b; c; d; e]
  /\ dict_get (u "Segment Gruppe") a = Some (Some (u "Nachrichten- Kopfsegment")) /\ dict_get [] a = Some (Some (u "1"))
  /\ dict_get (u "Segment Gruppe") d = Some (Some (u "Beginn")) /\ nth_error ex_rows 2 = Some b /\ nth_error ex_rows 5 = Some e.
Proof. do 5 eexists. split; [vm_compute; reflexivity|]. repeat split. Qed.

(** merging is not idempotent: three spaces become two, then one *)
Theorem C48_idempotent_refuted : exists rows out, merge_section_only_lines rows = Ok out /\ merge_section_only_lines out <> Ok out.
Proof.
  exists [ex_row "0" "a   b" "" "" "" "" "" ""; ex_row "1" "" "UNH" "" "" "" "Muss" ""]. eexists. split; [vm_compute; reflexivity|].
  vm_compute. discriminate.
Qed.
Print Assumptions C48_idempotent_refuted.

(** *** C49 *)

(** what counts as value pool entry *)
Theorem C49_entries o : is_value_pool_entry o = true <-> exists s, o = Some s /\ looks_like_entry s.
Proof. apply is_entry_ok. Qed.
Theorem C49_separation x y e n : separate_value_pool_entry_and_name x y = (e, n) <-> separated x y e n.
Proof. apply separate_spec. Qed.
(** the order of the columns is irrelevant if exactly one of them holds an entry *)
Theorem C49_order_is_irrelevant x y e n x' y' :
  comes_back_as x x' -> comes_back_as y y' ->
  (exists s, x' = Some s /\ looks_like_entry s) -> ~ (exists s, y' = Some s /\ looks_like_entry s) ->
  (separate_value_pool_entry_and_name x y = (e, n) <-> e = x' /\ n = y')
  /\ (separate_value_pool_entry_and_name y x = (e, n) <-> e = x' /\ n = y').
Proof.
  intros Hx Hy Ex Ey. rewrite !separate_spec. unfold separated. split; split.
  - intros (x2 & y2 & Hx2 & Hy2 & H). rewrite (L_LocationXml.comes_back_unique _ _ _ Hx2 Hx), (L_LocationXml.comes_back_unique _ _ _ Hy2 Hy) in H. tauto.
  - intros [-> ->]. exists x', y'. tauto.
  - intros (y2 & x2 & Hy2 & Hx2 & H). rewrite (L_LocationXml.comes_back_unique _ _ _ Hx2 Hx), (L_LocationXml.comes_back_unique _ _ _ Hy2 Hy) in H. tauto.
  - intros [-> ->]. exists y', x'. tauto.
Qed.
(** the entry that is returned need not be one *)
Theorem C49_entry_is_an_entry_refuted : exists x y s n,
  separate_value_pool_entry_and_name x y = (Some s, n) /\ ~ looks_like_entry s.
Proof.
  exists (Some (u "foo bar")), (Some (u "bar foo")), (u "bar foo"), (Some (u "foo bar")). split; [vm_compute; reflexivity|].
  intros H. assert (K : is_value_pool_entry (Some (u "bar foo")) = true) by (apply is_entry_ok; eauto). vm_compute in K. discriminate.
Qed.
Print Assumptions C49_entries.
Print Assumptions C49_separation.
Print Assumptions C49_order_is_irrelevant.
Print Assumptions C49_entry_is_an_entry_refuted.
Example C49_instance :
  separate_value_pool_entry_and_name (Some (u " Sender ")) (Some (u "MS ")) = (Some (u "MS"), Some (u "Sender"))
  /\ separate_value_pool_entry_and_name (Some (u "E01")) None = (Some (u "E01"), None)
  /\ separate_value_pool_entry_and_name (Some (u "Name")) (Some (u " ")) = (None, Some (u "Name"))
  /\ is_value_pool_entry (Some (u "GABi-RLMoT")) = true /\ is_value_pool_entry (Some (u "1.1a")) = true /\ is_value_pool_entry (Some (u "G_0001")) = true
  /\ is_value_pool_entry (Some (u "MP-ID")) = false /\ is_value_pool_entry (Some (u "z")) = false.
Proof. repeat split; vm_compute; reflexivity. Qed.

(** *** C52 *)
Theorem C52_expression_column given names p : get_raw_rows given names = Ok p <-> expression_column given names p.
Proof.
  unfold get_raw_rows, expression_column, get_name_of_expression_column. destruct given as [[|c s]|]; cbn [otruthy truthy].
  - split.
    + intros H. right. split; [auto|]. destruct names as [ns|]; [|discriminate]. exists ns. split; [reflexivity|].
      destruct (find _ ns) as [q|] eqn:F; [|discriminate]. apply column_ok in F. destruct (truthy q); [|discriminate]. injection H as <-. exact F.
    + intros [[[= <-] Hn]|(_ & ns & -> & H)]; [congruence|]. assert (H' := H). apply column_ok in H. rewrite H.
      destruct H' as (l1 & l2 & _ & (d & n & E & [L _] & _) & _). destruct p as [|a p]; [|reflexivity]. destruct d; discriminate.
  - split; [intros [= <-]; left; split; [reflexivity|discriminate]|]. intros [[[= <-] _]|([H|H] & _)]; [reflexivity|discriminate|discriminate].
  - split.
    + intros H. right. split; [auto|]. destruct names as [ns|]; [|discriminate]. exists ns. split; [reflexivity|].
      destruct (find _ ns) as [q|] eqn:F; [|discriminate]. apply column_ok in F. destruct (truthy q); [|discriminate]. injection H as <-. exact F.
    + intros [[[=] _]|(_ & ns & -> & H)]. assert (H' := H). apply column_ok in H. rewrite H.
      destruct H' as (l1 & l2 & _ & (d & n & E & [L _] & _) & _). destruct p as [|a p]; [|reflexivity]. destruct d; discriminate.
Qed.
(** without such a column: ValueError *)
Theorem C52_no_expression_column given names : (~ exists p, expression_column given names p) <-> get_raw_rows given names = Raise ValueError.
Proof.
  split.
  - intros H. destruct (get_raw_rows given names) as [p|e] eqn:E; [exfalso; apply H; exists p; now apply C52_expression_column|].
    unfold get_raw_rows in E. destruct (if otruthy given then _ else _) as [s|]; [destruct (truthy s); [discriminate|]|]; congruence.
  - intros H (p & Hp). apply C52_expression_column in Hp. congruence.
Qed.
Print Assumptions C52_expression_column.
Print Assumptions C52_no_expression_column.
Example C52_instance :
  get_raw_rows None (Some [u ""; u "Segment Gruppe"; u "1104"; u "11042"; u "11043"]) = Ok (u "11042")
  /\ get_raw_rows (Some []) (Some [u "foo"; u "110422"]) = Raise ValueError /\ get_raw_rows (Some (u "foo")) None = Ok (u "foo").
Proof. repeat split; vm_compute; reflexivity. Qed.

(** *** C50 *)

(** the lines of a reader: one per row that is neither a heading nor otherwise skipped, in the
    order of the rows, with the values of the row and the section of the closest heading *)
Theorem C50_lines given guids names raw p st :
  new_FlatAhbCsvReader given guids names raw = Ok (p, st) ->
  expression_column given names p /\ exists rows, merged raw rows /\ lines_of p guids rows (rd_rows st).
Proof.
  unfold new_FlatAhbCsvReader. intros H. apply bind_ok in H as (p' & Hp & H). apply bind_ok in H as (rows & Hm & H).
  apply bind_ok in H as (st' & Hr & [= <- <-]). split; [now apply C52_expression_column|]. exists rows. split; [now apply merge_ok|].
  now apply read_all in Hr as [Hr _].
Qed.
Theorem C50_ascending given guids names raw p st :
  new_FlatAhbCsvReader given guids names raw = Ok (p, st) ->
  forall a l b m c, rd_rows st = a ++ l :: b ++ m :: c -> exists i j, al_index l = Some i /\ al_index m = Some j /\ (0 <= i < j)%Z.
Proof.
  intros H a l b m c E. apply C50_lines in H as (_ & rows & _ & ps & Hs & _ & Hf). rewrite E in Hf.
  apply Forall2_app_inv_r in Hf as (p1 & p2 & Hf1 & Hf2 & ->). inversion Hf2 as [|i ? p3 ? Hi Hf3]; subst.
  apply Forall2_app_inv_r in Hf3 as (p4 & p5 & Hf4 & Hf5 & ->). inversion Hf5 as [|j ? p6 ? Hj Hf6]; subst.
  destruct Hi as (r1 & _ & _ & _ & _ & _ & _ & _ & _ & Hi & _). destruct Hj as (r2 & _ & _ & _ & _ & _ & _ & _ & _ & Hj & _).
  exists (Z.of_nat i), (Z.of_nat j). split; [exact Hi|]. split; [exact Hj|]. specialize (Hs p1 i p4 j p6 eq_refl). lia.
Qed.
(** which files can be read *)
Theorem C50_readable_files given guids names raw :
  (exists reader, new_FlatAhbCsvReader given guids names raw = Ok reader)
  <-> exists p rows, expression_column given names p /\ merged raw rows /\ Forall (readable_row p) rows.
Proof.
  unfold new_FlatAhbCsvReader. split.
  - intros (rd & H). apply bind_ok in H as (p & Hp & H). apply bind_ok in H as (rows & Hm & H). apply bind_ok in H as (st & Hr & _).
    exists p, rows. split; [now apply C52_expression_column|]. split; [now apply merge_ok|].
    apply (read_rows_ok p guids rows 0 (mkReader None [] [])); [discriminate|eauto].
  - intros (p & rows & Hp & Hm & Hr). apply C52_expression_column in Hp. apply merge_ok in Hm. rewrite Hp. cbn [bind]. rewrite Hm. cbn [bind].
    apply (read_rows_ok p guids rows 0 (mkReader None [] [])) in Hr as (st & Hr); [|discriminate]. rewrite Hr. cbn [bind]. eauto.
Qed.
Theorem C50_exceptions given guids names raw e :
  new_FlatAhbCsvReader given guids names raw = Raise e -> e = KeyError \/ e = TypeError \/ e = ValueError.
Proof.
  unfold new_FlatAhbCsvReader. destruct (get_raw_rows given names) as [p|e'] eqn:Hp; cbn [bind].
  - destruct (merge_section_only_lines raw) as [rows|e'] eqn:Hm; cbn [bind].
    + destruct (read_rows p guids 0 (mkReader None [] []) rows) as [st|e'] eqn:Hr; cbn [bind]; [discriminate|].
      intros [= <-]. eapply read_rows_raise in Hr; [exact Hr|discriminate].
    + intros [= <-]. now apply merge_raise in Hm.
  - intros [= <-]. right; right. unfold get_raw_rows in Hp. destruct (if otruthy given then _ else _) as [s|]; [destruct (truthy s); [discriminate|]|]; congruence.
Qed.
(** to_flat_ahb: the lines that hold information, in their order; it may raise ValueError *)
Theorem C50_to_flat_ahb p st a :
  reader_to_flat_ahb (p, st) = Ok a ->
  fa_lines a = filter holds_any_information (rd_rows st) /\ me_pruefi (fa_meta a) = p
  /\ me_description (fa_meta a) = None /\ me_direction (fa_meta a) = None.
Proof.
  unfold reader_to_flat_ahb, new_FlatAhb. cbn [fst snd]. intros H. apply bind_ok in H as (m & Hm & H). apply bind_ok in H as (x & _ & [= <-]).
  unfold new_Meta in Hm. apply bind_ok in Hm as (y & _ & [= <-]). cbn. auto.
Qed.
Theorem C50_to_flat_ahb_success p st :
  let lines := filter holds_any_information (rd_rows st) in
  let accepted := Forall accepted_line lines
                  /\ exists cs n, is_chunking enters_group lines cs /\ count_of C_FlatAhb.control_chunk cs n /\ n <= 2 in
  (accepted -> exists a, reader_to_flat_ahb (p, st) = Ok a) /\ (~ accepted -> reader_to_flat_ahb (p, st) = Raise ValueError).
Proof.
  unfold reader_to_flat_ahb. cbn [fst snd]. change (new_Meta (mkMeta p (Some maus_VERSION) None None)) with (Ok (mkMeta p (Some maus_VERSION) None None)). cbn [bind].
  destruct (C_FlatAhb.C22_acceptance (mkMeta p (Some maus_VERSION) None None) (filter holds_any_information (rd_rows st))) as [A B].
  split; [intros H; eexists; exact (A H)|exact B].
Qed.
Print Assumptions C50_lines.
Print Assumptions C50_ascending.
Print Assumptions C50_readable_files.
Print Assumptions C50_exceptions.
Print Assumptions C50_to_flat_ahb.
Print Assumptions C50_to_flat_ahb_success.
Example C50_instance : exists st a b c,
  new_FlatAhbCsvReader None (fun n => N.of_nat n) (Some [u "Segment"; u "11042"]) ex_rows = Ok (u "11042", st)
  /\ rd_rows st = [a; b; c] /\ al_section b = Some (u "Nachrichten- Kopfsegment") /\ al_element b = Some (u "0062") /\ al_name b = Some (u "Nachrichten-Referenznummer")
  /\ al_index c = Some 4%Z /\ al_group c = Some (u "SG2") /\ al_entry c = Some (u "MS") /\ al_section c = Some (u "Beginn")
  /\ rd_bedingungen st = [(u "931", u "Format: ZZZ = +00"); (u "492", u "Strom")].
Proof. do 4 eexists. split; [vm_compute; reflexivity|]. split; [reflexivity|]. repeat split. Qed.
Example C50_to_flat_ahb_instance : exists reader a,
  new_FlatAhbCsvReader None (fun n => N.of_nat n) (Some [u "Segment"; u "11042"]) ex_rows = Ok reader
  /\ reader_to_flat_ahb reader = Ok a /\ List.length (fa_lines a) = 3.
Proof. do 2 eexists. split; [vm_compute; reflexivity|]. split; vm_compute; reflexivity. Qed.
(** a blank expression makes reading fail although it carries no information *)
Theorem C50_blank_expression_refuted : exists r,
  (forall key v, has r key (Some v) -> key = [] \/ key = u "Segment" \/ blank v) /\ In (u "11042") (map fst r) /\ In [] (map fst r)
  /\ new_FlatAhbCsvReader None (fun _ => 0%N) (Some (map fst r)) [r] = Raise ValueError.
Proof.
  exists (ex_row "0" "" "UNH" "" "" "" " " ""). split; [|split; [|split]].
  - intros key v H. apply dict_get_In in H. cbn [ex_row In] in H.
    repeat (destruct H as [H|H]; [injection H as <- <-; first [now left|right; left; reflexivity|right; right; vm_compute; repeat constructor]|]). destruct H.
  - vm_compute. tauto.
  - vm_compute. tauto.
  - vm_compute. reflexivity.
Qed.
Print Assumptions C50_blank_expression_refuted.

(** *** C51 *)

(** the conditions of any text *)
Theorem C51_conditions s d : extract_bedingungen (Some s) = d <-> exists l, conditions_in s l /\ last_wins l d.
Proof. apply extract_ok. Qed.
(** in particular of a text that lists conditions *)
Theorem C51_listing prefix conditions :
  ~ In chr_lbracket prefix -> (forall k t, In (k, t) conditions -> condition_key k /\ bracket_free t) ->
  exists l, Forall2 trimmed (with_text conditions) l /\ last_wins l (extract_bedingungen (Some (prefix ++ listing conditions))).
Proof.
  intros Hp Hc. destruct (conditions_listing conditions Hc) as (l & Hf & Hl). exists l. split; [exact Hf|].
  pose proof (last_wins_dict_of l) as W. rewrite <- (extract_eq _ l (skip_conditions _ _ _ Hp Hl)) in W. exact W.
Qed.
(** the conditions of a file: those of all its rows, the last text of each key *)
Theorem C51_reader given guids names raw p st :
  new_FlatAhbCsvReader given guids names raw = Ok (p, st) ->
  exists rows cells l, merged raw rows /\ Forall2 (fun r c => has r (u "Bedingung") c) rows cells
    /\ all_conditions cells l /\ last_wins l (extract_condition_texts (p, st)).
Proof.
  unfold new_FlatAhbCsvReader. intros H. apply bind_ok in H as (p' & Hp & H). apply bind_ok in H as (rows & Hm & H).
  apply bind_ok in H as (st' & Hr & [= <- <-]). apply read_all in Hr as [_ (cells & l & H1 & H2 & H3)].
  exists rows, cells, l. split; [now apply merge_ok|auto].
Qed.
Print Assumptions C51_conditions.
Print Assumptions C51_listing.
Print Assumptions C51_reader.
Example C51_instance :
  extract_bedingungen (Some (u "Wenn [1] foo  [22]bar [x] [3] [1] baz")) = [(u "1", u "baz"); (u "22", u "bar"); (u "3", u "")]
  /\ extract_bedingungen None = []
  /\ extract_bedingungen (Some (u "Wenn " ++ listing [(u "1", u " foo "); (u "2", []); (u "2", u "bar")])) = [(u "1", u "foo"); (u "2", u "bar")].
Proof. repeat split; vm_compute; reflexivity. Qed.
