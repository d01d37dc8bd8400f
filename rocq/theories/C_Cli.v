(** Properties C46 (exceptions), C61 - C63, C70, C71: the provider, the command line tool and the order of keys. *)
From Coq Require Import Ascii String List NArith ZArith Bool Permutation Sorted.
From Verif Require Import PyBase PyStr PyRe M_Components M_Ahb M_Sgh M_Navigation M_Matching M_Schema M_Xml M_MigXml M_Cli
  L_Base S_FlatAhb S_DeepAhb L_DeepAhb C_DeepAhb S_Json L_Json L_Load C_Json S_Cli L_Reorder L_LoadErrors L_DeepValid L_Cli.
Import ListNotations.
Local Open Scope list_scope.

(** *** C46: whatever the JSON value is, loading returns an object or raises one of three exceptions *)
Theorem C46_exceptions class_attribute j e :
  load_sgh j = Raise e \/ load_flat j = Raise e \/ load_deep class_attribute j = Raise e ->
  e = ValidationError \/ e = ValueError \/ e = TypeError.
Proof.
  intros [H|[H|H]]; [exact (proj1 (mild_sgh j) e H)|exact (mild_flat j e H)|exact (mild_deep class_attribute j e H)].
Qed.
Print Assumptions C46_exceptions.
(** each of them occurs *)
Example C46_exceptions_instance :
  load_sgh JNull = Raise ValidationError
  /\ load_sgh (JObj [(u "segment_group", JNull); (u "opening_segment", JStr (u "UNH"))]) = Raise TypeError
  /\ load_meta (JObj [(u "pruefidentifikator", JStr (u "11042")); (u "description", JStr [])]) = Raise ValueError
  /\ load_deep (fun _ => None) (JObj [(u "meta", JObj [(u "pruefidentifikator", JStr (u "11042")); (u "description", JStr [])])]) = Raise ValueError.
Proof. repeat split; vm_compute; reflexivity. Qed.

(** *** C71: the order of keys *)
Theorem C71_loading_ignores_the_order_of_keys class_attribute j j' : reordered j j' ->
  load_sgh j = load_sgh j' /\ load_flat j = load_flat j' /\ load_deep class_attribute j = load_deep class_attribute j'.
Proof. intros H. split; [|split]; [now apply respectful_sgh|now apply respectful_flat|now apply respectful_deep]. Qed.
(** sorting keys yields the same value with all keys in ascending order *)
Theorem C71_sorting j : unique_keys j -> reordered j (sort_keys j) /\ ascending_keys (sort_keys j).
Proof. intros U. split; [now apply sorted_reordered|now apply sort_ascending]. Qed.
(** what is dumped has no duplicate keys *)
Theorem C71_dumped_keys_are_unique flat deep : unique_keys (dump_flat flat) /\ unique_keys (dump_deep deep).
Proof. split; [apply unique_flat|apply unique_deep]. Qed.
(** sorted or not, the same AHB is read *)
Theorem C71_sorted_ahbs_are_read_back class_attribute a :
  load_deep class_attribute (sort_keys (dump_deep a)) = load_deep class_attribute (dump_deep a).
Proof. symmetry. apply respectful_deep, sorted_reordered, unique_deep. Qed.
Print Assumptions C71_loading_ignores_the_order_of_keys.
Print Assumptions C71_sorting.
Print Assumptions C71_dumped_keys_are_unique.
Print Assumptions C71_sorted_ahbs_are_read_back.
Example C71_instance :
  let j := JObj [(u "b", JInt 1); (u "a", JList [JObj [(u "d", JNull); (u "c", JStr (u "d"))]])] in
  sort_keys j = JObj [(u "a", JList [JObj [(u "c", JStr (u "d")); (u "d", JNull)]]); (u "b", JInt 1)] /\ unique_keys j.
Proof.
  split; [vm_compute; reflexivity|]. constructor; [repeat constructor; cbn; intuition discriminate|].
  constructor; [constructor|]. constructor; [|constructor]. cbn. constructor. constructor; [|constructor].
  constructor; [repeat constructor; cbn; intuition discriminate|]. repeat constructor.
Qed.

(** *** C70: generated AHBs *)
Theorem C70_generated_ahbs_are_valid reader str_of_location flat h deep flat' :
  to_deep_ahb reader str_of_location flat h = (Ok deep, flat') -> valid_flat flat -> valid_deep deep.
Proof. intros H V. apply (to_deep_fine _ _ _ _ _ _ H). apply V. Qed.
Theorem C70_complete_iff_all_segments_have_section_names reader str_of_location flat h deep flat' :
  to_deep_ahb reader str_of_location flat h = (Ok deep, flat') -> valid_flat flat ->
  (complete deep <-> forall s, segment_of deep s -> seg_section s <> None).
Proof.
  intros H V. destruct (to_deep_fine _ _ _ _ _ _ H (proj1 V)) as [_ T]. split.
  - intros C s I. apply (C s I).
  - intros C s I. split; [auto|]. intros d. apply T. exact I.
Qed.
Print Assumptions C70_generated_ahbs_are_valid.
Print Assumptions C70_complete_iff_all_segments_have_section_names.

Section Files.
  Variables path content : Type.
  Variable path_eqb : path -> path -> bool.
  Variable parse_json : content -> result json.
  Variable write_json : json -> content * result unit.
  Variable parse_xml : content -> result element.
  Variable class_attribute : pystr -> option bool.
  Variable str_of_location : Location -> pystr.
  Variable open_for_writing : path -> option exn.

  Notation get_maus := (get_maus path content parse_json class_attribute).
  Notation generate := (generate path content parse_json parse_xml str_of_location).
  Notation main := (main path path_eqb content parse_json write_json parse_xml class_attribute str_of_location open_for_writing).
  Notation command := (command path path_eqb content parse_json write_json parse_xml class_attribute str_of_location open_for_writing).
  Notation generated := (generated path content parse_json parse_xml str_of_location).
  Notation describes_deep := (describes_deep class_attribute).

  (** *** C61 *)
  Lemma load_deep_not_found j : load_deep class_attribute j <> Raise FileNotFoundError.
  Proof. intros H. destruct (mild_deep class_attribute j _ H) as [K|[K|K]]; discriminate K. Qed.
  (** None: exactly if there is no file (parsing JSON never raises FileNotFoundError) *)
  Theorem C61_none_iff_missing fs p : (forall c, parse_json c <> Raise FileNotFoundError) ->
    (get_maus fs p = Ok None <-> fs p = Raise FileNotFoundError).
  Proof.
    intros NP. unfold M_Cli.get_maus. destruct (fs p) as [c|e]; cbn [bind].
    - split; [|discriminate]. destruct (parse_json c) as [j|e] eqn:P; cbn [bind].
      + destruct (load_deep class_attribute j) as [a|e] eqn:L; [discriminate|]. pose proof (load_deep_not_found j) as N. rewrite L in N. destruct e; congruence.
      + pose proof (NP c) as N. rewrite P in N. destruct e; congruence.
    - destruct e; split; congruence.
  Qed.
  (** an AHB: exactly if the file holds JSON that describes it *)
  Theorem C61_found fs p a :
    get_maus fs p = Ok (Some a) <-> exists c j, fs p = Ok c /\ parse_json c = Ok j /\ describes_deep j a.
  Proof.
    unfold M_Cli.get_maus. split.
    - destruct (fs p) as [c|e]; cbn [bind]; [|destruct e; discriminate]. destruct (parse_json c) as [j|e] eqn:P; cbn [bind]; [|destruct e; discriminate].
      destruct (load_deep class_attribute j) as [a'|e] eqn:L; [|destruct e; discriminate]. intros [= ->]. exists c, j. apply load_deep_ok in L. auto.
    - intros (c & j & -> & P & D). cbn [bind]. rewrite P. cbn [bind]. apply load_deep_ok in D. now rewrite D.
  Qed.
  (** an exception: exactly if the file cannot be read for another reason, is no JSON or does not describe an AHB *)
  Theorem C61_raises fs p : (forall c, parse_json c <> Raise FileNotFoundError) ->
    ((exists e, get_maus fs p = Raise e) <->
     (exists e, fs p = Raise e /\ e <> FileNotFoundError)
     \/ (exists c, fs p = Ok c /\ ((exists e, parse_json c = Raise e) \/ exists j, parse_json c = Ok j /\ forall a, ~ describes_deep j a))).
  Proof.
    intros NP. unfold M_Cli.get_maus. destruct (fs p) as [c|e]; cbn [bind].
    - destruct (parse_json c) as [j|e] eqn:P; cbn [bind].
      + destruct (load_deep class_attribute j) as [a|e] eqn:L.
        * split; [intros (e & [=])|]. apply load_deep_ok in L.
          intros [(e & [=] & _)|(c' & [= <-] & [(e & K)|(j' & K & N)])]; [congruence|]. assert (j' = j) as -> by congruence. destruct (N a L).
        * split; [|intros _; pose proof (load_deep_not_found j) as N; rewrite L in N; destruct e; eauto; congruence].
          intros _. right. exists c. split; [reflexivity|]. right. exists j. split; [exact P|]. intros a D. apply load_deep_ok in D. congruence.
      + split; [|intros _; pose proof (NP c) as N; rewrite P in N; destruct e; eauto; congruence].
        intros _. right. exists c. split; [reflexivity|]. left. eauto.
    - split.
      + intros (x & H). left. exists e. split; [reflexivity|]. intros ->. discriminate H.
      + intros [(x & [= <-] & N)|(c & [=] & _)]. destruct e; eauto; congruence.
  Qed.
  (** a file written with the schema (keys in any order) gives the stored AHB; line indexes are not stored *)
  Theorem C61_stored_ahbs_are_found fs p c j a :
    fs p = Ok c -> parse_json c = Ok j -> reordered (dump_deep a) j -> valid_deep a -> complete a ->
    exists a', get_maus fs p = Ok (Some a') /\ ahbs_related eq (fun _ i' => i' = None) a a'.
  Proof.
    intros F P R V C. destruct (C45_round_trip class_attribute a V C) as (a' & L & Q). exists a'. split; [|exact Q].
    apply C61_found. exists c, j. split; [exact F|]. split; [exact P|]. apply load_deep_ok. rewrite <- L. symmetry. now apply respectful_deep.
  Qed.

  (** *** C62 *)
  Lemma generate_generated fs f s t maus : generate fs f s t = Ok maus <-> generated fs f s t maus.
  Proof.
    unfold M_Cli.generate, S_Cli.generated. split.
    - intros H. apply bind_ok in H as (cf & Hf & H). apply bind_ok in H as (jf & Pf & H). apply bind_ok in H as (flat & Lf & H).
      apply bind_ok in H as (cs & Hs & H). apply bind_ok in H as (js & Ps & H). apply bind_ok in H as (sgh & Ls & H).
      apply bind_ok in H as (ct & Ht & H). apply bind_ok in H as (doc & Pt & H).
      destruct (to_deep_ahb _ str_of_location flat sgh) as [r flat'] eqn:D. cbn [fst] in H. subst r.
      exists cf, jf, flat, cs, js, sgh, ct, doc, flat'. apply load_flat_ok in Lf. apply load_sgh_ok in Ls. repeat (split; [assumption|]). assumption.
    - intros (cf & jf & flat & cs & js & sgh & ct & doc & flat' & Hf & Pf & Lf & Hs & Ps & Ls & Ht & Pt & D).
      apply load_flat_ok in Lf. apply load_sgh_ok in Ls.
      rewrite Hf. cbn [bind]. rewrite Pf. cbn [bind]. rewrite Lf. cbn [bind]. rewrite Hs. cbn [bind]. rewrite Ps. cbn [bind]. rewrite Ls. cbn [bind].
      rewrite Ht. cbn [bind]. rewrite Pt. cbn [bind]. now rewrite D.
  Qed.
  Definition exactly_one (check output : option path) : Prop :=
    (exists p, check = Some p /\ output = None) \/ (exists p, check = None /\ output = Some p).
  (** without exactly one of the options: abort, nothing is written *)
  Theorem C62_aborts fs f s t check output :
    ~ exactly_one check output -> main fs f s t check output = (Raise ClickAbort, fs).
  Proof.
    intros N. destruct check as [c|], output as [o|]; try reflexivity; exfalso; apply N; [left|right]; eauto.
  Qed.
  (** with a check path nothing is written *)
  Theorem C62_check_never_writes fs f s t c output r fs' :
    main fs f s t (Some c) output = (r, fs') -> fs' = fs.
  Proof.
    destruct output as [o|]; [intros [= _ <-]; reflexivity|]. unfold M_Cli.main. cbn [is_none is_some andb orb].
    destruct (generate fs f s t); intros [= _ <-]; reflexivity.
  Qed.
  (** at most the file of the output path changes *)
  Theorem C62_only_the_output_file_changes fs f s t check output r fs' :
    (forall p q, path_eqb p q = true <-> p = q) ->
    main fs f s t check output = (r, fs') -> forall q, output <> Some q -> fs' q = fs q.
  Proof.
    intros PE H q N. destruct check as [c|]; [apply C62_check_never_writes in H; now subst|].
    destruct output as [o|]; [|injection H as _ <-; reflexivity]. unfold M_Cli.main in H. cbn [is_none is_some andb orb] in H.
    destruct (generate fs f s t) as [maus|e]; [|injection H as _ <-; reflexivity]. unfold write_maus in H.
    destruct (open_for_writing o); [injection H as _ <-; reflexivity|]. destruct (write_json _) as [c r'].
    assert (fs' = write path path_eqb content fs o c) as -> by (destruct r'; injection H as _ <-; reflexivity).
    unfold write. destruct (path_eqb q o) eqn:E; [|reflexivity]. apply PE in E as ->. congruence.
  Qed.
  (** if the files cannot be converted nothing is written *)
  Theorem C62_nothing_written_without_result fs f s t check output :
    (forall maus, ~ generated fs f s t maus) -> exists e, main fs f s t check output = (Raise e, fs).
  Proof.
    intros N. unfold M_Cli.main. destruct (_ || _); [eauto|].
    destruct (generate fs f s t) as [maus|e] eqn:G; [|eauto]. apply generate_generated in G. destruct (N maus G).
  Qed.
  (** with an output path the generated AHB is written, with sorted keys *)
  Theorem C62_written fs f s t o r fs' maus :
    (forall p, path_eqb p p = true) ->
    main fs f s t None (Some o) = (r, fs') -> generated fs f s t maus -> open_for_writing o = None ->
    exists j, reordered (dump_deep maus) j /\ ascending_keys j /\ fs' o = Ok (fst (write_json j)) /\ r = snd (write_json j).
  Proof.
    intros PE H G O. apply generate_generated in G. unfold M_Cli.main in H. cbn [is_none is_some andb orb] in H. rewrite G in H.
    unfold write_maus in H. rewrite O in H. exists (sort_keys (dump_deep maus)).
    destruct (C71_sorting _ (unique_deep maus)) as [R A]. split; [exact R|]. split; [exact A|].
    destruct (write_json (sort_keys (dump_deep maus))) as [c r'] eqn:W. cbn [fst snd].
    assert (fs' = write path path_eqb content fs o c /\ r = r') as [-> ->].
    { destruct r' as [[]|e]; injection H as <- <-; split; reflexivity. }
    split; [unfold write; now rewrite PE|reflexivity].
  Qed.
  (** the file cannot be opened: nothing is written *)
  Theorem C62_not_opened fs f s t o e maus : generated fs f s t maus -> open_for_writing o = Some e ->
    main fs f s t None (Some o) = (Raise e, fs).
  Proof.
    intros G O. apply generate_generated in G. unfold M_Cli.main. cbn [is_none is_some andb orb]. rewrite G. unfold write_maus. now rewrite O.
  Qed.
  (** the options of the command must name readable files or directories; the output must be no directory *)
  Definition unacceptable (stat : path -> option status) (f s t : path) (check output : option path) : Prop :=
    (exists p, (p = f \/ p = s \/ p = t \/ check = Some p) /\ forall st, stat p = Some st -> st_readable st = false)
    \/ (exists p st, output = Some p /\ stat p = Some st /\ (st_directory st = true \/ st_readable st = false)).
  Lemma options_iff stat f s t check output :
    accepts_input path stat f && accepts_input path stat s && accepts_input path stat t
    && match check with Some p => accepts_input path stat p | None => true end
    && match output with Some p => accepts_output path stat p | None => true end = true <-> ~ unacceptable stat f s t check output.
  Proof using.
    clear path_eqb open_for_writing.
    assert (I : forall p, accepts_input path stat p = false <-> forall st, stat p = Some st -> st_readable st = false).
    { intros p. unfold accepts_input. destruct (stat p) as [st|]; [|split; [discriminate|reflexivity]].
      split; [intros H st' [= <-]; exact H|intros H; exact (H st eq_refl)]. }
    assert (O : forall p, accepts_output path stat p = false <-> exists st, stat p = Some st /\ (st_directory st = true \/ st_readable st = false)).
    { intros p. unfold accepts_output. destruct (stat p) as [st|]; [|split; [discriminate|intros (st & [=] & _)]]. split.
      - intros H. exists st. split; [reflexivity|]. destruct (st_directory st), (st_readable st); auto.
      - intros (st' & [= <-] & [-> | ->]); [reflexivity|apply andb_false_r]. }
    split.
    - intros H. rewrite !andb_true_iff in H. destruct H as [[[[Hf Hs] Ht] Hc] Ho].
      intros [(p & P & N)|(p & st & -> & N)]; [apply I in N; destruct P as [-> |[-> |[-> | ->]]]; congruence|].
      assert (accepts_output path stat p = false) by (apply O; eauto). congruence.
    - intros N. rewrite !andb_true_iff.
      assert (J : forall p, p = f \/ p = s \/ p = t \/ check = Some p -> accepts_input path stat p = true).
      { intros p P. destruct (accepts_input path stat p) eqn:E; [reflexivity|]. exfalso. apply N. left. exists p. split; [exact P|now apply I]. }
      repeat split; try (apply J; tauto); [destruct check; [apply J; tauto|reflexivity]|].
      destruct output as [p|]; [|reflexivity]. destruct (accepts_output path stat p) eqn:E; [reflexivity|]. exfalso. apply N. right.
      apply O in E as (st & E). exists p, st. split; [reflexivity|exact E].
  Qed.
  Theorem C62_options_are_checked stat fs f s t check output :
    unacceptable stat f s t check output -> command stat fs f s t check output = (Raise ClickUsageError, fs).
  Proof. intros H. unfold M_Cli.command. destruct (_ && _) eqn:E; [apply options_iff in E; contradiction|reflexivity]. Qed.
  Theorem C62_otherwise_main_runs stat fs f s t check output :
    ~ unacceptable stat f s t check output -> command stat fs f s t check output = main fs f s t check output.
  Proof. intros H. unfold M_Cli.command. apply options_iff in H. rewrite H. reflexivity. Qed.

  (** *** C63 *)
  (** a check succeeds exactly if the file holds the generated AHB, up to line indexes *)
  Theorem C63_check fs f s t p :
    fst (main fs f s t (Some p) None) = Ok tt
    <-> exists maus c j expected, generated fs f s t maus /\ fs p = Ok c /\ parse_json c = Ok j /\ describes_deep j expected
        /\ same_but_index expected maus.
  Proof.
    unfold M_Cli.main. cbn [is_none is_some andb orb]. split.
    - destruct (generate fs f s t) as [maus|e] eqn:G; [|discriminate]. cbn [fst]. unfold check_maus. intros H.
      apply bind_ok in H as (c & F & H). apply bind_ok in H as (j & P & H). apply bind_ok in H as (ex & L & H).
      destruct (deep_eqb _ _) eqn:E; [|discriminate]. apply deep_eqb_eq, same_iff in E.
      exists maus, c, j, ex. apply generate_generated in G. apply load_deep_ok in L. auto.
    - intros (maus & c & j & ex & G & F & P & D & S0). apply generate_generated in G. apply load_deep_ok in D. rewrite G. cbn [fst].
      unfold check_maus. rewrite F. cbn [bind]. rewrite P. cbn [bind]. rewrite D. cbn [bind].
      apply same_iff, deep_eqb_eq in S0. now rewrite S0.
  Qed.
  (** if both can be read but differ, the command aborts *)
  Theorem C63_different fs f s t p maus c j expected :
    generated fs f s t maus -> fs p = Ok c -> parse_json c = Ok j -> describes_deep j expected -> ~ same_but_index expected maus ->
    main fs f s t (Some p) None = (Raise ClickAbort, fs).
  Proof.
    intros G F P D N. apply generate_generated in G. apply load_deep_ok in D. unfold M_Cli.main. cbn [is_none is_some andb orb]. rewrite G.
    unfold check_maus. rewrite F. cbn [bind]. rewrite P. cbn [bind]. rewrite D. cbn [bind]. destruct (deep_eqb _ _) eqn:E; [|reflexivity].
    apply deep_eqb_eq, same_iff in E. contradiction.
  Qed.
  (** checking what has been written: it is accepted if all segments have section names, else it cannot be read *)
  Theorem C63_written_files_pass_the_check fs f s t o fs' :
    (forall p q, path_eqb p q = true <-> p = q) ->
    (forall j c, unique_keys j -> float_free j -> write_json j = (c, Ok tt) -> parse_json c = Ok j) ->
    ~ In o [f; s; t] ->
    main fs f s t None (Some o) = (Ok tt, fs') ->
    exists maus, generated fs f s t maus
      /\ ((forall x, segment_of maus x -> seg_section x <> None) -> main fs' f s t (Some o) None = (Ok tt, fs'))
      /\ (~ (forall x, segment_of maus x -> seg_section x <> None) -> main fs' f s t (Some o) None = (Raise ValidationError, fs')).
  Proof.
    intros PE W N H. assert (PR : forall p, path_eqb p p = true) by (intros; now apply PE).
    destruct (generate fs f s t) as [maus|e] eqn:G.
    2:{ exfalso. unfold M_Cli.main in H. cbn [is_none is_some andb orb] in H. rewrite G in H. discriminate. }
    exists maus. pose proof (proj1 (generate_generated _ _ _ _ _) G) as G'. split; [exact G'|].
    assert (O : open_for_writing o = None).
    { destruct (open_for_writing o) as [e|] eqn:O; [|reflexivity]. rewrite (C62_not_opened _ _ _ _ _ _ _ G' O) in H. discriminate. }
    destruct (C62_written fs f s t o _ fs' maus PR H G' O) as (j & R & _ & F & E).
    assert (P : parse_json (fst (write_json j)) = Ok j).
    { apply W; [eapply reordered_unique; [exact R|apply unique_deep]|eapply reordered_free; [exact R|apply free_deep]|].
      destruct (write_json j); cbn in *; congruence. }
    assert (same : forall q, q = f \/ q = s \/ q = t -> fs' q = fs q).
    { intros q Q. apply (C62_only_the_output_file_changes fs f s t None (Some o) (Ok tt) fs' PE H). intros [= ->]. apply N. cbn. intuition. }
    assert (G2 : generate fs' f s t = Ok maus).
    { unfold M_Cli.generate in *. rewrite !same by auto. exact G. }
    destruct G' as (cf & jf & flat & cs & js & sgh & ct & doc & flat' & _ & _ & Df & _ & _ & _ & _ & _ & D).
    assert (V : valid_flat flat) by (destruct Df as (? & _ & _ & _ & _ & V); exact V).
    pose proof (C70_generated_ahbs_are_valid _ _ _ _ _ _ D V) as VD.
    pose proof (C70_complete_iff_all_segments_have_section_names _ _ _ _ _ _ D V) as CI.
    assert (C : main fs' f s t (Some o) None = (check_maus path content parse_json class_attribute fs' maus o, fs')).
    { unfold M_Cli.main. cbn [is_none is_some andb orb]. now rewrite G2. }
    rewrite C. unfold check_maus. rewrite F. cbn [bind]. rewrite P. cbn [bind].
    rewrite <- (respectful_deep class_attribute _ _ R). split; intros Q.
    - destruct (C45_round_trip class_attribute maus VD (proj2 CI Q)) as (a' & -> & S0). cbn [bind].
      assert (same_but_index a' maus) as S1.
      { apply same_iff. symmetry. apply same_iff. destruct S0 as [M F2]. split; [exact M|].
        eapply Forall2_impl; [|exact F2]. intros g g'. apply groups_forget. }
      apply same_iff, deep_eqb_eq in S1. now rewrite S1.
    - rewrite (C45_incomplete_ahbs_are_rejected class_attribute maus VD); [reflexivity|]. intros K. apply Q. exact (proj1 CI K).
  Qed.
End Files.
Print Assumptions C61_none_iff_missing.
Print Assumptions C61_found.
Print Assumptions C61_raises.
Print Assumptions C61_stored_ahbs_are_found.
Print Assumptions C62_aborts.
Print Assumptions C62_check_never_writes.
Print Assumptions C62_only_the_output_file_changes.
Print Assumptions C62_nothing_written_without_result.
Print Assumptions C62_written.
Print Assumptions C62_not_opened.
Print Assumptions C62_options_are_checked.
Print Assumptions C62_otherwise_main_runs.
Print Assumptions C63_check.
Print Assumptions C63_different.
Print Assumptions C63_written_files_pass_the_check.

(** ** an example: files are numbered and hold a JSON value or an XML document *)
Definition ex_content : Type := json + element.
Definition ex_parse_json (c : ex_content) : result json := match c with inl j => Ok j | inr _ => Raise ValueError end.
Definition ex_parse_xml (c : ex_content) : result element := match c with inr e => Ok e | inl _ => Raise ValueError end.
Definition ex_write_json (j : json) : ex_content * result unit := (inl j, Ok tt).
Definition ex_field (name ref : string) : element :=
  Element (u "field") [(u "name", u name); (u "ref", u ref); (u "meta.id", u name)] None [].
Definition ex_class (ref name key : string) (children : list element) : element :=
  Element (u "class") [(u "name", u name); (u "ref", u ref); (u "key", u key)] None children.
Definition ex_document : element :=
  Element (u "UTILMD") [] None
    [ex_class "/" "Dokument" "" [ex_class "UNH" "Nachricht" ""
       [ex_class "SG2" "Absender" "NAD:1:1[1:0=MS]" [ex_class "NAD" "Partner" "" [ex_field "3035" "NAD:1:1[1:0=MS]"]]]]].
Definition ex_cli_line (g s d v : option string) (name expression section : option string) : AhbLine :=
  mkLine None (option_map u g) (option_map u s) (option_map u d) None (option_map u v) (option_map u name) (option_map u expression) None
         (option_map u section) None.
Definition ex_cli_lines (section : option string) : list AhbLine :=
  [ ex_cli_line None (Some "UNH") None None None (Some "Muss") (Some "Nachrichtenkopf");
    ex_cli_line (Some "SG2") (Some "NAD") None None None (Some "Muss") section;
    ex_cli_line (Some "SG2") (Some "NAD") (Some "3035") (Some "MS") (Some "Absender") (Some "X") section ]%string.
Definition ex_cli_flat (section : option string) : FlatAhb := mkFlat (mkMeta (u "11042") None None None) (ex_cli_lines section).
Definition ex_cli_sgh : Sgh := mkSgh None (u "UNH") (Some [mkSgh (Some (u "SG2")) (u "NAD") None]).
Definition ex_files (section : option string) (p : nat) : result ex_content :=
  match p with
  | 0 => Ok (inl (dump_flat (ex_cli_flat section)))
  | 1 => Ok (inl (dump_sgh ex_cli_sgh))
  | 2 => Ok (inr ex_document)
  | _ => Raise FileNotFoundError
  end.
Definition ex_main := main nat Nat.eqb ex_content ex_parse_json ex_write_json ex_parse_xml (fun _ => None) (fun _ => u "AhbLocation") (fun _ => None).
Definition ex_after (section : option string) := snd (ex_main (ex_files section) 0 1 2 None (Some 3)).
(** with section names the written file passes the check and is found by the provider, without them it cannot be read;
    nothing is written without or with both options *)
Example C63_instance :
  let fs := ex_files (Some "Absender"%string) in let fs' := ex_after (Some "Absender"%string) in
  fst (ex_main fs 0 1 2 None (Some 3)) = Ok tt
  /\ fst (ex_main fs' 0 1 2 (Some 3) None) = Ok tt
  /\ fst (ex_main (ex_files None) 0 1 2 None (Some 3)) = Ok tt
  /\ fst (ex_main (ex_after None) 0 1 2 (Some 3) None) = Raise ValidationError
  /\ fst (ex_main (fun p => match p with 0 => fs 0 | 3 => ex_after (Some "Empfaenger"%string) 3 | _ => fs' p end) 0 1 2 (Some 3) None) = Raise ClickAbort
  /\ fst (ex_main fs 0 1 2 None None) = Raise ClickAbort /\ fst (ex_main fs' 0 1 2 (Some 3) (Some 4)) = Raise ClickAbort
  /\ snd (ex_main fs' 0 1 2 (Some 3) (Some 4)) 4 = Raise FileNotFoundError.
Proof. vm_compute. repeat split. Qed.
Example C62_instance : exists maus, generated nat ex_content ex_parse_json ex_parse_xml (fun _ => u "AhbLocation") (ex_files (Some "Absender"%string)) 0 1 2 maus
  /\ List.length (da_lines maus) = 1 /\ (forall maus', ~ generated nat ex_content ex_parse_json ex_parse_xml (fun _ => u "AhbLocation") (ex_files None) 0 1 1 maus').
Proof.
  set (g := generate nat ex_content ex_parse_json ex_parse_xml (fun _ => u "AhbLocation") (ex_files (Some "Absender"%string)) 0 1 2).
  destruct g as [maus|e] eqn:E; [|exfalso; revert E; subst g; vm_compute; discriminate].
  exists maus. split; [apply generate_generated; exact E|]. split.
  - assert (H : match g with Ok m => List.length (da_lines m) = 1 | Raise _ => False end) by (vm_compute; reflexivity). now rewrite E in H.
  - intros maus' H. apply generate_generated in H. vm_compute in H. discriminate.
Qed.
Definition ex_get := get_maus nat ex_content ex_parse_json (fun _ => None).
Example C61_instance :
  (forall c, ex_parse_json c <> Raise FileNotFoundError)
  /\ ex_get (ex_after (Some "Absender"%string)) 4 = Ok None
  /\ ex_get (ex_after (Some "Absender"%string)) 2 = Raise ValueError
  /\ ex_get (ex_after (Some "Absender"%string)) 1 = Raise ValidationError
  /\ (exists a, ex_get (ex_after (Some "Absender"%string)) 3 = Ok (Some a) /\ List.length (get_all_value_pools a) = 1).
Proof.
  split; [intros [j|e]; discriminate|]. repeat (split; [vm_compute; reflexivity|]).
  eexists. split; vm_compute; reflexivity.
Qed.
Example C70_instance : exists deep flat', to_deep_ahb (get_edifact_stack (new_MigXmlReader ex_document)) (fun _ => []) (ex_cli_flat None) ex_cli_sgh = (Ok deep, flat')
  /\ valid_flat (ex_cli_flat None) /\ valid_deep deep /\ ~ complete deep.
Proof.
  assert (V : valid_flat (ex_cli_flat None)).
  { apply (C46_loaded_objects_are_valid (fun _ => None) (dump_flat (ex_cli_flat None))). vm_compute. reflexivity. }
  destruct (to_deep_ahb (get_edifact_stack (new_MigXmlReader ex_document)) (fun _ => []) (ex_cli_flat None) ex_cli_sgh) as [[deep|e] flat'] eqn:E.
  2:{ exfalso. apply (f_equal fst) in E. vm_compute in E. discriminate. }
  exists deep, flat'. split; [reflexivity|]. split; [exact V|]. pose proof (C70_generated_ahbs_are_valid _ _ _ _ _ _ E V) as VD. split; [exact VD|].
  intros C. destruct (C45_round_trip (fun _ => None) deep VD C) as (a' & L & _).
  assert (K : load_deep (fun _ => None) (dump_deep (match fst (to_deep_ahb (get_edifact_stack (new_MigXmlReader ex_document)) (fun _ => []) (ex_cli_flat None) ex_cli_sgh) with Ok d => d | Raise _ => deep end)) = Raise ValidationError)
    by (vm_compute; reflexivity).
  rewrite E in K. cbn [fst] in K. congruence.
Qed.

(** the hypotheses of the single theorems: a path that cannot be opened for writing; missing, unreadable and misplaced
    options *)
Definition ex_stat (p : nat) : option status := match p with 0 | 1 | 2 => Some (mkStatus false true) | 3 => None | 4 => Some (mkStatus true true) | _ => Some (mkStatus false false) end.
Example C62_options_instance :
  let fs := ex_files (Some "Absender"%string) in
  let cannot_open := main nat Nat.eqb ex_content ex_parse_json ex_write_json ex_parse_xml (fun _ => None) (fun _ => u "AhbLocation") (fun _ => Some OSError) in
  let ex_command := command nat Nat.eqb ex_content ex_parse_json ex_write_json ex_parse_xml (fun _ => None) (fun _ => u "AhbLocation") (fun _ => None) ex_stat in
  cannot_open fs 0 1 2 None (Some 3) = (Raise OSError, fs)
  /\ Forall (fun o => ex_command fs 0 1 (fst (fst o)) (snd (fst o)) (snd o) = (Raise ClickUsageError, fs))
       [(3, None, Some 3); (5, None, Some 3); (2, Some 3, None); (2, Some 5, None); (2, None, Some 4); (2, None, Some 5)]
  /\ fst (ex_command fs 0 1 2 None (Some 3)) = Ok tt /\ ~ unacceptable nat ex_stat 0 1 2 None (Some 3) /\ unacceptable nat ex_stat 0 1 2 None (Some 4).
Proof.
  cbv zeta. split; [vm_compute; reflexivity|]. split; [repeat constructor|]. split; [vm_compute; reflexivity|]. split; [exact (proj1 (options_iff nat ex_stat 0 1 2 None (Some 3)) eq_refl)|].
  right. exists 4, (mkStatus true true). auto.
Qed.

Example C61_stored_instance :
  let j := sort_keys (dump_deep ex_json_deep) in
  reordered (dump_deep ex_json_deep) j /\ dump_deep ex_json_deep <> j /\ valid_deep ex_json_deep /\ complete ex_json_deep
  /\ exists a, ex_get (fun _ => Ok (inl j)) 0 = Ok (Some a) /\ a <> ex_json_deep.
Proof.
  split; [apply C71_sorting, C71_dumped_keys_are_unique; exact ex_json_flat|]. split; [vm_compute; discriminate|].
  split; [apply C45_instance|]. split; [apply C45_instance|].
  eexists. split; [vm_compute; reflexivity|]. intros H. apply (f_equal da_lines) in H. vm_compute in H. discriminate.
Qed.
