(** Properties C91 and C92: interrupted and simultaneous runs of the command line tool. *)
From Coq Require Import Ascii String List NArith ZArith Bool Lia Arith Permutation.
From Verif Require Import PyBase PyStr M_Components M_Ahb M_Sgh M_Navigation M_Matching M_Schema M_Xml M_MigXml M_Cli M_JsonText M_Runs
  L_Base S_FlatAhb S_DeepAhb S_Json S_Cli S_JsonText L_JsonFile C_Cli C_JsonText L_Cut L_Runs L_Worlds.
Import ListNotations.
Local Open Scope list_scope.

Section Runs.
  Variable path : Type.
  Variable path_eqb : path -> path -> bool.
  Hypothesis path_eqb_eq : forall p p', path_eqb p p' = true <-> p = p'.
  Variable float_value : pystr -> option Z.
  Variable left_over : pystr -> list N.
  Variable parse_xml : list N -> result element.
  Variable class_attribute : pystr -> option bool.
  Variable str_of_location : Location -> pystr.
  Variable open_for_writing : path -> option exn.
  Notation files := (files path (list N)).
  Notation job := (job path).
  Notation get_maus := (get_maus path (list N) (parse_json_file float_value) class_attribute).
  Notation main := (main path path_eqb (list N) (parse_json_file float_value) (write_json_file left_over) parse_xml class_attribute str_of_location open_for_writing).
  Notation steps := (steps path path_eqb float_value left_over parse_xml class_attribute str_of_location open_for_writing).
  Notation world_steps := (world_steps path path_eqb float_value left_over parse_xml class_attribute str_of_location open_for_writing).
  Notation run_of := (run_of path path_eqb float_value left_over parse_xml class_attribute str_of_location open_for_writing).
  Notation generate_of := (generate_of path float_value parse_xml str_of_location).
  Notation text_of := (text_of left_over).
  Notation opens := (opens path float_value parse_xml str_of_location open_for_writing).
  Notation alone_steps := (alone_steps path path_eqb path_eqb_eq float_value left_over parse_xml class_attribute str_of_location open_for_writing).

  (** *** the vocabulary of the statements *)
  (** the outcome and the files of a run that nobody disturbs *)
  Definition undisturbed (fs : files) (j : job) : result unit * files :=
    main fs (jb_flat_ahb_path _ j) (jb_sgh_path _ j) (jb_template_path _ j) (jb_check_path _ j) (jb_output_path _ j).
  (** the files a run reads *)
  Definition inputs (j : job) : list path :=
    [jb_flat_ahb_path _ j; jb_sgh_path _ j; jb_template_path _ j] ++ match jb_check_path _ j with Some p => [p] | None => [] end.
  (** the AHB a run generates *)
  Definition yields (fs : files) (j : job) (maus : DeepAhb) : Prop :=
    generated path (list N) (parse_json_file float_value) parse_xml str_of_location fs (jb_flat_ahb_path _ j) (jb_sgh_path _ j) (jb_template_path _ j) maus.
  (** what is in the file when writing fails at a surrogate is the encoding of a beginning of the text *)
  Definition leaves_a_beginning : Prop := forall s, exists s1 s2, s = s1 ++ s2 /\ utf8_text s1 (left_over s).
  (** runs one after the other *)
  Fixpoint in_turn (fs : files) (jobs : list job) : list (job * result unit) * files :=
    match jobs with
    | [] => ([], fs)
    | j :: rest => let (r, fs') := undisturbed fs j in let (rs, fs'') := in_turn fs' rest in ((j, r) :: rs, fs'')
    end.

  Lemma undisturbed_run fs j : undisturbed fs j = run_of fs j.
  Proof. reflexivity. Qed.
  Lemma in_inputs j p : In p (inputs j) <-> reads path j p.
  Proof.
    unfold inputs, reads. rewrite in_app_iff. destruct (jb_check_path _ j) as [c|]; cbn; split; intros; intuition (subst; auto); try congruence.
  Qed.
  Lemma yields_generate fs j maus : yields fs j maus <-> generate_of fs j = Ok maus.
  Proof. unfold yields, L_Runs.generate_of. now rewrite <- generate_generated. Qed.
  Lemma opens_text fs j p maus : opens fs j p maus -> snd (undisturbed fs j) p = Ok (fst (text_of maus)).
  Proof. intros O. rewrite undisturbed_run, (run_opens path path_eqb float_value left_over parse_xml class_attribute str_of_location open_for_writing fs j p maus O). cbn [snd]. now rewrite write_same. Qed.
  Lemma changes_opens fs j q : snd (undisturbed fs j) q <> fs q -> exists maus, opens fs j q maus.
  Proof.
    intros N. rewrite undisturbed_run in N. destruct (run_cases path path_eqb float_value left_over parse_xml class_attribute str_of_location open_for_writing fs j) as [E|(p & maus & O)]; [rewrite E in N; contradiction|].
    exists maus. destruct (path_dec path path_eqb path_eqb_eq q p) as [->|D]; [exact O|]. rewrite (run_opens path path_eqb float_value left_over parse_xml class_attribute str_of_location open_for_writing fs j p maus O) in N. cbn [snd] in N.
    rewrite write_other in N by assumption. contradiction.
  Qed.

  (** *** C91: one run *)
  (** a run that gets to its end has the outcome and leaves the files of [main] *)
  Theorem C91_finished_runs fs j r fs' : steps j (Start, fs) (Finished r, fs') ->
    r = fst (undisturbed fs j) /\ forall q, fs' q = snd (undisturbed fs j) q.
  Proof. intros H. destruct (alone_steps fs j _ H) as [K F]. split; [exact K|exact F]. Qed.

  (** and it can get there, wherever it is *)
  Theorem C91_runs_can_be_completed fs j st : steps j (Start, fs) st -> exists r fs', steps j st (Finished r, fs').
  Proof.
    intros H. destruct st as [ph fs1]. apply finishes_able.
    exact (able_steps path path_eqb float_value left_over parse_xml class_attribute str_of_location open_for_writing j _ _ H I).
  Qed.

  (** wherever a run is interrupted: only the output file may differ from what it was before, 
      and then it holds a beginning of what an undisturbed run writes *)
  Theorem C91_interrupted_runs fs j ph fs' : steps j (Start, fs) (ph, fs') ->
    forall q, fs' q = fs q
      \/ jb_check_path _ j = None /\ jb_output_path _ j = Some q
         /\ exists written rest, fs' q = Ok written /\ snd (undisturbed fs j) q = Ok (written ++ rest).
  Proof.
    intros H q. destruct (alone_steps fs j _ H) as [K F]. cbn [fst snd] in *.
    assert (C : (exists p maus written rest, opens fs j p maus /\ fst (text_of maus) = written ++ rest /\ fs' p = Ok written /\ forall q, q <> p -> fs' q = fs q) \/ fs' q = fs q).
    { destruct ph as [| | | | |k rest r|r]; cbn in F; subst; auto.
      - destruct F as (p & maus & written & (O & T & _) & F & U). left. exists p, maus, written, rest. rewrite T. auto.
      - destruct (run_cases path path_eqb float_value left_over parse_xml class_attribute str_of_location open_for_writing fs j) as [E|(p & maus & O)]; [right; now rewrite F, E|left].
        exists p, maus, (fst (text_of maus)), []. rewrite app_nil_r. split; [exact O|]. split; [reflexivity|].
        split; [rewrite F; exact (opens_text fs j p maus O)|]. intros x N. rewrite F, (run_opens path path_eqb float_value left_over parse_xml class_attribute str_of_location open_for_writing fs j p maus O). cbn [snd]. now apply write_other. }
    destruct C as [(p & maus & written & rest & O & T & F' & U)|E]; [|now left].
    destruct (path_dec path path_eqb path_eqb_eq q p) as [->|N]; [right|left; now apply U].
    pose proof O as (C & Ou & _). split; [exact C|]. split; [exact Ou|]. exists written, rest. split; [exact F'|]. rewrite (opens_text fs j p maus O). now rewrite T.
  Qed.

  (** the provider never takes a half written file for an AHB: it finds what was there before the run,
      what is there behind it, or raises a ValueError *)
  Theorem C91_half_written_files_are_noticed fs j ph fs' : leaves_a_beginning -> steps j (Start, fs) (ph, fs') ->
    forall q, get_maus fs' q = get_maus fs q \/ get_maus fs' q = get_maus (snd (undisturbed fs j)) q \/ get_maus fs' q = Raise ValueError.
  Proof.
    intros L H q. destruct (C91_interrupted_runs fs j ph fs' H q) as [E|(C & O & written & rest & F & U)]; [left; unfold M_Cli.get_maus; now rewrite E|].
    destruct (option_map (fun _ => tt) (open_for_writing q)) eqn:W.
    { (* not opened: nothing has been written *)
      left. unfold M_Cli.get_maus. destruct (alone_steps fs j _ H) as [K A]. cbn [fst snd] in *.
      assert (N : forall p maus, ~ opens fs j p maus) by (intros p maus (_ & O' & _ & W'); assert (p = q) by congruence; subst p; rewrite W' in W; discriminate).
      destruct ph as [| | | | |k rst r|r]; cbn in A; subst; auto; [destruct A as (p & maus & w & (O' & _) & _); destruct (N p maus O')|].
      rewrite A. destruct (run_cases path path_eqb float_value left_over parse_xml class_attribute str_of_location open_for_writing fs j) as [->|(p & maus & O')]; [reflexivity|destruct (N p maus O')]. }
    destruct (generate_of fs j) as [maus|e] eqn:G.
    - assert (Op : opens fs j q maus) by (repeat split; try assumption; destruct (open_for_writing q); [discriminate|reflexivity]).
      rewrite (opens_text fs j q maus Op) in U. injection U as U.
      destruct (beginning_is_unreadable float_value left_over parse_xml class_attribute L maus written rest U) as [->|R].
      + right; left. unfold M_Cli.get_maus. rewrite F, (opens_text fs j q maus Op), U, app_nil_r. reflexivity.
      + right; right. now apply (get_maus_file path float_value class_attribute fs' q written).
    - destruct (snd (undisturbed fs j) q) eqn:X; [|discriminate].
      destruct (run_cases path path_eqb float_value left_over parse_xml class_attribute str_of_location open_for_writing fs j) as [E|(p & maus & (_ & _ & G' & _))]; [|congruence].
      left. unfold M_Cli.get_maus. destruct (alone_steps fs j _ H) as [K A]. cbn [fst snd] in *.
      destruct ph as [| | | | |k rst r|r]; cbn in A; subst; auto; [destruct A as (p & maus & w & ((_ & _ & G' & _) & _) & _); congruence|]. now rewrite A, E.
  Qed.

  (** an interrupted run can be repeated: then everything is as if it had not been interrupted *)
  Theorem C91_interrupted_runs_can_be_repeated fs j ph fs' : (forall p, jb_output_path _ j = Some p -> ~ In p (inputs j)) ->
    steps j (Start, fs) (ph, fs') ->
    fst (undisturbed fs' j) = fst (undisturbed fs j) /\ forall q, snd (undisturbed fs' j) q = snd (undisturbed fs j) q.
  Proof.
    intros A H.
    assert (R : forall p, reads path j p -> fs' p = fs p).
    { intros p Hp. apply in_inputs in Hp. destruct (C91_interrupted_runs fs j ph fs' H p) as [E|(_ & O & _)]; [exact E|]. destruct (A p O Hp). }
    destruct (run_same path path_eqb path_eqb_eq float_value left_over parse_xml class_attribute str_of_location open_for_writing fs fs' j R) as [E Q].
    split; [exact E|]. intros q. change (snd (run_of fs' j) q = snd (run_of fs j) q). destruct (Q q) as [[_ E']|(N & E1 & E2)]; [exact E'|]. rewrite E1, E2.
    destruct (alone_steps fs j _ H) as [K F]. cbn [fst snd] in *. destruct ph as [| | | | |k rest r|r]; cbn in F; subst; auto.
    - destruct F as (p & maus & written & (O & _) & _ & U). apply U. intros ->. destruct (N maus O).
    - now rewrite F.
  Qed.

  (** *** C92: several runs at the same time *)
  Section Together.
    Variable fs : files.
    Variable jobs : list job.
    (** no run reads what another run writes *)
    Definition no_run_reads_an_output : Prop :=
      forall j j' p, In j jobs -> In j' jobs -> jb_output_path _ j' = Some p -> ~ In p (inputs j).
    (** runs with the same output path generate the same AHB *)
    Definition same_output_same_ahb : Prop :=
      forall j j' p maus maus', In j jobs -> In j' jobs -> jb_output_path _ j = Some p -> jb_output_path _ j' = Some p ->
        yields fs j maus -> yields fs j' maus' -> maus = maus'.
    Hypothesis H1 : no_run_reads_an_output.
    Hypothesis H2 : same_output_same_ahb.
    Notation start := (map (fun j => (j, Start)) jobs).

    Lemma apart_from j j' p maus : In j jobs -> In j' jobs -> opens fs j' p maus -> ~ reads path j p.
    Proof. intros I I' (_ & O & _) R. apply (H1 j j' p I I' O). now apply in_inputs. Qed.
    Lemma agreed_from j j' p maus maus' : In j jobs -> In j' jobs -> opens fs j p maus -> opens fs j' p maus' -> maus = maus'.
    Proof. intros I I' (_ & O & G & _) (_ & O' & G' & _). apply (H2 j j' p maus maus' I I' O O'); now apply yields_generate. Qed.
    Notation inv := (world_inv path path_eqb float_value left_over parse_xml class_attribute str_of_location open_for_writing fs jobs).
    Lemma inv_steps w : world_steps (start, fs) w -> inv w.
    Proof. exact (world_inv_steps path path_eqb path_eqb_eq float_value left_over parse_xml class_attribute str_of_location open_for_writing fs jobs apart_from agreed_from w). Qed.

    (** every run that gets to its end has the outcome it has without the others *)
    Theorem C92_outcomes l fs' j r : world_steps (start, fs) (l, fs') -> In (j, Finished r) l -> r = fst (undisturbed fs j).
    Proof. intros H Hj. destruct (inv_steps _ H) as (_ & K & _). exact (K j _ Hj). Qed.

    (** at any time: a file nobody writes is as before; the provider finds in any file what was there before, what one of the runs leaves there on its own, or raises a ValueError *)
    Theorem C92_files_at_any_time l fs' : leaves_a_beginning -> world_steps (start, fs) (l, fs') ->
      forall q, ((forall j, In j jobs -> jb_output_path _ j <> Some q) -> fs' q = fs q)
        /\ (get_maus fs' q = get_maus fs q \/ (exists j, In j jobs /\ get_maus fs' q = get_maus (snd (undisturbed fs j)) q) \/ get_maus fs' q = Raise ValueError).
    Proof.
      intros L H q. pose proof (inv_steps _ H) as (J & _ & Q). cbn [fst snd] in *. destruct (Q q) as [[U V]|(maus & c & j & ph & k & F & Hj & O & P & Sc & A)].
      - split; [auto|]. left. unfold M_Cli.get_maus. now rewrite U.
      - assert (Ij : In j jobs) by (eapply in_jobs; eassumption).
        split; [intros N; destruct O as (_ & O & _); destruct (N j Ij O)|]. right.
        destruct (scraps_unreadable float_value left_over parse_xml class_attribute L maus c Sc) as [->|R]; [left|right; now apply (get_maus_file path float_value class_attribute fs' q c)].
        exists j. split; [exact Ij|]. unfold M_Cli.get_maus. now rewrite F, (opens_text fs j q maus O).
    Qed.

    Lemma all_finished l fs' : world_steps (start, fs) (l, fs') -> (forall j ph, In (j, ph) l -> exists r, ph = Finished r) ->
      forall q, fs' q = fs q /\ (forall j maus, In j jobs -> ~ opens fs j q maus) \/ exists j maus, In j jobs /\ opens fs j q maus /\ fs' q = Ok (fst (text_of maus)).
    Proof.
      intros H A q. pose proof (inv_steps _ H) as (J & _ & Q). cbn [fst snd] in *. destruct (Q q) as [[U V]|(maus & c & j & ph & k & F & Hj & O & P & Sc & G)]; [left|right].
      - split; [exact U|]. intros j maus Ij O. rewrite <- J in Ij. apply in_map_iff in Ij. destruct Ij as ((j' & ph) & E & Ij). cbn in E. subst j'.
        destruct (A j ph Ij) as (r & ->). specialize (V j _ maus Ij O). discriminate.
      - exists j, maus. split; [(eapply in_jobs; eassumption)|]. split; [exact O|]. destruct (A j ph Hj) as (r & ->). cbn [progress] in P. subst k.
        rewrite F. f_equal. now apply scraps_whole.
    Qed.

    Lemma in_turn_spec js : (forall j, In j js -> In j jobs) -> forall fs1,
      (forall j p, In j jobs -> reads path j p -> fs1 p = fs p) ->
      fst (in_turn fs1 js) = map (fun j => (j, fst (undisturbed fs j))) js
      /\ forall q, (exists j maus, In j js /\ opens fs j q maus /\ snd (in_turn fs1 js) q = Ok (fst (text_of maus)))
               \/ (forall j maus, In j js -> ~ opens fs j q maus) /\ snd (in_turn fs1 js) q = fs1 q.
    Proof.
      induction js as [|j js IH]; intros Sub fs1 R; [cbn; split; [reflexivity|intros q; right; split; [intros ? ? []|reflexivity]]|].
      destruct (run_same path path_eqb path_eqb_eq float_value left_over parse_xml class_attribute str_of_location open_for_writing fs fs1 j (fun p => R j p (Sub j (or_introl eq_refl)))) as [E Q].
      cbn [in_turn]. rewrite undisturbed_run. destruct (run_of fs1 j) as [r fs2] eqn:X. cbn [fst snd] in E, Q.
      assert (R2 : forall i p, In i jobs -> reads path i p -> fs2 p = fs p).
      { intros i p Ii Rp. destruct (Q p) as [[(maus & O) _]|(_ & E2 & _)]; [|rewrite E2; exact (R i p Ii Rp)].
        destruct (apart_from i j p maus Ii (Sub j (or_introl eq_refl)) O Rp). }
      destruct (IH (fun i Hi => Sub i (or_intror Hi)) fs2 R2) as [E' Q']. destruct (in_turn fs2 js) as [rs fs3]. cbn [fst snd] in *. split; [cbn [map]; now rewrite E, E'|].
      intros q. destruct (Q' q) as [(i & maus & Ii & O & F)|(N & F)]; [left; exists i, maus; auto with datatypes|].
      destruct (Q q) as [[(maus & O) F']|(N' & F' & _)].
      - left. exists j, maus. split; [now left|]. split; [exact O|]. rewrite F, F'. exact (opens_text fs j q maus O).
      - right. split; [|now rewrite F]. intros i maus [<-|Hi]; [apply N'|now apply N].
    Qed.

    (** when all runs have got to their end, outcomes and files are as if they had run one after the other, in whatever order *)
    Theorem C92_as_if_one_after_the_other rs fs' : world_steps (start, fs) (map (fun jr => (fst jr, Finished (snd jr))) rs, fs') ->
      forall jobs', Permutation jobs jobs' -> Permutation rs (fst (in_turn fs jobs')) /\ forall q, fs' q = snd (in_turn fs jobs') q.
    Proof.
      intros H jobs' P. pose proof (inv_steps _ H) as (J & K & _). cbn [fst snd] in *.
      assert (Ers : rs = map (fun j => (j, fst (undisturbed fs j))) jobs).
      { rewrite <- J, !map_map. cbn [fst]. rewrite <- (map_id rs) at 1. apply map_ext_in. intros [j r] Hr. cbn [fst]. f_equal.
        apply (K j (Finished r)). apply in_map_iff. now exists (j, r). }
      assert (Sub : forall j, In j jobs' -> In j jobs) by (intros j; apply Permutation_in, Permutation_sym, P).
      destruct (in_turn_spec jobs' Sub fs (fun _ _ _ _ => eq_refl)) as [E Q]. rewrite E, Ers. split; [apply Permutation_map, P|].
      intros q. assert (A : forall j ph, In (j, ph) (map (fun jr : job * result unit => (fst jr, Finished (snd jr))) rs) -> exists r, ph = Finished r).
      { intros j ph Hi. apply in_map_iff in Hi. destruct Hi as ([j' r] & Ei & _). injection Ei as _ <-. now exists r. }
      destruct (all_finished _ _ H A q) as [[U N]|(j & maus & Ij & O & F)]; destruct (Q q) as [(j' & maus' & Ij' & O' & F')|(N' & F')].
      - destruct (N j' maus' (Sub _ Ij') O').
      - now rewrite U, F'.
      - rewrite F, F'. now rewrite (agreed_from j j' q maus maus' Ij (Sub _ Ij') O O').
      - destruct (N' j maus (Permutation_in _ P Ij) O).
    Qed.
  End Together.

  (** whatever the others do, all runs can be completed *)
  Theorem C92_runs_can_be_completed fs jobs w : world_steps (map (fun j => (j, Start)) jobs, fs) w ->
    exists rs fs', world_steps w (map (fun jr => (fst jr, Finished (snd jr))) rs, fs').
  Proof.
    intros H. destruct w as [l fs1].
    assert (A : forall j ph, In (j, ph) l -> able path j ph).
    { apply (world_able path path_eqb float_value left_over parse_xml class_attribute str_of_location open_for_writing _ _ H).
      intros j ph Hi. cbn [fst] in Hi. apply in_map_iff in Hi. destruct Hi as (i & E & _). injection E as _ <-. exact I. }
    destruct (world_finishes path path_eqb float_value left_over parse_xml class_attribute str_of_location open_for_writing l A [] fs1) as (l' & fs' & H' & F). cbn [app] in H'.
    assert (X : exists rs, l' = map (fun jr => (fst jr, Finished (snd jr))) rs).
    { clear H'. induction l' as [|(j, ph) l' IH]; [now exists []|]. destruct (F j ph (or_introl eq_refl)) as (r & ->).
      destruct IH as (rs & ->); [intros i phi Hi; apply (F i phi); now right|]. now exists ((j, r) :: rs). }
    destruct X as (rs & ->). now exists rs, fs'.
  Qed.

  (** *** schedules for the counterexamples *)
  Lemma generates_steps fs j maus : one_option path j -> generate_of fs j = Ok maus -> steps j (Start, fs) (Generated maus, fs).
  Proof.
    intros O G. rewrite generate_steps in G. destruct (read_flat path float_value fs j) as [flat|] eqn:F; [|discriminate]. cbn [bind] in G.
    destruct (read_sgh path float_value fs j) as [sgh|] eqn:S'; [|discriminate]. cbn [bind] in G.
    eapply steps_more; [eapply steps_more; [eapply steps_more; [eapply steps_more; [apply steps_none|]|]|]|].
    - pose proof (step_options path path_eqb float_value left_over parse_xml class_attribute str_of_location open_for_writing j fs) as X. rewrite O in X. exact X.
    - pose proof (step_flat path path_eqb float_value left_over parse_xml class_attribute str_of_location open_for_writing j fs) as X. unfold read_flat in F. rewrite F in X. exact X.
    - pose proof (step_sgh path path_eqb float_value left_over parse_xml class_attribute str_of_location open_for_writing j flat fs) as X. unfold read_sgh in S'. rewrite S' in X. exact X.
    - pose proof (step_template path path_eqb float_value left_over parse_xml class_attribute str_of_location open_for_writing j flat sgh fs) as X. unfold convert in G. rewrite G in X. exact X.
  Qed.
  Lemma opens_one fs j p maus : opens fs j p maus -> one_option path j.
  Proof. intros (C & O & _). unfold one_option. now rewrite C, O. Qed.
  Lemma opens_steps fs j p maus : opens fs j p maus ->
    steps j (Start, fs) (Writing 0 (fst (text_of maus)) (snd (text_of maus)), write path path_eqb (list N) fs p []).
  Proof.
    intros O. pose proof O as (C & Ou & G & W). eapply steps_more; [apply (generates_steps fs j maus (opens_one fs j p maus O) G)|].
    rewrite <- to_write_text. now apply step_open.
  Qed.
  (** two runs open the same file, then each writes everything *)
  Lemma race_steps fs j1 j2 p m1 m2 : opens fs j1 p m1 -> opens fs j2 p m2 -> fst (text_of m1) <> [] -> fst (text_of m2) <> [] ->
    exists fs', world_steps (map (fun j => (j, Start)) [j1; j2], fs) (map (fun jr => (fst jr, Finished (snd jr))) [(j1, snd (text_of m1)); (j2, snd (text_of m2))], fs')
      /\ fs' p = Ok (write_at 0 (fst (text_of m2)) (fst (text_of m1))).
  Proof.
    intros O1 O2 N1 N2. destruct (text_of m1) as [b1 r1] eqn:T1, (text_of m2) as [b2 r2] eqn:T2. cbn [fst snd] in *.
    pose proof O1 as (C1 & Ou1 & G1 & W1). pose proof O2 as (C2 & Ou2 & G2 & W2).
    pose proof (generates_steps fs j1 m1 (opens_one fs j1 p m1 O1) G1) as St1. pose proof (generates_steps fs j2 m2 (opens_one fs j2 p m2 O2) G2) as St2.
    set (w := write path path_eqb (list N)) in *.
    set (fs3 := w (w (w fs p []) p []) p (write_at 0 b1 (content_of (w (w fs p []) p [] p)))).
    exists (w fs3 p (write_at 0 b2 (content_of (fs3 p)))). split.
    - eapply world_trans; [exact (world_lift path path_eqb float_value left_over parse_xml class_attribute str_of_location open_for_writing [] [(j2, Start)] j1 _ _ St1)|].
      eapply world_trans; [exact (world_lift path path_eqb float_value left_over parse_xml class_attribute str_of_location open_for_writing [(j1, Generated m1)] [] j2 _ _ St2)|].
      cbn [fst snd app map].
      eapply world_trans. { apply (world_lift path path_eqb float_value left_over parse_xml class_attribute str_of_location open_for_writing [] [(j2, Generated m2)] j1 (Generated m1, fs) (to_write left_over m1, w fs p [])). apply steps_one. now apply step_open. }
      cbn [fst snd app].
      eapply world_trans. { apply (world_lift path path_eqb float_value left_over parse_xml class_attribute str_of_location open_for_writing [(j1, to_write left_over m1)] [] j2 (Generated m2, w fs p []) (to_write left_over m2, w (w fs p []) p [])). apply steps_one. now apply step_open. }
      cbn [fst snd app]. rewrite !to_write_text, T1, T2. cbn [fst snd].
      eapply world_trans. { apply (world_lift path path_eqb float_value left_over parse_xml class_attribute str_of_location open_for_writing [] [(j2, Writing 0 b2 r2)] j1 (Writing 0 b1 r1, w (w fs p []) p []) (Writing (0 + List.length b1) [] r1, w (w (w fs p []) p []) p (write_at 0 b1 (content_of (w (w fs p []) p [] p))))).
        apply steps_one. rewrite <- (app_nil_r b1) at 1. now apply step_write. }
      cbn [fst snd app]. fold fs3.
      eapply world_trans. { apply (world_lift path path_eqb float_value left_over parse_xml class_attribute str_of_location open_for_writing [] [(j2, Writing 0 b2 r2)] j1 (Writing (0 + List.length b1) [] r1, fs3) (Finished r1, fs3)).
        apply steps_one. apply step_close. }
      cbn [fst snd app].
      eapply world_trans. { apply (world_lift path path_eqb float_value left_over parse_xml class_attribute str_of_location open_for_writing [(j1, Finished r1)] [] j2 (Writing 0 b2 r2, fs3) (Writing (0 + List.length b2) [] r2, w fs3 p (write_at 0 b2 (content_of (fs3 p))))).
        apply steps_one. rewrite <- (app_nil_r b2) at 1. now apply step_write. }
      cbn [fst snd app].
      apply (world_lift path path_eqb float_value left_over parse_xml class_attribute str_of_location open_for_writing [(j1, Finished r1)] [] j2 (Writing (0 + List.length b2) [] r2, w fs3 p (write_at 0 b2 (content_of (fs3 p)))) (Finished r2, w fs3 p (write_at 0 b2 (content_of (fs3 p))))).
      apply steps_one. apply step_close.
    - unfold fs3, w. rewrite !write_same by exact path_eqb_eq. cbn [content_of]. f_equal. f_equal. exact (write_at_end b1 []).
  Qed.
  (** a run opens the file that another one is about to check *)
  Lemma check_race_steps fs j1 j2 p m1 m2 : opens fs j1 p m1 -> jb_check_path _ j2 = Some p -> jb_output_path _ j2 = None -> generate_of fs j2 = Ok m2 ->
    exists l fs', world_steps (map (fun j => (j, Start)) [j1; j2], fs) (l, fs') /\ In (j2, Finished (Raise ValueError)) l.
  Proof.
    intros O1 C2 Ou2 G2. pose proof O1 as (C1 & Ou1 & G1 & W1).
    assert (One : one_option path j2) by (unfold one_option; now rewrite C2, Ou2).
    pose proof (generates_steps fs j2 m2 One G2) as St2. pose proof (opens_steps fs j1 p m1 O1) as St1.
    set (fs1 := write path path_eqb (list N) fs p []) in *.
    assert (P : parse_json_file float_value [] = Raise ValueError).
    { apply unreadable. intros s j U D. apply utf8_nil in U. subst s. assert (X : loads float_value [] = Ok j) by now apply C72_accepted_texts. vm_compute in X. discriminate. }
    assert (V : check_maus path (list N) (parse_json_file float_value) class_attribute fs1 m2 p = Raise ValueError).
    { unfold M_Cli.check_maus, fs1. rewrite write_same by exact path_eqb_eq. cbn [bind]. rewrite P. reflexivity. }
    exists [(j1, Writing 0 (fst (text_of m1)) (snd (text_of m1))); (j2, Finished (Raise ValueError))], fs1. split; [|right; now left].
    eapply world_trans; [exact (world_lift path path_eqb float_value left_over parse_xml class_attribute str_of_location open_for_writing [(j1, Start)] [] j2 _ _ St2)|].
    eapply world_trans; [exact (world_lift path path_eqb float_value left_over parse_xml class_attribute str_of_location open_for_writing [] [(j2, Generated m2)] j1 _ _ St1)|].
    cbn [fst snd app].
    apply (world_lift path path_eqb float_value left_over parse_xml class_attribute str_of_location open_for_writing [(j1, Writing 0 (fst (text_of m1)) (snd (text_of m1)))] [] j2 (Generated m2, fs1) (Finished (Raise ValueError), fs1)).
    apply steps_one. pose proof (step_check path path_eqb float_value left_over parse_xml class_attribute str_of_location open_for_writing j2 m2 p fs1 C2) as X.
    rewrite Ou2 in X. cbn [is_some] in X. rewrite V in X. exact X.
  Qed.
End Runs.

(** *** instances: files 0, 1 and 2 are the inputs of C74, file 3 is what a run has written for them,
    file 4 is file 0 with a longer section name *)
Definition ex_run_files (p : nat) : result (list N) :=
  match p with 4 => ex_text_files (u "a longer name") 0 | _ => ex_text_after [167%N] p end.
Definition ex_job (flat output : nat) : job nat := mkJob nat flat 1 2 None (Some output).
Definition ex_check (flat check : nat) : job nat := mkJob nat flat 1 2 (Some check) None.
Definition ex_undisturbed := undisturbed nat Nat.eqb ex_float (fun _ => []) ex_template (fun _ => None) (fun _ => u "AhbLocation") (fun _ => None).
Definition ex_steps := steps nat Nat.eqb ex_float (fun _ => []) ex_template (fun _ => None) (fun _ => u "AhbLocation") (fun _ => None).
Definition ex_world_steps := world_steps nat Nat.eqb ex_float (fun _ => []) ex_template (fun _ => None) (fun _ => u "AhbLocation") (fun _ => None).
Definition ex_opens := opens nat ex_float ex_template (fun _ => u "AhbLocation") (fun _ => None) ex_run_files.

Lemma ex_leaves : leaves_a_beginning (fun _ => []).
Proof. intros s. exists [], s. split; [reflexivity|constructor]. Qed.
Lemma ex_job_opens flat output : flat = 0 \/ flat = 4 -> exists maus, ex_opens (ex_job flat output) output maus.
Proof.
  intros H. set (g := generate nat (list N) (parse_json_file ex_float) ex_template (fun _ => u "AhbLocation") ex_run_files flat 1 2).
  destruct g as [maus|e] eqn:E; [|exfalso; revert E; subst g; destruct H as [-> | ->]; vm_compute; discriminate].
  exists maus. repeat split. exact E.
Qed.

Example C91_instance :
  (exists ph fs' r fs'', ex_steps (ex_job 0 3) (Start, ex_run_files) (ph, fs') /\ fs' 3 = Ok [] /\ ex_steps (ex_job 0 3) (ph, fs') (Finished r, fs''))
  /\ fst (ex_undisturbed ex_run_files (ex_job 0 3)) = Ok tt
  /\ leaves_a_beginning (fun _ => []) /\ ~ In 3 (inputs nat (ex_job 0 3)).
Proof.
  split; [|split; [vm_compute; reflexivity|split; [exact ex_leaves|cbn; lia]]].
  destruct (ex_job_opens 0 3 (or_introl eq_refl)) as (maus & O).
  pose proof (opens_steps nat Nat.eqb ex_float (fun _ => []) ex_template (fun _ => None) (fun _ => u "AhbLocation") (fun _ => None) ex_run_files _ 3 maus O) as St.
  destruct (C91_runs_can_be_completed nat Nat.eqb ex_float (fun _ => []) ex_template (fun _ => None) (fun _ => u "AhbLocation") (fun _ => None) _ _ _ St) as (r & fs'' & St').
  eexists _, _, r, fs''. split; [exact St|]. split; [reflexivity|exact St'].
Qed.

(** "an interrupted run leaves the old or the new output" is wrong: what was there is lost as soon as the file is opened *)
Theorem C91_old_or_new_output_refuted :
  (exists a, ex_text_get ex_run_files 3 = Ok (Some a))
  /\ (exists a, ex_text_get (snd (ex_undisturbed ex_run_files (ex_job 4 3))) 3 = Ok (Some a))
  /\ exists ph fs', ex_steps (ex_job 4 3) (Start, ex_run_files) (ph, fs') /\ ex_text_get fs' 3 = Raise ValueError.
Proof.
  split; [eexists; vm_compute; reflexivity|]. split; [eexists; vm_compute; reflexivity|].
  destruct (ex_job_opens 4 3 (or_intror eq_refl)) as (maus & O).
  eexists. eexists. split; [exact (opens_steps nat Nat.eqb ex_float (fun _ => []) ex_template (fun _ => None) (fun _ => u "AhbLocation") (fun _ => None) ex_run_files _ 3 maus O)|].
  apply (get_maus_file nat ex_float (fun _ => None) _ 3 []); reflexivity.
Qed.

Definition ex_jobs : list (job nat) := [ex_job 0 3; ex_job 4 6; ex_job 0 3; ex_check 0 7].
Example C92_instance :
  no_run_reads_an_output nat ex_jobs
  /\ same_output_same_ahb nat ex_float ex_template (fun _ => u "AhbLocation") ex_run_files ex_jobs
  /\ map (fun j => fst (ex_undisturbed ex_run_files j)) ex_jobs = [Ok tt; Ok tt; Ok tt; Raise FileNotFoundError]
  /\ exists rs fs', ex_world_steps (map (fun j => (j, Start)) ex_jobs, ex_run_files) (map (fun jr => (fst jr, Finished (snd jr))) rs, fs').
Proof.
  split; [|split; [|split; [vm_compute; reflexivity|]]].
  - intros j j' p H H' O. unfold ex_jobs in *. cbn in H, H'. decompose [or] H; subst; decompose [or] H'; subst; try contradiction; cbn in O; try discriminate; injection O as <-; cbn; lia.
  - intros j j' p maus maus' H H' O O' Y Y'. apply yields_generate in Y, Y'.
    assert (E : jb_flat_ahb_path nat j = jb_flat_ahb_path nat j' /\ jb_sgh_path nat j = jb_sgh_path nat j' /\ jb_template_path nat j = jb_template_path nat j').
    { clear Y Y'. unfold ex_jobs in *. cbn in H, H'. decompose [or] H; subst; decompose [or] H'; subst; cbn in O, O'; try discriminate; try contradiction; repeat split; congruence. }
    destruct E as (E1 & E2 & E3). unfold generate_of in Y, Y'. rewrite E1, E2, E3 in Y. rewrite Y in Y'. now injection Y'.
  - exact (C92_runs_can_be_completed nat Nat.eqb ex_float (fun _ => []) ex_template (fun _ => None) (fun _ => u "AhbLocation") (fun _ => None) ex_run_files ex_jobs _ (world_none nat Nat.eqb ex_float (fun _ => []) ex_template (fun _ => None) (fun _ => u "AhbLocation") (fun _ => None) _)).
Qed.

(** without the second condition: two runs that generate different AHBs for the same file both succeed, but the file is no AHB *)
Theorem C92_different_ahbs_for_the_same_file_refuted :
  exists fs', ex_world_steps (map (fun j => (j, Start)) [ex_job 4 3; ex_job 0 3], ex_run_files) ([(ex_job 4 3, Finished (Ok tt)); (ex_job 0 3, Finished (Ok tt))], fs')
    /\ fs' 3 <> snd (ex_undisturbed ex_run_files (ex_job 4 3)) 3 /\ fs' 3 <> snd (ex_undisturbed ex_run_files (ex_job 0 3)) 3
    /\ ex_text_get fs' 3 = Raise ValueError.
Proof.
  destruct (ex_job_opens 4 3 (or_intror eq_refl)) as (m1 & O1). destruct (ex_job_opens 0 3 (or_introl eq_refl)) as (m2 & O2).
  pose proof (opens_text nat Nat.eqb Nat.eqb_eq ex_float (fun _ => []) ex_template (fun _ => None) (fun _ => u "AhbLocation") (fun _ => None) ex_run_files _ 3 m1 O1) as T1.
  pose proof (opens_text nat Nat.eqb Nat.eqb_eq ex_float (fun _ => []) ex_template (fun _ => None) (fun _ => u "AhbLocation") (fun _ => None) ex_run_files _ 3 m2 O2) as T2.
  pose proof (run_opens nat Nat.eqb ex_float (fun _ => []) ex_template (fun _ => None) (fun _ => u "AhbLocation") (fun _ => None) ex_run_files _ 3 m1 O1) as R1.
  pose proof (run_opens nat Nat.eqb ex_float (fun _ => []) ex_template (fun _ => None) (fun _ => u "AhbLocation") (fun _ => None) ex_run_files _ 3 m2 O2) as R2.
  apply (f_equal fst) in R1, R2. cbn [fst] in R1, R2. change (fst (ex_undisturbed ex_run_files (ex_job 4 3)) = snd (text_of (fun _ => []) m1)) in R1. change (fst (ex_undisturbed ex_run_files (ex_job 0 3)) = snd (text_of (fun _ => []) m2)) in R2.
  assert (Ok1 : fst (ex_undisturbed ex_run_files (ex_job 4 3)) = Ok tt) by (vm_compute; reflexivity).
  assert (Ok2 : fst (ex_undisturbed ex_run_files (ex_job 0 3)) = Ok tt) by (vm_compute; reflexivity).
  change (snd (ex_undisturbed ex_run_files (ex_job 4 3)) 3 = Ok (fst (text_of (fun _ => []) m1))) in T1. change (snd (ex_undisturbed ex_run_files (ex_job 0 3)) 3 = Ok (fst (text_of (fun _ => []) m2))) in T2.
  set (b1 := fst (text_of (fun _ => []) m1)) in *. set (b2 := fst (text_of (fun _ => []) m2)) in *.
  assert (E1 : b1 = content_of (snd (ex_undisturbed ex_run_files (ex_job 4 3)) 3)) by now rewrite T1.
  assert (E2 : b2 = content_of (snd (ex_undisturbed ex_run_files (ex_job 0 3)) 3)) by now rewrite T2.
  destruct (race_steps nat Nat.eqb Nat.eqb_eq ex_float (fun _ => []) ex_template (fun _ => None) (fun _ => u "AhbLocation") (fun _ => None) ex_run_files _ _ 3 m1 m2 O1 O2) as (fs' & St & F).
  - fold b1. rewrite E1. vm_compute. discriminate.
  - fold b2. rewrite E2. vm_compute. discriminate.
  - fold b1 b2 in F. rewrite <- R1, Ok1, <- R2, Ok2 in St. exists fs'. split; [exact St|].
    assert (P : parse_json_file ex_float (write_at 0 b2 b1) = Raise ValueError) by (rewrite E1, E2; vm_compute; reflexivity).
    assert (P1 : is_ok (parse_json_file ex_float b1) = true) by (rewrite E1; vm_compute; reflexivity).
    assert (P2 : is_ok (parse_json_file ex_float b2) = true) by (rewrite E2; vm_compute; reflexivity).
    split; [|split].
    + rewrite F, T1. intros E. injection E as E. rewrite E in P. rewrite P in P1. discriminate.
    + rewrite F, T2. intros E. injection E as E. rewrite E in P. rewrite P in P2. discriminate.
    + exact (get_maus_file nat ex_float (fun _ => None) fs' 3 _ F P).
Qed.

(** without the first condition: a check of a file that is being written can fail although it succeeds both before and behind that *)
Theorem C92_checks_while_writing_refuted :
  fst (ex_undisturbed ex_run_files (ex_check 0 3)) = Ok tt
  /\ fst (ex_undisturbed (snd (ex_undisturbed ex_run_files (ex_job 0 3))) (ex_check 0 3)) = Ok tt
  /\ exists l fs', ex_world_steps (map (fun j => (j, Start)) [ex_job 0 3; ex_check 0 3], ex_run_files) (l, fs')
                   /\ In (ex_check 0 3, Finished (Raise ValueError)) l.
Proof.
  split; [vm_compute; reflexivity|]. split; [vm_compute; reflexivity|].
  destruct (ex_job_opens 0 3 (or_introl eq_refl)) as (m & O). pose proof O as (_ & _ & G & _).
  exact (check_race_steps nat Nat.eqb Nat.eqb_eq ex_float (fun _ => []) ex_template (fun _ => None) (fun _ => u "AhbLocation") (fun _ => None) ex_run_files _ (ex_check 0 3) 3 m m O eq_refl eq_refl G).
Qed.

Print Assumptions C91_finished_runs.
Print Assumptions C91_runs_can_be_completed.
Print Assumptions C91_interrupted_runs.
Print Assumptions C91_half_written_files_are_noticed.
Print Assumptions C91_interrupted_runs_can_be_repeated.
Print Assumptions C92_outcomes.
Print Assumptions C92_files_at_any_time.
Print Assumptions C92_as_if_one_after_the_other.
Print Assumptions C92_runs_can_be_completed.
Print Assumptions C91_old_or_new_output_refuted.
Print Assumptions C92_different_ahbs_for_the_same_file_refuted.
Print Assumptions C92_checks_while_writing_refuted.
