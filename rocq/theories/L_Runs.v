(** Lemmas: single steps of the command line tool. *)
From Coq Require Import Ascii String List NArith ZArith Bool Lia Arith.
From Verif Require Import PyBase PyStr M_Components M_Ahb M_Sgh M_Navigation M_Matching M_Schema M_Xml M_MigXml M_Cli M_JsonText M_Runs L_Base.
Import ListNotations.
Local Open Scope list_scope.

(** ** positions in files *)
Lemma write_at_end x c : write_at (List.length c) x c = c ++ x.
Proof.
  unfold write_at. rewrite firstn_all, Nat.sub_diag. cbn [repeat app]. rewrite skipn_all2 by lia. now rewrite app_nil_r.
Qed.
Lemma write_at_length k x c : List.length (write_at k x c) = Nat.max (List.length c) (k + List.length x).
Proof.
  unfold write_at. rewrite !app_length, firstn_length, repeat_length, skipn_length. lia.
Qed.
Lemma nth_repeat_in {A} (a d : A) n i : i < n -> nth_error (repeat a n) i = Some a.
Proof. revert i. induction n as [|n IH]; intros i H; [lia|]. destruct i; [reflexivity|]. apply IH. lia. Qed.
Lemma write_at_nth k x c i :
  nth_error (write_at k x c) i =
  if i <? k then (if i <? List.length c then nth_error c i else Some 0%N)
  else if i <? k + List.length x then nth_error x (i - k) else nth_error c i.
Proof.
  unfold write_at. destruct (Nat.ltb_spec i k) as [Hk|Hk].
  - destruct (Nat.ltb_spec i (List.length c)) as [Hc|Hc].
    + rewrite nth_error_app1 by (rewrite firstn_length; lia). revert c k Hk Hc. induction i as [|i IH]; intros [|a c] [|k] Hk Hc; cbn in *; try lia; auto. apply IH; lia.
    + rewrite nth_error_app2 by (rewrite firstn_length; lia). rewrite firstn_length, nth_error_app1 by (rewrite repeat_length; lia).
      rewrite (nth_repeat_in _ 0%N); [reflexivity|lia].
  - assert (L1 : List.length (firstn k c ++ repeat 0%N (k - List.length c)) = k) by (rewrite app_length, firstn_length, repeat_length; lia).
    rewrite app_assoc, nth_error_app2 by lia. rewrite L1.
    destruct (Nat.ltb_spec i (k + List.length x)) as [Hx|Hx]; [rewrite nth_error_app1 by lia; reflexivity|].
    rewrite nth_error_app2 by lia. replace (i - k - List.length x) with (i - (k + List.length x)) by lia.
    generalize dependent (k + List.length x). intros n Hn. clear -Hn. revert c i Hn. induction n as [|n IH]; intros c i Hn; [now rewrite Nat.sub_0_r|].
    destruct c as [|a c]; [cbn; destruct (i - S n), i; reflexivity|]. destruct i as [|i]; [lia|]. cbn. apply IH. lia.
Qed.
Lemma same_nth {A} (a b : list A) : List.length a <= List.length b -> (forall i, i < List.length b -> nth_error a i = nth_error b i) -> a = b.
Proof.
  revert b. induction a as [|x a IH]; intros [|y b] L H; cbn in *; try lia; [reflexivity|specialize (H 0 ltac:(lia)); discriminate|].
  pose proof (H 0 ltac:(lia)) as E. injection E as ->. f_equal. apply IH; [lia|]. intros i Hi. apply (H (S i)). lia.
Qed.
Lemma nth_some_lt {A} (l : list A) i x : nth_error l i = Some x -> i < List.length l.
Proof. intros H. apply nth_error_Some. congruence. Qed.

Section Runs.
  Variable path : Type.
  Variable path_eqb : path -> path -> bool.
  Hypothesis path_eqb_eq : forall p p', path_eqb p p' = true <-> p = p'.
  Variable float_value : pystr -> option Z.
  Variable left_over : pystr -> list N.
  Variable parse_xml : list N -> result element.
  Variable class_attribute : pystr -> option bool.
  Variable str_of_location : Location -> pystr.
  Variable open_for_writing : path -> option exn.
  Notation files := (files path (list N)).
  Notation job := (job path).
  Notation main := (main path path_eqb (list N) (parse_json_file float_value) (write_json_file left_over) parse_xml class_attribute str_of_location open_for_writing).
  Notation generate := (generate path (list N) (parse_json_file float_value) parse_xml str_of_location).
  Notation check_maus := (check_maus path (list N) (parse_json_file float_value) class_attribute).
  Notation write := (write path path_eqb (list N)).
  Notation step := (step path path_eqb float_value left_over parse_xml class_attribute str_of_location open_for_writing).
  Notation steps := (steps path path_eqb float_value left_over parse_xml class_attribute str_of_location open_for_writing).
  Notation world_step := (world_step path path_eqb float_value left_over parse_xml class_attribute str_of_location open_for_writing).
  Notation world_steps := (world_steps path path_eqb float_value left_over parse_xml class_attribute str_of_location open_for_writing).

  Definition run_of (fs : files) (j : job) : result unit * files :=
    main fs (jb_flat_ahb_path _ j) (jb_sgh_path _ j) (jb_template_path _ j) (jb_check_path _ j) (jb_output_path _ j).
  Definition generate_of (fs : files) (j : job) : result DeepAhb := generate fs (jb_flat_ahb_path _ j) (jb_sgh_path _ j) (jb_template_path _ j).
  Definition text_of (maus : DeepAhb) : list N * result unit := write_json_file left_over (sort_keys (dump_deep maus)).

  Lemma to_write_text maus : to_write left_over maus = Writing 0 (fst (text_of maus)) (snd (text_of maus)).
  Proof. unfold to_write, text_of. now destruct (write_json_file _ _). Qed.
  Lemma path_refl p : path_eqb p p = true.
  Proof. now apply path_eqb_eq. Qed.
  Lemma path_neq p q : p <> q -> path_eqb p q = false.
  Proof. intros N. destruct (path_eqb p q) eqn:E; [apply path_eqb_eq in E; contradiction|reflexivity]. Qed.
  Lemma path_dec (p q : path) : {p = q} + {p <> q}.
  Proof. destruct (path_eqb p q) eqn:E; [left; now apply path_eqb_eq|right; intros ->; rewrite path_refl in E; discriminate]. Qed.
  Lemma write_same fs p c : write fs p c p = Ok c.
  Proof. unfold M_Cli.write. now rewrite path_refl. Qed.
  Lemma write_other fs p c q : q <> p -> write fs p c q = fs q.
  Proof. intros N. unfold M_Cli.write. now rewrite path_neq. Qed.

  (** exactly one of the options *)
  Definition one_option (j : job) : Prop :=
    (is_none (jb_check_path _ j) && is_none (jb_output_path _ j)) || (is_some (jb_check_path _ j) && is_some (jb_output_path _ j)) = false.
  Lemma one_option_cases j : one_option j ->
    (exists p, jb_check_path _ j = Some p /\ jb_output_path _ j = None) \/ (exists p, jb_check_path _ j = None /\ jb_output_path _ j = Some p).
  Proof.
    unfold one_option. destruct (jb_check_path _ j) as [c|], (jb_output_path _ j) as [o|]; cbn; intros H; try discriminate; eauto.
  Qed.
  (** the run opens the output file *)
  Definition opens (fs : files) (j : job) (p : path) (maus : DeepAhb) : Prop :=
    jb_check_path _ j = None /\ jb_output_path _ j = Some p /\ generate_of fs j = Ok maus /\ open_for_writing p = None.

  Lemma run_aborts fs j : ~ one_option j -> run_of fs j = (Raise ClickAbort, fs).
  Proof. unfold one_option, run_of, M_Cli.main. destruct (_ || _); [reflexivity|intros N; destruct (N eq_refl)]. Qed.
  Lemma run_fails fs j e : one_option j -> generate_of fs j = Raise e -> run_of fs j = (Raise e, fs).
  Proof. unfold one_option, run_of, M_Cli.main, generate_of. intros -> ->. reflexivity. Qed.
  Lemma run_checks fs j p maus : jb_check_path _ j = Some p -> jb_output_path _ j = None -> generate_of fs j = Ok maus ->
    run_of fs j = (check_maus fs maus p, fs).
  Proof. unfold run_of, M_Cli.main, generate_of. intros -> -> ->. reflexivity. Qed.
  Lemma run_opens fs j p maus : opens fs j p maus -> run_of fs j = (snd (text_of maus), write fs p (fst (text_of maus))).
  Proof.
    unfold run_of, M_Cli.main, generate_of. intros (-> & -> & G & O). unfold generate_of in G. rewrite G. cbn [is_none is_some andb orb].
    unfold write_maus. rewrite O. fold (text_of maus). destruct (text_of maus) as [b r]. cbn [fst snd]. destruct r as [[]|]; reflexivity.
  Qed.
  Lemma run_not_opened fs j p e maus : jb_check_path _ j = None -> jb_output_path _ j = Some p -> generate_of fs j = Ok maus -> open_for_writing p = Some e ->
    run_of fs j = (Raise e, fs).
  Proof. unfold run_of, M_Cli.main, generate_of. intros -> -> -> O. cbn [is_none is_some andb orb]. unfold write_maus. rewrite O. reflexivity. Qed.
  (** the files change only if the output file is opened *)
  Lemma run_cases fs j : snd (run_of fs j) = fs \/ exists p maus, opens fs j p maus.
  Proof.
    destruct ((is_none (jb_check_path _ j) && is_none (jb_output_path _ j)) || (is_some (jb_check_path _ j) && is_some (jb_output_path _ j))) eqn:E;
      [left; rewrite run_aborts; [reflexivity|unfold one_option; congruence]|].
    destruct (generate_of fs j) as [maus|e] eqn:G; [|left; now rewrite (run_fails fs j e)].
    destruct (one_option_cases j E) as [(p & C & O)|(p & C & O)]; [left; now rewrite (run_checks fs j p maus)|].
    destruct (open_for_writing p) as [e|] eqn:W; [left; now rewrite (run_not_opened fs j p e maus)|right].
    exists p, maus. repeat split; assumption.
  Qed.

  (** *** what a run knows *)
  Definition reads (j : job) (p : path) : Prop :=
    p = jb_flat_ahb_path _ j \/ p = jb_sgh_path _ j \/ p = jb_template_path _ j \/ jb_check_path _ j = Some p.
  Definition read_flat (fs : files) (j : job) : result FlatAhb :=
    let* b := fs (jb_flat_ahb_path _ j) in let* x := parse_json_file float_value b in load_flat x.
  Definition read_sgh (fs : files) (j : job) : result Sgh :=
    let* b := fs (jb_sgh_path _ j) in let* x := parse_json_file float_value b in load_sgh x.
  Definition convert (fs : files) (j : job) (flat : FlatAhb) (sgh : Sgh) : result DeepAhb :=
    let* b := fs (jb_template_path _ j) in let* document := parse_xml b in
    fst (to_deep_ahb (get_edifact_stack (new_MigXmlReader document)) str_of_location flat sgh).
  Lemma generate_steps fs j : generate_of fs j = let* flat := read_flat fs j in let* sgh := read_sgh fs j in convert fs j flat sgh.
  Proof.
    unfold generate_of, M_Cli.generate, read_flat, read_sgh, convert. destruct (fs (jb_flat_ahb_path _ j)) as [b|]; [|reflexivity]. cbn [bind].
    destruct (parse_json_file float_value b) as [x|]; [|reflexivity]. cbn [bind]. destruct (load_flat x); [|reflexivity]. cbn [bind].
    destruct (fs (jb_sgh_path _ j)) as [b'|]; [|reflexivity]. cbn [bind]. destruct (parse_json_file float_value b') as [x'|]; [|reflexivity]. cbn [bind].
    destruct (load_sgh x'); reflexivity.
  Qed.

  Definition writing_of (fs0 : files) (j : job) (p : path) (maus : DeepAhb) (position : nat) (rest : list N) (r : result unit) (written : list N) : Prop :=
    opens fs0 j p maus /\ text_of maus = (written ++ rest, r) /\ position = List.length written.
  Definition known (fs0 : files) (j : job) (ph : phase) : Prop :=
    match ph with
    | Start => True
    | ReadsFlat => one_option j
    | ReadsSgh flat => one_option j /\ read_flat fs0 j = Ok flat
    | ReadsTemplate flat sgh => one_option j /\ read_flat fs0 j = Ok flat /\ read_sgh fs0 j = Ok sgh
    | Generated maus => one_option j /\ generate_of fs0 j = Ok maus
    | Writing position rest r => exists p maus written, writing_of fs0 j p maus position rest r written
    | Finished r => r = fst (run_of fs0 j)
    end.

  (** a run that is not writing has only read *)
  Definition late (ph : phase) : bool := match ph with Writing _ _ _ | Finished _ => true | _ => false end.
  Lemma known_step fs0 j ph fs ph' fs' : step j (ph, fs) (ph', fs') -> known fs0 j ph ->
    (late ph = false -> forall p, reads j p -> fs p = fs0 p) -> known fs0 j ph'.
  Proof.
    intros St K R. inversion St; subst; cbn [known late] in *; try specialize (R eq_refl).
    - destruct (_ || _) eqn:E; [|exact E]. cbn. rewrite run_aborts; [reflexivity|]. unfold one_option. congruence.
    - rewrite (R (jb_flat_ahb_path _ j)) by (unfold reads; tauto). fold (read_flat fs0 j).
      destruct (read_flat fs0 j) as [flat|e] eqn:E; cbn; [auto|]. rewrite (run_fails fs0 j e); [reflexivity|exact K|]. rewrite generate_steps, E. reflexivity.
    - destruct K as (O & F). rewrite (R (jb_sgh_path _ j)) by (unfold reads; tauto). fold (read_sgh fs0 j).
      destruct (read_sgh fs0 j) as [sgh|e] eqn:E; cbn; [auto|]. rewrite (run_fails fs0 j e); [reflexivity|exact O|]. rewrite generate_steps, F. cbn [bind]. rewrite E. reflexivity.
    - destruct K as (O & F & S'). rewrite (R (jb_template_path _ j)) by (unfold reads; tauto). change (known fs0 j (unless_raised (convert fs0 j flat sgh) Generated)).
      assert (G : generate_of fs0 j = convert fs0 j flat sgh) by (rewrite generate_steps, F; cbn [bind]; rewrite S'; reflexivity).
      destruct (convert fs0 j flat sgh) as [maus|e] eqn:E; cbn; [auto|]. now rewrite (run_fails fs0 j e).
    - destruct K as (O & G). destruct (one_option_cases j O) as [(p' & C & Ou)|(p' & C & Ou)]; [|congruence]. rewrite Ou. cbn [is_some].
      rewrite (run_checks fs0 j p maus) by assumption. cbn [fst]. unfold M_Cli.check_maus. now rewrite (R p) by (unfold reads; tauto).
    - destruct K as (O & G). rewrite to_write_text in *. destruct (text_of maus) as [b r] eqn:E. cbn [fst snd] in *. cbn [known]. exists p, maus, []. split; [repeat split; assumption|]. split; [exact E|reflexivity].
    - destruct K as (O & G). match goal with H : open_for_writing _ = Some ?e |- _ => now rewrite (run_not_opened fs0 j p e maus) end.
    - destruct K as (p' & maus & written & Op & T & ->). exists p', maus, (written ++ x). split; [exact Op|]. split; [now rewrite <- app_assoc|now rewrite app_length].
    - destruct K as (p' & maus & written & Op & T & _). rewrite (run_opens fs0 j p' maus Op), T. reflexivity.
  Qed.

  (** *** a single run *)
  Definition files_of (fs0 : files) (j : job) (ph : phase) (fs : files) : Prop :=
    match ph with
    | Writing position rest r =>
        exists p maus written, writing_of fs0 j p maus position rest r written /\ fs p = Ok written /\ forall q, q <> p -> fs q = fs0 q
    | Finished _ => forall q, fs q = snd (run_of fs0 j) q
    | _ => fs = fs0
    end.
  Definition alone (fs0 : files) (j : job) (st : phase * files) : Prop := known fs0 j (fst st) /\ files_of fs0 j (fst st) (snd st).

  Lemma not_late_alone fs0 j ph fs : files_of fs0 j ph fs -> late ph = false -> fs = fs0.
  Proof. destruct ph; cbn; intros; try discriminate; assumption. Qed.
  Lemma finished_unchanged fs0 j r : known fs0 j (Finished r) -> (forall p maus, ~ opens fs0 j p maus) -> files_of fs0 j (Finished r) fs0.
  Proof. intros _ N q. destruct (run_cases fs0 j) as [->|(p & maus & O)]; [reflexivity|destruct (N _ _ O)]. Qed.
  Lemma unless_unchanged {A} fs0 j (r : result A) next : (forall x, late (next x) = false) -> known fs0 j (unless_raised r next) ->
    (forall e, r = Raise e -> forall p maus, ~ opens fs0 j p maus) -> files_of fs0 j (unless_raised r next) fs0.
  Proof.
    destruct r as [x|e]; cbn [unless_raised]; intros L K N.
    - specialize (L x). destruct (next x); cbn in *; try discriminate; reflexivity.
    - apply finished_unchanged; [exact K|exact (N e eq_refl)].
  Qed.
  Lemma alone_step fs0 j st st' : step j st st' -> alone fs0 j st -> alone fs0 j st'.
  Proof.
    intros St [K F]. destruct st as [ph fs], st' as [ph' fs']. cbn [fst snd] in *.
    assert (K' : known fs0 j ph').
    { apply (known_step fs0 j ph fs ph' fs' St K). intros L p _. now rewrite (not_late_alone fs0 j ph fs F L). }
    split; [exact K'|]. cbn [fst snd]. inversion St; subst; cbn [files_of] in F; subst.
    - destruct (_ || _) eqn:E; [|reflexivity]. apply finished_unchanged; [exact K'|]. intros p maus (C & O & _). rewrite C, O in E. discriminate.
    - apply unless_unchanged; [reflexivity|exact K'|]. intros e E p maus (_ & _ & G & _). rewrite generate_steps in G. unfold read_flat in G. rewrite E in G. discriminate.
    - apply unless_unchanged; [reflexivity|exact K'|]. intros e E p maus (_ & _ & G & _). rewrite generate_steps in G. destruct K as (_ & F').
      rewrite F' in G. cbn [bind] in G. unfold read_sgh in G. rewrite E in G. discriminate.
    - apply (unless_unchanged fs0 j (convert fs0 j flat sgh) Generated); [reflexivity|exact K'|]. intros e E p maus (_ & _ & G & _). rewrite generate_steps in G. destruct K as (_ & F' & S').
      rewrite F' in G. cbn [bind] in G. rewrite S' in G. cbn [bind] in G. rewrite E in G. discriminate.
    - apply finished_unchanged; [exact K'|]. intros p' maus' (C & _). congruence.
    - rewrite to_write_text in *. destruct (text_of maus) as [b r] eqn:E. cbn [fst snd] in *. destruct K as (O & G). exists p, maus, [].
      split; [split; [repeat split; assumption|split; [exact E|reflexivity]]|]. split; [apply write_same|intros q; apply write_other].
    - apply finished_unchanged; [exact K'|]. intros p' maus' (_ & O & _ & W). congruence.
    - destruct F as (p' & maus & written & (Op & T & ->) & F & U). assert (p' = p) by (destruct Op as (_ & O & _); congruence). subst p'.
      exists p, maus, (written ++ x). split; [split; [exact Op|split; [now rewrite <- app_assoc|now rewrite app_length]]|].
      split; [rewrite write_same, F; cbn [content_of]; now rewrite write_at_end|]. intros q N. rewrite write_other by exact N. now apply U.
    - destruct F as (p & maus & written & (Op & T & _) & F & U). cbn [files_of]. intros q. rewrite (run_opens fs0 j p maus Op), T, app_nil_r. cbn [fst snd].
      destruct (path_dec q p) as [->|N]; [now rewrite write_same|]. rewrite write_other by exact N. now apply U.
  Qed.
  Lemma alone_steps fs0 j st : steps j (Start, fs0) st -> alone fs0 j st.
  Proof.
    intros H. remember (Start, fs0) as st0 eqn:E. induction H as [st|st st' st'' H IH St]; subst; [split; cbn; auto|].
    eapply alone_step; [exact St|]. now apply IH.
  Qed.

  (** *** runs can always go on *)
  Definition able (j : job) (ph : phase) : Prop :=
    match ph with Start | Finished _ => True | Writing _ _ _ => jb_output_path _ j <> None | _ => one_option j end.
  Lemma able_step j ph fs ph' fs' : step j (ph, fs) (ph', fs') -> able j ph -> able j ph'.
  Proof.
    intros St A. inversion St; subst; cbn [able] in *; try exact I; try assumption.
    - destruct (_ || _) eqn:E; [exact I|exact E].
    - destruct (let* b := _ in _); cbn; auto.
    - destruct (let* b := _ in _); cbn; auto.
    - destruct (let* b := _ in _); cbn; auto.
    - rewrite to_write_text. cbn [able]. congruence.
  Qed.
  Lemma steps_one j st st' : step j st st' -> steps j st st'.
  Proof. intros H. eapply steps_more; [apply steps_none|exact H]. Qed.
  Lemma steps_trans j st st' st'' : steps j st st' -> steps j st' st'' -> steps j st st''.
  Proof. intros H H'. induction H' as [|a b c H' IH St]; [exact H|]. eapply steps_more; [apply IH, H|exact St]. Qed.
  Definition finishes (j : job) (st : phase * files) : Prop := exists r fs', steps j st (Finished r, fs').
  Lemma finishes_step j st st' : step j st st' -> finishes j st' -> finishes j st.
  Proof. intros St (r & fs' & H). exists r, fs'. eapply steps_trans; [apply steps_one, St|exact H]. Qed.
  Lemma finishes_finished j r fs : finishes j (Finished r, fs).
  Proof. exists r, fs. apply steps_none. Qed.
  Lemma finishes_unless {A} j (r : result A) next fs : (forall x, finishes j (next x, fs)) -> finishes j (unless_raised r next, fs).
  Proof. destruct r; cbn; intros H; [apply H|apply finishes_finished]. Qed.
  Lemma finishes_able j ph fs : able j ph -> finishes j (ph, fs).
  Proof.
    assert (W : jb_output_path _ j <> None -> forall k rest r fs', finishes j (Writing k rest r, fs')).
    { intros A k rest r fs'. destruct (jb_output_path _ j) as [p|] eqn:O; [|contradiction]. destruct rest as [|a rest].
      - eapply finishes_step; [apply step_close|apply finishes_finished].
      - eapply finishes_step; [rewrite <- (app_nil_r (a :: rest)); apply (step_write _ _ _ _ _ _ _ _ j p k (a :: rest) [] r fs' O); discriminate|].
        eapply finishes_step; [apply step_close|apply finishes_finished]. }
    assert (G : one_option j -> forall maus fs', finishes j (Generated maus, fs')).
    { intros A maus fs'. destruct (one_option_cases j A) as [(p & C & O)|(p & C & O)]; [eapply finishes_step; [now apply step_check with (p := p)|apply finishes_finished]|].
      destruct (open_for_writing p) as [e|] eqn:E; [eapply finishes_step; [now apply step_not_opened with (p := p) (e := e)|apply finishes_finished]|].
      eapply finishes_step; [now apply step_open with (p := p)|]. rewrite to_write_text. apply W. congruence. }
    assert (T : one_option j -> forall flat sgh fs', finishes j (ReadsTemplate flat sgh, fs')).
    { intros A flat sgh fs'. eapply finishes_step; [apply step_template|]. apply finishes_unless. intros maus. now apply G. }
    assert (Sg : one_option j -> forall flat fs', finishes j (ReadsSgh flat, fs')).
    { intros A flat fs'. eapply finishes_step; [apply step_sgh|]. apply finishes_unless. intros sgh. now apply T. }
    assert (Fl : one_option j -> forall fs', finishes j (ReadsFlat, fs')).
    { intros A fs'. eapply finishes_step; [apply step_flat|]. apply finishes_unless. intros flat. now apply Sg. }
    intros A. destruct ph; cbn [able] in A; auto; [|apply finishes_finished]. eapply finishes_step; [apply step_options|].
    destruct (_ || _) eqn:E; [apply finishes_finished|]. now apply Fl.
  Qed.
  Lemma able_steps j st st' : steps j st st' -> able j (fst st) -> able j (fst st').
  Proof. intros H. induction H as [|a [ph fs] [ph' fs'] H IH St]; [auto|]. intros A. exact (able_step j ph fs ph' fs' St (IH A)). Qed.

  (** *** the same inputs *)
  Lemma generate_same fs fs' j : (forall p, reads j p -> fs' p = fs p) -> generate_of fs' j = generate_of fs j.
  Proof. intros R. unfold generate_of, M_Cli.generate. rewrite !R by (unfold reads; tauto). reflexivity. Qed.
  Lemma run_same fs fs' j : (forall p, reads j p -> fs' p = fs p) ->
    fst (run_of fs' j) = fst (run_of fs j)
    /\ forall q, (exists maus, opens fs j q maus) /\ snd (run_of fs' j) q = snd (run_of fs j) q
                 \/ (forall maus, ~ opens fs j q maus) /\ snd (run_of fs' j) q = fs' q /\ snd (run_of fs j) q = fs q.
  Proof.
    intros R. pose proof (generate_same fs fs' j R) as G.
    assert (Op : forall p maus, opens fs' j p maus <-> opens fs j p maus) by (intros p maus; unfold opens; now rewrite G).
    destruct (run_cases fs j) as [E|(p & maus & O)].
    - destruct (run_cases fs' j) as [E'|(p & maus & O)].
      + split.
        * destruct ((is_none (jb_check_path _ j) && is_none (jb_output_path _ j)) || (is_some (jb_check_path _ j) && is_some (jb_output_path _ j))) eqn:X;
            [rewrite !run_aborts by (unfold one_option; congruence); reflexivity|].
          destruct (generate_of fs j) as [maus|e] eqn:M; [|rewrite (run_fails fs j e), (run_fails fs' j e); auto].
          destruct (one_option_cases j X) as [(p & C & U)|(p & C & U)].
          { rewrite (run_checks fs j p maus), (run_checks fs' j p maus) by auto. cbn [fst]. unfold M_Cli.check_maus. now rewrite (R p) by (unfold reads; tauto). }
          destruct (open_for_writing p) as [e|] eqn:W; [rewrite (run_not_opened fs j p e maus), (run_not_opened fs' j p e maus); auto|].
          assert (O : opens fs j p maus) by (repeat split; assumption).
          now rewrite (run_opens fs j p maus O), (run_opens fs' j p maus (proj2 (Op p maus) O)).
        * intros q. rewrite E, E'. destruct ((fun A (x : option A) => match x with Some _ => true | None => false end) _ (open_for_writing q)) eqn:W.
          { right. repeat split. intros maus (_ & _ & _ & W'). rewrite W' in W. discriminate. }
          destruct (generate_of fs j) as [maus|e] eqn:M.
          { destruct (jb_check_path _ j) as [c|] eqn:C; [right; repeat split; intros m (C' & _); congruence|].
            destruct (jb_output_path _ j) as [o|] eqn:U; [|right; repeat split; intros m (_ & U' & _); congruence].
            destruct (path_dec o q) as [->|N]; [|right; repeat split; intros m (_ & U' & _); congruence].
            left. assert (O : opens fs j q maus) by (repeat split; try assumption; destruct (open_for_writing q); [discriminate|reflexivity]).
            split; [now exists maus|]. rewrite <- E, <- E', (run_opens fs j q maus O), (run_opens fs' j q maus (proj2 (Op q maus) O)). cbn [snd]. now rewrite !write_same. }
          right. repeat split. intros m (_ & _ & M' & _). congruence.
      + assert (O' : opens fs j p maus) by now apply Op. rewrite (run_opens fs j p maus O'), (run_opens fs' j p maus O). cbn [fst snd]. split; [reflexivity|].
        intros q. destruct (path_dec q p) as [->|N]; [left; split; [now exists maus|now rewrite !write_same]|right].
        split; [intros m (_ & U & _); destruct O as (_ & U' & _); congruence|]. now rewrite !write_other.
    - assert (O' : opens fs' j p maus) by now apply Op. rewrite (run_opens fs j p maus O), (run_opens fs' j p maus O'). cbn [fst snd]. split; [reflexivity|].
      intros q. destruct (path_dec q p) as [->|N]; [left; split; [now exists maus|now rewrite !write_same]|right].
      split; [intros m (_ & U & _); destruct O as (_ & U' & _); congruence|]. now rewrite !write_other.
  Qed.
End Runs.
