(** Lemmas: several runs of the command line tool at the same time. *)
From Coq Require Import Ascii String List NArith ZArith Bool Lia Arith.
From Verif Require Import PyBase PyStr M_Components M_Ahb M_Sgh M_Navigation M_Matching M_Schema M_Xml M_MigXml M_Cli M_JsonText M_Runs
  L_Base S_Json S_Cli S_JsonText L_JsonFile C_Cli C_JsonText L_Cut L_Runs.
Import ListNotations.
Local Open Scope list_scope.

(** what is left of a text: some of its bytes, or zeros in their place *)
Definition scraps (t c : list N) : Prop :=
  List.length c <= List.length t /\ forall i b, nth_error c i = Some b -> b = 0%N \/ nth_error t i = Some b.
Definition agree (k : nat) (t c : list N) : Prop := k <= List.length t /\ forall i, i < k -> nth_error c i = nth_error t i.

Lemma scraps_nil t : scraps t [].
Proof. split; [cbn; lia|]. intros [|i] b H; discriminate. Qed.
Lemma scraps_write t c written x rest : scraps t c -> t = written ++ x ++ rest -> scraps t (write_at (List.length written) x c).
Proof.
  intros [L S'] ->. split; [rewrite write_at_length, !app_length in *; lia|]. intros i b. rewrite write_at_nth.
  destruct (Nat.ltb_spec i (List.length written)); [destruct (Nat.ltb_spec i (List.length c)); [apply S'|intros E; injection E as <-; auto]|].
  destruct (Nat.ltb_spec i (List.length written + List.length x)); [|apply S'].
  intros E. right. rewrite nth_error_app2 by lia. rewrite nth_error_app1 by lia. exact E.
Qed.
Lemma agree_in k t c i : agree k t c -> i < k -> i < List.length c.
Proof.
  intros [L A] H. specialize (A i H). destruct (nth_error t i) as [b|] eqn:E; [exact (nth_some_lt c i b A)|]. apply nth_error_None in E. lia.
Qed.
Lemma agree_other k t c written x rest : agree k t c -> t = written ++ x ++ rest -> agree k t (write_at (List.length written) x c).
Proof.
  intros A E. split; [apply A|]. intros i H. pose proof (agree_in k t c i A H) as Hc. destruct A as [L A]. rewrite write_at_nth.
  destruct (Nat.ltb_spec i (List.length written)); [destruct (Nat.ltb_spec i (List.length c)); [now apply A|lia]|].
  destruct (Nat.ltb_spec i (List.length written + List.length x)); [|now apply A].
  subst t. rewrite nth_error_app2 by lia. rewrite nth_error_app1 by lia. reflexivity.
Qed.
Lemma agree_own t c written x rest : agree (List.length written) t c -> t = written ++ x ++ rest ->
  agree (List.length written + List.length x) t (write_at (List.length written) x c).
Proof.
  intros A E. pose proof (agree_other _ t c written x rest A E) as [_ A']. split; [subst t; rewrite !app_length; lia|]. intros i H.
  destruct (Nat.ltb_spec i (List.length written)) as [Hw|Hw]; [now apply A'|]. rewrite write_at_nth.
  destruct (Nat.ltb_spec i (List.length written)); [lia|]. destruct (Nat.ltb_spec i (List.length written + List.length x)); [|lia].
  subst t. rewrite nth_error_app2 by lia. rewrite nth_error_app1 by lia. reflexivity.
Qed.
Lemma scraps_whole t c : scraps t c -> agree (List.length t) t c -> c = t.
Proof. intros [L _] [_ A]. now apply same_nth. Qed.
(** without zeros it is a beginning of the text *)
Lemma scraps_beginning t c : scraps t c -> In 0%N c \/ exists rest, t = c ++ rest.
Proof.
  revert t. induction c as [|b c IH]; intros t [L S']; [right; now exists t|].
  destruct (S' 0 b eq_refl) as [->|E]; [left; now left|]. destruct t as [|b' t]; [discriminate|]. injection E as ->.
  destruct (IH t) as [I|(rest & ->)]; [|left; now right|right; now exists rest].
  split; [cbn in L; lia|]. intros i x H. exact (S' (S i) x H).
Qed.

Section Runs.
  Variable path : Type.
  Variable path_eqb : path -> path -> bool.
  Hypothesis path_eqb_eq : forall p p', path_eqb p p' = true <-> p = p'.
  Variable float_value : pystr -> option Z.
  Variable left_over : pystr -> list N.
  Variable parse_xml : list N -> result element.
  Variable class_attribute : pystr -> option bool.
  Variable str_of_location : Location -> pystr.
  Variable open_for_writing : path -> option exn.
  Notation files := (files path (list N)).
  Notation job := (job path).
  Notation get_maus := (get_maus path (list N) (parse_json_file float_value) class_attribute).
  Notation write := (write path path_eqb (list N)).
  Notation step := (step path path_eqb float_value left_over parse_xml class_attribute str_of_location open_for_writing).
  Notation steps := (steps path path_eqb float_value left_over parse_xml class_attribute str_of_location open_for_writing).
  Notation world_step := (world_step path path_eqb float_value left_over parse_xml class_attribute str_of_location open_for_writing).
  Notation world_steps := (world_steps path path_eqb float_value left_over parse_xml class_attribute str_of_location open_for_writing).
  Notation run_of := (run_of path path_eqb float_value left_over parse_xml class_attribute str_of_location open_for_writing).
  Notation generate_of := (generate_of path float_value parse_xml str_of_location).
  Notation text_of := (text_of left_over).
  Notation opens := (opens path float_value parse_xml str_of_location open_for_writing).
  Notation known := (known path path_eqb float_value left_over parse_xml class_attribute str_of_location open_for_writing).
  Notation writing_of := (writing_of path float_value left_over parse_xml str_of_location open_for_writing).
  Notation able := (able path).
  Notation reads := (reads path).

  (** what was written before a surrogate is a beginning of the text *)
  Hypothesis left_over_beginning : forall s, exists s1 s2, s = s1 ++ s2 /\ utf8_text s1 (left_over s).

  (** *** beginnings of the files that are written *)
  Lemma dumped_text maus : exists o, json_text float_value (JObj o) (iterencode 0 (sort_keys (dump_deep maus))).
  Proof.
    assert (R : reordered (dump_deep maus) (sort_keys (dump_deep maus))) by (apply C71_sorting; apply (proj2 (C71_dumped_keys_are_unique (mkFlat (da_meta maus) []) maus))).
    assert (J : json_text float_value (sort_keys (dump_deep maus)) (iterencode 0 (sort_keys (dump_deep maus)))).
    { apply encoded_value; [exact (maus_free maus _ R)|exact (maus_unique maus _ R)]. }
    assert (X : exists o, sort_keys (dump_deep maus) = JObj o) by (unfold dump_deep; cbn [sort_keys]; eexists; reflexivity).
    destruct X as (o & X). rewrite X in J at 1. exists o. exact J.
  Qed.
  Lemma beginning_is_unreadable maus c rest : fst (text_of maus) = c ++ rest -> rest = [] \/ parse_json_file float_value c = Raise ValueError.
  Proof.
    unfold L_Runs.text_of, write_json_file. destruct (dumped_text maus) as (o & J). set (t := iterencode 0 (sort_keys (dump_deep maus))) in *.
    destruct (encode_utf8 t) as [b|e] eqn:E; cbn [fst].
    - intros ->. destruct rest as [|x rest]; [now left|right]. apply encode_utf8_spec in E. now apply (cut_file float_value o t c (x :: rest)).
    - intros L. right. destruct (left_over_beginning t) as (s1 & s2 & S' & U). rewrite L in U.
      apply (cut_text float_value o t s1 s2 c rest J); [|exact S'|exact U]. intros A.
      pose proof (proj1 (encode_utf8_raises t e)) as R. specialize (R E). tauto.
  Qed.
  Lemma scraps_unreadable maus c : scraps (fst (text_of maus)) c -> c = fst (text_of maus) \/ parse_json_file float_value c = Raise ValueError.
  Proof.
    intros S'. destruct (scraps_beginning _ _ S') as [I|(rest & E)]; [right; now apply zero_file|].
    destruct (beginning_is_unreadable maus c rest E) as [->|R]; [left; now rewrite app_nil_r in E|now right].
  Qed.
  Lemma get_maus_file fs p c : fs p = Ok c -> parse_json_file float_value c = Raise ValueError -> get_maus fs p = Raise ValueError.
  Proof. intros F P. unfold M_Cli.get_maus. rewrite F. cbn [bind]. rewrite P. reflexivity. Qed.

  (** *** the steps that change files *)
  Lemma step_effects fs0 j ph fs ph' fs' : step j (ph, fs) (ph', fs') -> known fs0 j ph ->
    (late ph = false -> forall p, reads j p -> fs p = fs0 p) ->
       (late ph = false /\ exists p maus, opens fs0 j p maus /\ ph' = Writing 0 (fst (text_of maus)) (snd (text_of maus)) /\ fs' = write fs p [])
    \/ (exists p maus written x rest r, ph = Writing (List.length written) (x ++ rest) r /\ writing_of fs0 j p maus (List.length written) (x ++ rest) r written
          /\ ph' = Writing (List.length written + List.length x) rest r /\ fs' = write fs p (write_at (List.length written) x (content_of (fs p))))
    \/ (exists p maus written r, ph = Writing (List.length written) [] r /\ writing_of fs0 j p maus (List.length written) [] r written /\ ph' = Finished r /\ fs' = fs)
    \/ (late ph = false /\ fs' = fs /\ (late ph' = true -> forall p maus, ~ opens fs0 j p maus)).
  Proof.
    intros St K R.
    pose proof (known_step path path_eqb float_value left_over parse_xml class_attribute str_of_location open_for_writing fs0 j ph fs ph' fs' St K R) as K'.
    inversion St; subst; cbn [late] in *; try specialize (R eq_refl).
    - right; right; right. repeat split. destruct (_ || _) eqn:E; [|discriminate]. intros _ p maus (C & O & _). rewrite C, O in E. discriminate.
    - right; right; right. repeat split.
      destruct (let* b := fs' (jb_flat_ahb_path path j) in let* x := parse_json_file float_value b in load_flat x) as [x|e] eqn:E; [discriminate|].
      intros _ p maus (_ & _ & G & _). rewrite generate_steps in G. unfold read_flat in G. rewrite <- (R (jb_flat_ahb_path path j)) in G by (unfold L_Runs.reads; tauto).
      rewrite E in G. discriminate.
    - right; right; right. repeat split. destruct K as (_ & F').
      destruct (let* b := fs' (jb_sgh_path path j) in let* x := parse_json_file float_value b in load_sgh x) as [x|e] eqn:E; [discriminate|].
      intros _ p maus (_ & _ & G & _). rewrite generate_steps, F' in G. cbn [bind] in G. unfold read_sgh in G. rewrite <- (R (jb_sgh_path path j)) in G by (unfold L_Runs.reads; tauto).
      rewrite E in G. discriminate.
    - right; right; right. repeat split. destruct K as (_ & F' & S'). rewrite (R (jb_template_path path j)) in * by (unfold L_Runs.reads; tauto).
      change (late (unless_raised (convert path parse_xml str_of_location fs0 j flat sgh) Generated) = true -> forall p maus, ~ opens fs0 j p maus).
      destruct (convert path parse_xml str_of_location fs0 j flat sgh) as [x|e] eqn:E; [discriminate|].
      intros _ p maus (_ & _ & G & _). rewrite generate_steps, F' in G. cbn [bind] in G. rewrite S' in G. cbn [bind] in G. rewrite E in G. discriminate.
    - right; right; right. repeat split. intros _ p' maus' (C & _). congruence.
    - left. split; [reflexivity|]. destruct K as (_ & G). exists p, maus. split; [repeat split; assumption|]. split; [apply to_write_text|reflexivity].
    - right; right; right. repeat split. intros _ p' maus' (_ & O & _ & W). congruence.
    - right; left. destruct K as (p' & maus & written & (Op & T & ->)). assert (p' = p) by (destruct Op as (_ & O & _); congruence). subst p'.
      exists p, maus, written, x, rest, r. repeat split; try assumption; apply Op.
    - right; right; left. destruct K as (p & maus & written & (Op & T & ->)). exists p, maus, written, r. repeat split; try assumption; apply Op.
  Qed.

  Lemma in_jobs (jobs : list job) (l : list (job * phase)) j ph : map fst l = jobs -> In (j, ph) l -> In j jobs.
  Proof. intros <- H. exact (in_map fst l (j, ph) H). Qed.

  (** *** the invariant of a world *)
  Section World.
    Variable fs0 : files.
    Variable jobs : list job.
    (** nobody reads what somebody writes *)
    Hypothesis apart : forall j j' p maus, In j jobs -> In j' jobs -> opens fs0 j' p maus -> ~ reads j p.
    (** those who write the same file write the same AHB *)
    Hypothesis agreed : forall j j' p maus maus', In j jobs -> In j' jobs -> opens fs0 j p maus -> opens fs0 j' p maus' -> maus = maus'.

    Definition progress (t : list N) (ph : phase) (k : nat) : Prop :=
      match ph with Writing position _ _ => k = position | Finished _ => k = List.length t | _ => False end.
    Definition untouched (l : list (job * phase)) (fs : files) (q : path) : Prop :=
      fs q = fs0 q /\ forall j ph maus, In (j, ph) l -> opens fs0 j q maus -> late ph = false.
    Definition touched (l : list (job * phase)) (fs : files) (q : path) : Prop :=
      exists maus c j ph k, fs q = Ok c /\ In (j, ph) l /\ opens fs0 j q maus /\ progress (fst (text_of maus)) ph k
        /\ scraps (fst (text_of maus)) c /\ agree k (fst (text_of maus)) c.
    Definition world_inv (w : list (job * phase) * files) : Prop :=
      map fst (fst w) = jobs /\ (forall j ph, In (j, ph) (fst w) -> known fs0 j ph)
      /\ forall q, untouched (fst w) (snd w) q \/ touched (fst w) (snd w) q.


    Lemma world_reads l fs j ph : world_inv (l, fs) -> In (j, ph) l -> forall p, reads j p -> fs p = fs0 p.
    Proof.
      intros (J & _ & Q) H p R. cbn [fst snd] in *. destruct (Q p) as [[U _]|(maus & c & j' & ph' & k & _ & H' & O & _)]; [exact U|].
      destruct (apart j j' p maus); [exact (in_jobs jobs l j ph J H)|exact (in_jobs jobs l j' ph' J H')|exact O|exact R].
    Qed.

    Lemma in_swap {A} (before : list A) a a' behind x : In x (before ++ a :: behind) -> x = a \/ In x (before ++ a' :: behind).
    Proof. rewrite !in_app_iff. cbn. intuition auto. Qed.
    Lemma in_swap' {A} (before : list A) a a' behind x : In x (before ++ a :: behind) -> x <> a -> In x (before ++ a' :: behind).
    Proof. intros H N. destruct (in_swap before a a' behind x H); [contradiction|assumption]. Qed.

    Lemma world_inv_step w w' : world_step w w' -> world_inv w -> world_inv w'.
    Proof.
      intros [before j ph behind fs ph' fs' St] Inv. pose proof Inv as (J & K & Q). cbn [fst snd] in *.
      assert (H : In (j, ph) (before ++ (j, ph) :: behind)) by (apply in_elt).
      assert (H' : In (j, ph') (before ++ (j, ph') :: behind)) by (apply in_elt).
      pose proof (K j ph H) as Kj.
      assert (R : late ph = false -> forall p, reads j p -> fs p = fs0 p) by (intros _; exact (world_reads _ _ j ph Inv H)).
      assert (J' : map fst (before ++ (j, ph') :: behind) = jobs) by (rewrite <- J, !map_app; reflexivity).
      split; [exact J'|]. cbn [fst snd]. split.
      { intros i phi Hi. destruct (in_swap before (j, ph') (j, ph) behind _ Hi) as [E|Hi']; [|now apply K]. injection E as -> ->.
        exact (known_step path path_eqb float_value left_over parse_xml class_attribute str_of_location open_for_writing fs0 j ph fs ph' fs' St Kj R). }
      destruct (step_effects fs0 j ph fs ph' fs' St Kj R) as [(L & p & maus & Op & -> & ->)|[(p & maus & written & x & rest & r & -> & (Op & T & _) & -> & ->)|[(p & maus & written & r & -> & (Op & T & _) & -> & ->)|(L & -> & N)]]].
      - (* opened *)
        intros q. destruct (path_dec path path_eqb path_eqb_eq q p) as [->|Nq].
        + right. exists maus, [], j, (Writing 0 (fst (text_of maus)) (snd (text_of maus))), 0. rewrite write_same by exact path_eqb_eq.
          repeat split; try apply Op; try exact H'; try apply scraps_nil; try lia.
        + assert (Nj : forall m, ~ opens fs0 j q m) by (intros m (_ & O & _); destruct Op as (_ & O' & _); congruence).
          destruct (Q q) as [[U V]|(m & c & i & phi & k & F & Hi & Oi & P & Sc & A)]; [left|right].
          * split; [rewrite write_other by assumption; exact U|]. intros i phi m Hi Oi. destruct (in_swap before _ (j, ph) behind _ Hi) as [E|Hi']; [|exact (V i phi m Hi' Oi)].
            injection E as -> ->. destruct (Nj m Oi).
          * exists m, c, i, phi, k. rewrite write_other by assumption. split; [exact F|]. split; [|split; [exact Oi|split; [exact P|split; [exact Sc|exact A]]]].
            apply (in_swap' before (j, ph)); [exact Hi|]. intros E. injection E as -> ->. destruct (Nj m Oi).
      - (* written *)
        intros q. destruct (path_dec path path_eqb path_eqb_eq q p) as [->|Nq].
        + right. destruct (Q p) as [[U V]|(m & c & i & phi & k & F & Hi & Oi & P & Sc & A)]; [specialize (V j _ maus H Op); discriminate|].
          assert (m = maus) by (apply (agreed i j p m maus); [exact (in_jobs jobs _ i phi J Hi)|exact (in_jobs jobs _ j _ J H)|exact Oi|exact Op]). subst m.
          assert (T' : fst (text_of maus) = written ++ x ++ rest) by now rewrite T.
          rewrite F. cbn [content_of]. exists maus, (write_at (List.length written) x c).
          destruct (in_swap before _ (j, Writing (List.length written + List.length x) rest r) behind _ Hi) as [E|Hi'].
          * injection E as -> ->. cbn [progress] in P. subst k. exists j, (Writing (List.length written + List.length x) rest r), (List.length written + List.length x).
            rewrite write_same by exact path_eqb_eq. split; [reflexivity|]. split; [exact H'|]. split; [exact Op|]. split; [reflexivity|].
            split; [now apply (scraps_write _ _ _ _ rest)|now apply (agree_own _ _ _ _ rest)].
          * exists i, phi, k. rewrite write_same by exact path_eqb_eq. split; [reflexivity|]. split; [exact Hi'|]. split; [exact Oi|]. split; [exact P|].
            split; [now apply (scraps_write _ _ _ _ rest)|now apply (agree_other _ _ _ _ _ rest)].
        + assert (Nj : forall m, ~ opens fs0 j q m) by (intros m (_ & O & _); destruct Op as (_ & O' & _); congruence).
          destruct (Q q) as [[U V]|(m & c & i & phi & k & F & Hi & Oi & P & Sc & A)]; [left|right].
          * split; [rewrite write_other by assumption; exact U|]. intros i phi m Hi Oi. destruct (in_swap before _ (j, Writing (List.length written) (x ++ rest) r) behind _ Hi) as [E|Hi']; [|exact (V i phi m Hi' Oi)].
            injection E as -> ->. destruct (Nj m Oi).
          * exists m, c, i, phi, k. rewrite write_other by assumption. split; [exact F|]. split; [|split; [exact Oi|split; [exact P|split; [exact Sc|exact A]]]].
            eapply in_swap'; [exact Hi|]. intros E. injection E as -> ->. destruct (Nj m Oi).
      - (* closed *)
        intros q. destruct (Q q) as [[U V]|(m & c & i & phi & k & F & Hi & Oi & P & Sc & A)]; [left|right].
        + split; [exact U|]. intros i phi m Hi Oi. destruct (in_swap before _ (j, Writing (List.length written) [] r) behind _ Hi) as [E|Hi']; [|exact (V i phi m Hi' Oi)].
          injection E as -> ->. specialize (V j _ m H Oi). discriminate.
        + destruct (in_swap before _ (j, Finished r) behind _ Hi) as [E|Hi'].
          * injection E as -> ->. cbn [progress] in P. subst k. exists m, c, j, (Finished r), (List.length (fst (text_of m))).
            assert (m = maus) by (destruct Oi as (_ & _ & G & _), Op as (_ & _ & G' & _); congruence). subst m.
            assert (T' : fst (text_of maus) = written) by (rewrite T; cbn; apply app_nil_r).
            split; [exact F|]. split; [exact H'|]. split; [exact Oi|]. split; [reflexivity|]. split; [exact Sc|]. rewrite T' in *. exact A.
          * exists m, c, i, phi, k. auto 10.
      - (* only read *)
        intros q. destruct (Q q) as [[U V]|(m & c & i & phi & k & F & Hi & Oi & P & Sc & A)]; [left|right].
        + split; [exact U|]. intros i phi m Hi Oi. destruct (in_swap before _ (j, ph) behind _ Hi) as [E|Hi']; [|exact (V i phi m Hi' Oi)].
          injection E as -> ->. destruct (late ph') eqn:L'; [|reflexivity]. destruct (N eq_refl q m Oi).
        + exists m, c, i, phi, k. split; [exact F|]. split; [|auto 10]. eapply in_swap'; [exact Hi|]. intros E. injection E as -> ->.
          destruct ph; cbn in L, P; try discriminate; contradiction.
    Qed.

    Definition started : list (job * phase) := map (fun j => (j, Start)) jobs.
    Lemma world_inv_start : world_inv (started, fs0).
    Proof.
      unfold started. split; [cbn; rewrite map_map; cbn; apply map_id|]. cbn [fst snd].
      assert (S' : forall j ph, In (j, ph) (map (fun j => (j, Start)) jobs) -> ph = Start) by (intros j ph H; apply in_map_iff in H; destruct H as (i & E & _); congruence).
      split; [intros j ph H; rewrite (S' j ph H); exact I|]. intros q. left. split; [reflexivity|]. intros j ph maus H _. now rewrite (S' j ph H).
    Qed.
    Lemma world_inv_steps w : world_steps (started, fs0) w -> world_inv w.
    Proof.
      intros H. remember (started, fs0) as w0 eqn:E. induction H as [w|w w' w'' H IH St]; subst; [apply world_inv_start|]. eapply world_inv_step; [exact St|]. now apply IH.
    Qed.
  End World.

  (** *** worlds can always go on *)
  Lemma world_able w w' : world_steps w w' -> (forall j ph, In (j, ph) (fst w) -> able j ph) -> forall j ph, In (j, ph) (fst w') -> able j ph.
  Proof.
    intros H. induction H as [w|w w' w'' H IH St]; [auto|]. intros A. specialize (IH A). destruct St as [before j ph behind fs ph' fs' St]. cbn [fst] in *.
    intros i phi Hi. destruct (in_swap before _ (j, ph) behind _ Hi) as [E|Hi']; [|now apply IH]. injection E as -> ->.
    apply (able_step path path_eqb float_value left_over parse_xml class_attribute str_of_location open_for_writing j ph fs ph' fs' St). apply IH, in_elt.
  Qed.
  Lemma world_trans w w' w'' : world_steps w w' -> world_steps w' w'' -> world_steps w w''.
  Proof. intros H H'. induction H' as [|a b c H' IH St]; [exact H|]. eapply world_more; [apply IH, H|exact St]. Qed.
  Lemma world_lift before behind j st st' : steps j st st' -> world_steps (before ++ (j, fst st) :: behind, snd st) (before ++ (j, fst st') :: behind, snd st').
  Proof.
    intros H. induction H as [st|st [ph fs] [ph' fs'] H IH St]; [apply world_none|]. eapply world_more; [exact IH|]. cbn [fst snd]. now constructor.
  Qed.
  Lemma world_finishes l : (forall j ph, In (j, ph) l -> able j ph) -> forall before fs,
    exists l' fs', world_steps (before ++ l, fs) (before ++ l', fs') /\ forall j ph, In (j, ph) l' -> exists r, ph = Finished r.
  Proof.
    induction l as [|(j, ph) l IH]; intros A before fs; [exists [], fs; split; [apply world_none|intros j ph []]|].
    destruct (finishes_able path path_eqb float_value left_over parse_xml class_attribute str_of_location open_for_writing j ph fs (A j ph (or_introl eq_refl))) as (r & fs1 & H1).
    destruct (IH (fun i phi Hi => A i phi (or_intror Hi)) (before ++ [(j, Finished r)]) fs1) as (l' & fs2 & H2 & F).
    exists ((j, Finished r) :: l'), fs2. split.
    - eapply world_trans; [exact (world_lift before l j _ _ H1)|]. cbn [fst snd]. now rewrite <- !app_assoc in H2.
    - intros i phi [E|Hi]; [injection E as <- <-; now exists r|now apply (F i)].
  Qed.
End Runs.
