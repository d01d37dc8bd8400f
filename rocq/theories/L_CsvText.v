(** Lemmas: the state machine of the csv module and the grammar of CSV files. *)
From Coq Require Import Ascii String List NArith ZArith Bool Lia.
From Verif Require Import PyBase PyStr M_Components M_Ahb M_Schema M_CsvReader M_JsonText M_CsvText L_Base L_ValuePool S_Text S_FlatAhb S_Csv S_JsonText L_FlatAhb L_Csv S_CsvText.
Import ListNotations.
Local Open Scope list_scope.

Section Machine.
  Variable d : char.
  Variable limit : N.
  Notation process := (parse_process_char d limit).
  Notation process_line := (process_line d limit).
  Notation reader_rows := (reader_rows d limit).

  Definition handle (r : result parser) (rest : list pystr) : list (list pystr) * option exn :=
    match r with
    | Raise e => ([], Some e)
    | Ok p => if at_record_start p then (ps_fields p :: fst (reader_rows parse_reset rest), snd (reader_rows parse_reset rest))
              else reader_rows p rest
    end.
  Lemma reader_rows_line p line rest : reader_rows p (line :: rest) = handle (process_line p line) rest.
  Proof.
    cbn [M_CsvText.reader_rows]. unfold handle. destruct (process_line p line) as [p'|e]; [|reflexivity].
    destruct (at_record_start p'); [|reflexivity]. now destruct (reader_rows parse_reset rest).
  Qed.

  (** the machine on a text instead of lines *)
  Fixpoint run (p : parser) (t : pystr) : list (list pystr) * option exn :=
    match t with
    | [] => handle (process p None) []
    | c :: r =>
        match process p (Some c) with
        | Raise e => ([], Some e)
        | Ok p' =>
            if N.eqb c 10 then
              match process p' None with
              | Raise e => ([], Some e)
              | Ok q => let top x := match r with [] => reader_rows x [] | _ :: _ => run x r end in
                        if at_record_start q then (ps_fields q :: fst (top parse_reset), snd (top parse_reset)) else top q
              end
            else run p' r
        end
    end.
  Definition top (p : parser) (t : pystr) := match t with [] => reader_rows p [] | _ :: _ => run p t end.

  Lemma file_lines_other c r : c <> 10%N -> file_lines (c :: r) = (c :: hd [] (file_lines r)) :: tl (file_lines r).
  Proof. intros N. cbn [file_lines]. destruct (N.eqb_spec c 10) as [E|_]; [congruence|]. now destruct (file_lines r). Qed.
  Lemma run_lines t : forall p, handle (process_line p (hd [] (file_lines t))) (tl (file_lines t)) = run p t.
  Proof.
    induction t as [|c r IH]; intros p; [reflexivity|].
    assert (T : forall x, reader_rows x (file_lines r) = match r with [] => reader_rows x [] | _ :: _ => run x r end).
    { intros x. destruct r as [|c' r']; [reflexivity|]. rewrite <- IH. destruct (file_lines (c' :: r')) as [|l ls] eqn:E.
      - exfalso. cbn [file_lines] in E. destruct (N.eqb c' 10); [discriminate|]. destruct (file_lines r'); discriminate.
      - cbn [hd tl]. apply reader_rows_line. }
    destruct (N.eqb_spec c 10) as [-> |N].
    - cbn [file_lines]. rewrite N.eqb_refl. cbn [hd tl M_CsvText.process_line run]. change (@Some N 10%N) with (@Some char 10%N).
      destruct (process p (@Some char 10%N)) as [p'|e]; cbn [bind]; [|reflexivity].
      rewrite N.eqb_refl. destruct (process p' None) as [q|e]; [|reflexivity]. unfold handle. rewrite !T. reflexivity.
    - rewrite file_lines_other by exact N. cbn [hd tl M_CsvText.process_line run]. destruct (process p (Some c)) as [p'|e]; cbn [bind]; [|reflexivity].
      destruct (N.eqb_spec c 10) as [E|_]; [congruence|]. apply IH.
  Qed.
  Lemma reader_top p t : reader_rows p (file_lines t) = top p t.
  Proof.
    destruct t as [|c r]; [reflexivity|]. unfold top. rewrite <- run_lines. destruct (file_lines (c :: r)) as [|l ls] eqn:E.
    - exfalso. cbn [file_lines] in E. destruct (N.eqb c 10); [discriminate|]. destruct (file_lines r); discriminate.
    - apply reader_rows_line.
  Qed.

  (** *** single steps *)
  Hypothesis Sane : sane d.
  Lemma d_quote : d <> 34%N. Proof. intros E. apply Sane. cbn. auto. Qed.
  Lemma d_lf : d <> 10%N. Proof. intros E. apply Sane. cbn. auto. Qed.
  Lemma d_cr : d <> 13%N. Proof. intros E. apply Sane. cbn. auto. Qed.
  Definition fits (s : pystr) : bool := N.leb (N.of_nat (List.length s)) limit.
  Lemma fits_add st p (c : char) : fits (ps_field p) = true ->
    parse_add_char limit st p c = if fits (ps_field p ++ [c]) then Ok (mkParser st (ps_field p ++ [c]) (ps_fields p)) else Raise CsvError.
  Proof.
    unfold parse_add_char, fits. rewrite app_length. cbn [List.length]. intros F. apply N.leb_le in F.
    destruct (N.leb_spec limit (N.of_nat (List.length (ps_field p)))), (N.leb_spec (N.of_nat (List.length (ps_field p) + 1)) limit); try reflexivity; lia.
  Qed.
  Lemma fits_prefix a b : fits (a ++ b) = true -> fits a = true.
  Proof. unfold fits. rewrite app_length, !N.leb_le. lia. Qed.
  Definition long : list (list pystr) * option exn := ([], Some CsvError).
  Definition cond (b : bool) (x : list (list pystr) * option exn) := if b then x else long.

  Lemma bare_newline (c : char) : bare_char d c -> is_newline c = false.
  Proof. intros (_ & A & B). unfold is_newline. apply orb_false_iff. split; now apply N.eqb_neq. Qed.
  Lemma bare_delimiter (c : char) : bare_char d c -> N.eqb c d = false.
  Proof. intros (A & _). now apply N.eqb_neq. Qed.
  Lemma run_other p (c : char) (r : pystr) : c <> 10%N -> run p (c :: r) = match process p (Some c) with Raise e => ([], Some e) | Ok p' => run p' r end.
  Proof. intros N. cbn [run]. destruct (process p (Some c)); [|reflexivity]. destruct (N.eqb_spec c 10) as [E|_]; [congruence|reflexivity]. Qed.

  Lemma run_bare (s : pystr) : Forall (bare_char d) s -> forall f fs rest, fits f = true ->
    run (mkParser IN_FIELD f fs) (s ++ rest) = cond (fits (f ++ s)) (run (mkParser IN_FIELD (f ++ s) fs) rest).
  Proof.
    induction 1 as [|c s B _ IH]; intros f fs rest F; [rewrite app_nil_r, F; reflexivity|].
    cbn [app]. rewrite run_other by apply B. unfold parse_process_char. cbn [ps_state]. rewrite (bare_newline c B), (bare_delimiter c B).
    rewrite fits_add by exact F. cbn [ps_field ps_fields]. destruct (fits (f ++ [c])) eqn:F1.
    - rewrite IH by exact F1. now rewrite <- app_assoc.
    - unfold cond. destruct (fits (f ++ c :: s)) eqn:F2; [|reflexivity]. change (c :: s) with ([c] ++ s) in F2. rewrite app_assoc in F2. apply fits_prefix in F2. congruence.
  Qed.
  Lemma run_in_quotes_char (f : pystr) fs (c : char) (r : pystr) : fits f = true -> c <> 34%N ->
    run (mkParser IN_QUOTED_FIELD f fs) (c :: r) = cond (fits (f ++ [c])) (run (mkParser IN_QUOTED_FIELD (f ++ [c]) fs) r).
  Proof.
    intros F N. cbn [run]. unfold parse_process_char at 1. cbn [ps_state]. destruct (N.eqb_spec c chr_quote) as [E|_]; [now destruct N|].
    rewrite fits_add by exact F. cbn [ps_field ps_fields]. destruct (fits (f ++ [c])) eqn:F1; [|reflexivity].
    destruct (N.eqb c 10); [|reflexivity]. cbn [parse_process_char ps_state at_record_start cond].
    destruct r; reflexivity.
  Qed.
  Lemma run_doubled (s : pystr) : forall f fs rest, fits f = true ->
    run (mkParser IN_QUOTED_FIELD f fs) (doubled s ++ rest) = cond (fits (f ++ s)) (run (mkParser IN_QUOTED_FIELD (f ++ s) fs) rest).
  Proof.
    induction s as [|c s IH]; intros f fs rest F; [rewrite app_nil_r, F; reflexivity|].
    unfold doubled. cbn [flat_map]. fold (doubled s). rewrite <- app_assoc.
    assert (K : run (mkParser IN_QUOTED_FIELD f fs) ((if N.eqb c (ch """") then u """""" else [c]) ++ (doubled s ++ rest))
      = cond (fits (f ++ [c])) (run (mkParser IN_QUOTED_FIELD (f ++ [c]) fs) (doubled s ++ rest))).
    { change (ch """") with 34%N. destruct (N.eqb_spec c 34) as [-> |N].
      - change (u """""" ++ (doubled s ++ rest)) with (34%N :: 34%N :: (doubled s ++ rest)). rewrite run_other by discriminate.
        cbn [parse_process_char ps_state]. change (N.eqb 34 chr_quote) with true. cbn iota. rewrite run_other by discriminate.
        cbn [parse_process_char ps_state goto]. change (N.eqb 34 chr_quote) with true. cbn iota.
        rewrite fits_add by exact F. unfold goto. cbn [ps_field ps_fields]. unfold pystr, char in *. destruct (fits (f ++ [34%N])); reflexivity.
      - now apply run_in_quotes_char. }
    etransitivity; [exact K|]. destruct (fits (f ++ [c])) eqn:F1.
    - cbn [cond]. rewrite IH by exact F1. now rewrite <- app_assoc.
    - unfold cond. destruct (fits (f ++ c :: s)) eqn:F2; [|reflexivity]. change (c :: s) with ([c] ++ s) in F2. rewrite app_assoc in F2. apply fits_prefix in F2. congruence.
  Qed.

  (** a cell is complete *)
  Definition complete_cell (p : parser) : Prop := In (ps_state p) [START_FIELD; IN_FIELD; QUOTE_IN_QUOTED_FIELD].
  Lemma run_delimiter p (r : pystr) : complete_cell p -> run p (d :: r) = run (mkParser START_FIELD [] (ps_fields p ++ [ps_field p])) r.
  Proof.
    intros C. pose proof d_quote. pose proof d_lf. pose proof d_cr. rewrite run_other by assumption.
    assert (Nl : is_newline d = false) by (apply orb_false_iff; split; now apply N.eqb_neq).
    assert (Q : N.eqb d chr_quote = false) by now apply N.eqb_neq.
    unfold parse_process_char, process_start_field. destruct C as [<-|[<-|[<-|[]]]]; rewrite ?Nl, ?Q, ?N.eqb_refl; reflexivity.
  Qed.
  Lemma run_line_end p (r : pystr) : complete_cell p ->
    run p (10%N :: r) = ((ps_fields p ++ [ps_field p]) :: fst (top parse_reset r), snd (top parse_reset r)).
  Proof.
    intros C. cbn [run]. unfold parse_process_char at 1, process_start_field.
    assert (D : N.eqb 10 d = false) by (apply N.eqb_neq; intros E; now apply d_lf).
    destruct C as [<-|[<-|[<-|[]]]]; change (is_newline 10%N) with true; change (N.eqb 10 chr_quote) with false; rewrite ?D; reflexivity.
  Qed.
  Lemma run_end p : complete_cell p -> run p [] = ([ps_fields p ++ [ps_field p]], None).
  Proof. intros C. cbn [run]. unfold parse_process_char, process_start_field. destruct C as [<-|[<-|[<-|[]]]]; reflexivity. Qed.

  Definition stops (rest : pystr) : Prop := rest = [] \/ exists c r, rest = c :: r /\ (c = d \/ c = 10%N).
  Lemma stops_quote rest r : stops rest -> rest <> 34%N :: r.
  Proof.
    intros [-> |(c & r' & -> & [-> | ->])]; [discriminate| |discriminate]. intros [= E _]. now apply d_quote.
  Qed.
  Lemma run_cell s t : cell_text d s t -> forall fs rest, stops rest ->
    exists q, complete_cell q /\ ps_field q = s /\ ps_fields q = fs
      /\ run (mkParser START_FIELD [] fs) (t ++ rest) = cond (fits s) (run q rest).
  Proof.
    assert (F0 : fits [] = true) by (unfold fits; cbn; apply N.leb_le; lia).
    intros [x (B & Q)|x y (B & Q)] fs rest Rs.
    - destruct x as [|c x].
      + exists (mkParser START_FIELD [] fs). split; [now left|]. split; [reflexivity|]. split; [reflexivity|]. rewrite F0. reflexivity.
      + exists (mkParser IN_FIELD (c :: x) fs). split; [right; now left|]. split; [reflexivity|]. split; [reflexivity|].
        inversion B as [|? ? Bc Bx]; subst. cbn [app]. rewrite run_other by apply Bc.
        unfold parse_process_char, process_start_field. cbn [ps_state]. rewrite (bare_newline c Bc), (bare_delimiter c Bc).
        destruct (N.eqb_spec c chr_quote) as [-> |_]; [now destruct (Q x)|]. rewrite fits_add by exact F0. cbn [ps_field ps_fields app].
        destruct (fits [c]) eqn:F1; [now apply run_bare|]. unfold cond. destruct (fits (c :: x)) eqn:F2; [|reflexivity].
        change (c :: x) with ([c] ++ x) in F2. apply fits_prefix in F2. congruence.
    - rewrite <- !app_assoc. change (u """" ++ doubled x ++ u """" ++ y ++ rest) with (34%N :: (doubled x ++ (34%N :: (y ++ rest)))).
      assert (H0 : forall r, run (mkParser START_FIELD [] fs) (34%N :: r) = run (mkParser IN_QUOTED_FIELD [] fs) r).
      { intros r. rewrite run_other by discriminate. reflexivity. }
      assert (H1 : forall f r, (forall r', r <> 34%N :: r') -> run (mkParser IN_QUOTED_FIELD f fs) (34%N :: r) = run (mkParser QUOTE_IN_QUOTED_FIELD f fs) r).
      { intros f r _. rewrite run_other by discriminate. reflexivity. }
      destruct y as [|c y].
      + exists (mkParser QUOTE_IN_QUOTED_FIELD x fs). split; [right; right; now left|]. split; [cbn; now rewrite app_nil_r|]. split; [reflexivity|].
        rewrite H0, run_doubled by exact F0. cbn [app]. rewrite app_nil_r. destruct (fits x); [|reflexivity]. cbn [cond].
        apply H1. intros r'. now apply stops_quote.
      + exists (mkParser IN_FIELD (x ++ c :: y) fs). split; [right; now left|]. split; [reflexivity|]. split; [reflexivity|].
        inversion B as [|? ? Bc By]; subst. rewrite H0, run_doubled by exact F0. cbn [app].
        destruct (fits x) eqn:F1.
        * cbn [cond]. rewrite H1 by (intros r' [= E _]; now apply (Q y); subst). cbn [app]. rewrite run_other by apply Bc.
          unfold parse_process_char. cbn [ps_state]. destruct (N.eqb_spec c chr_quote) as [-> |_]; [now destruct (Q y)|].
          rewrite (bare_delimiter c Bc), (bare_newline c Bc), fits_add by exact F1. cbn [ps_field ps_fields].
          destruct (fits (x ++ [c])) eqn:F2.
          -- rewrite run_bare by assumption. rewrite <- app_assoc. reflexivity.
          -- unfold cond. destruct (fits (x ++ c :: y)) eqn:F3; [|reflexivity]. change (c :: y) with ([c] ++ y) in F3. rewrite app_assoc in F3. apply fits_prefix in F3. congruence.
        * cbn [cond]. destruct (fits (x ++ c :: y)) eqn:F3; [|reflexivity]. apply fits_prefix in F3. congruence.
  Qed.

  Definition row_fits (l : list pystr) : bool := forallb fits l.
  Lemma cond_and a b x : cond a (cond b x) = cond (a && b) x.
  Proof. destruct a, b; reflexivity. Qed.
  Lemma run_cells l t : cells_text d l t -> forall fs rest, stops rest ->
    exists q, complete_cell q /\ ps_fields q ++ [ps_field q] = fs ++ l
      /\ run (mkParser START_FIELD [] fs) (t ++ rest) = cond (row_fits l) (run q rest).
  Proof.
    induction 1 as [s t H|s t l t' H _ IH]; intros fs rest Rs.
    - destruct (run_cell s t H fs rest Rs) as (q & C & E1 & E2 & R). exists q. split; [exact C|]. split; [now rewrite E1, E2|].
      rewrite R. cbn [row_fits forallb]. now rewrite andb_true_r.
    - rewrite <- !app_assoc. change ([d] ++ t' ++ rest) with (d :: (t' ++ rest)).
      destruct (run_cell s t H fs (d :: (t' ++ rest))) as (q & C & E1 & E2 & R); [right; eauto|]. rewrite R, run_delimiter by exact C. rewrite E1, E2.
      destruct (IH (fs ++ [s]) rest Rs) as (q' & C' & E' & R'). exists q'. split; [exact C'|]. split; [rewrite E', <- app_assoc; reflexivity|].
      rewrite R', cond_and. reflexivity.
  Qed.
  Lemma run_open l t : open_text d l t -> forall fs, run (mkParser START_FIELD [] fs) t = cond (row_fits l) ([fs ++ l], None).
  Proof.
    assert (F0 : fits [] = true) by (unfold fits; cbn; apply N.leb_le; lia).
    induction 1 as [s|s t l t' H _ IH]; intros fs.
    - change (u """" ++ doubled s) with (34%N :: doubled s). rewrite run_other by discriminate.
      change (process (mkParser START_FIELD [] fs) (Some 34%N)) with (Ok (mkParser IN_QUOTED_FIELD [] fs)). cbn iota.
      rewrite <- (app_nil_r (doubled s)), run_doubled by exact F0. cbn [app row_fits forallb]. rewrite andb_true_r. reflexivity.
    - change ([d] ++ t') with (d :: t').
      destruct (run_cell s t H fs (d :: t')) as (q & C & E1 & E2 & R); [right; eauto|]. rewrite R, run_delimiter by exact C. rewrite E1, E2, IH, cond_and, <- app_assoc. reflexivity.
  Qed.
  (** the start of a record is the start of a field unless the line is empty *)
  Lemma run_start (c : char) (r : pystr) : c <> 10%N -> c <> 13%N -> run parse_reset (c :: r) = run (mkParser START_FIELD [] []) (c :: r).
  Proof.
    intros N1 N2. rewrite !run_other by exact N1. unfold parse_process_char. cbn [ps_state parse_reset].
    unfold is_newline. rewrite (proj2 (N.eqb_neq _ _) N1), (proj2 (N.eqb_neq _ _) N2). reflexivity.
  Qed.
  Lemma cell_head s t : cell_text d s t -> t = [] \/ exists c r, t = c :: r /\ c <> 10%N /\ c <> 13%N.
  Proof.
    intros [x (B & _)|x y _].
    - destruct x as [|c x]; [now left|]. right. inversion B as [|? ? (_ & ? & ?) _]; subst. eauto.
    - right. exists 34%N. eexists. split; [reflexivity|]. split; discriminate.
  Qed.
  Lemma head_app t : t = [] \/ (exists c r, t = c :: r /\ c <> 10%N /\ c <> 13%N) -> forall rest,
    exists c r, t ++ d :: rest = c :: r /\ c <> 10%N /\ c <> 13%N.
  Proof.
    intros [-> |(c & r & -> & H)] rest; [exists d, rest|exists c, (r ++ d :: rest)]; (split; [reflexivity|]); [|exact H].
    split; [apply d_lf|apply d_cr].
  Qed.
  Lemma cells_head l t : cells_text d l t -> t <> [] -> exists c r, t = c :: r /\ c <> 10%N /\ c <> 13%N.
  Proof.
    intros [s t' H|s t' l' t'' H _] N.
    - destruct (cell_head s t' H); [congruence|assumption].
    - apply head_app. eapply cell_head, H.
  Qed.
  Lemma open_head l t : open_text d l t -> exists c r, t = c :: r /\ c <> 10%N /\ c <> 13%N.
  Proof.
    intros [s|s t' l' t'' H _].
    - exists 34%N. eexists. split; [reflexivity|]. split; discriminate.
    - apply head_app. eapply cell_head, H.
  Qed.

  Definition outcome (rows : list (list pystr)) (x : list (list pystr) * option exn) : Prop :=
    Forall (fun l => row_fits l = true) rows /\ x = (rows, None)
    \/ exists a l b, rows = a ++ l :: b /\ Forall (fun l => row_fits l = true) a /\ row_fits l = false /\ x = (a, Some CsvError).
  Lemma outcome_cons l rows x : outcome rows x -> outcome (l :: rows) (cond (row_fits l) (l :: fst x, snd x)).
  Proof.
    intros H. destruct (row_fits l) eqn:F; cbn [cond].
    - destruct H as [[A ->]|(a & m & b & -> & A & Fm & ->)].
      + left. split; [now constructor|reflexivity].
      + right. exists (l :: a), m, b. split; [reflexivity|]. split; [now constructor|]. split; [exact Fm|reflexivity].
    - right. exists [], l, rows. split; [reflexivity|]. split; [constructor|]. split; [exact F|reflexivity].
  Qed.
  Lemma outcome_nil : outcome [] ([], None).
  Proof. left. split; [constructor|reflexivity]. Qed.
  Lemma table_outcome rows t : table_text d rows t -> outcome rows (top parse_reset t).
  Proof.
    induction 1 as [|l t rows t' H _ IH|l t H N|l t H].
    - apply outcome_nil.
    - destruct H as [|l t H N].
      + change ([] ++ [10%N] ++ t') with (10%N :: t'). cbn [top]. change (run parse_reset (10%N :: t')) with ([] :: fst (top parse_reset t'), snd (top parse_reset t')).
        exact (outcome_cons [] rows _ IH).
      + destruct (cells_head l t H N) as (c & r & E & N1 & N2).
        destruct (run_cells l t H [] ([10%N] ++ t')) as (q & C & Eq & R); [right; exists 10%N, t'; auto|].
        assert (T : top parse_reset (t ++ [10%N] ++ t') = run (mkParser START_FIELD [] []) (t ++ [10%N] ++ t')) by (rewrite E; cbn [app top]; now apply run_start).
        refine (eq_ind _ (outcome (l :: rows)) (outcome_cons l rows _ IH) _ _). symmetry.
        etransitivity; [exact T|]. etransitivity; [exact R|]. change ([10%N] ++ t') with (10%N :: t'). rewrite run_line_end by exact C. unfold pystr, char in *. rewrite Eq. reflexivity.
    - destruct H as [|l t H _]; [congruence|]. destruct (cells_head l t H N) as (c & r & E & N1 & N2).
      destruct (run_cells l t H [] []) as (q & C & Eq & R); [now left|]. rewrite app_nil_r in R.
      assert (T : top parse_reset t = run (mkParser START_FIELD [] []) t) by (rewrite E; cbn [top]; now apply run_start).
      rewrite T, R, run_end, Eq by exact C. exact (outcome_cons l [] _ outcome_nil).
    - destruct (open_head l t H) as (c & r & E & N1 & N2).
      assert (T : top parse_reset t = run (mkParser START_FIELD [] []) t) by (rewrite E; cbn [top]; now apply run_start).
      rewrite T, (run_open l t H). exact (outcome_cons l [] _ outcome_nil).
  Qed.
End Machine.

(** *** every text is a table *)
Section Total.
  Variable d : char.
  Hypothesis Sane : sane d.

  Lemma doubled_cons c s : doubled (c :: s) = (if N.eqb c 34 then [34; 34]%N else [c]) ++ doubled s.
  Proof. reflexivity. Qed.
  Lemma split_quotes n : forall t, List.length t <= n ->
    (exists s, t = doubled s) \/ exists s r, t = doubled s ++ 34%N :: r /\ forall r', r <> 34%N :: r'.
  Proof.
    induction n as [|n IH]; intros t L; [destruct t; [left; now exists []|cbn in L; lia]|].
    destruct t as [|c t]; [left; now exists []|]. destruct (N.eqb_spec c 34) as [-> |N].
    - destruct t as [|c t]; [right; exists [], []; split; [reflexivity|discriminate]|].
      destruct (N.eqb_spec c 34) as [-> |N].
      + cbn in L. destruct (IH t) as [(s & ->)|(s & r & -> & Q)]; [lia|left|right].
        * exists (34%N :: s). reflexivity.
        * exists (34%N :: s), r. split; [reflexivity|exact Q].
      + right. exists [], (c :: t). split; [reflexivity|]. intros r' [= E _]. congruence.
    - cbn in L. destruct (IH t) as [(s & ->)|(s & r & -> & Q)]; [lia|left|right].
      + exists (c :: s). rewrite doubled_cons. destruct (N.eqb_spec c 34); [congruence|reflexivity].
      + exists (c :: s), r. rewrite doubled_cons. destruct (N.eqb_spec c 34); [congruence|]. split; [reflexivity|exact Q].
  Qed.
  Lemma split_bare t : ~ In 13%N t -> exists s rest, t = s ++ rest /\ Forall (bare_char d) s /\ stops d rest.
  Proof.
    induction t as [|c t IH]; intros N; [exists [], []; split; [reflexivity|]; split; [constructor|now left]|].
    destruct (N.eq_dec c d) as [E|E]; [exists [], (c :: t); split; [reflexivity|]; split; [constructor|right; eauto]|].
    destruct (N.eq_dec c 10) as [E'|E']; [exists [], (c :: t); split; [reflexivity|]; split; [constructor|right; eauto]|].
    destruct IH as (s & rest & -> & B & Rs); [intros I; apply N; now right|].
    exists (c :: s), rest. split; [reflexivity|]. split; [|exact Rs]. constructor; [|exact B]. split; [exact E|]. split; [exact E'|]. intros ->. apply N. now left.
  Qed.
  Lemma split_cell t : ~ In 13%N t ->
    (exists s t1 rest, t = t1 ++ rest /\ cell_text d s t1 /\ stops d rest) \/ exists s, t = 34%N :: doubled s.
  Proof.
    intros N. assert (D : (exists t', t = 34%N :: t') \/ forall r, t <> 34%N :: r).
    { destruct t as [|c t]; [right; discriminate|]. destruct (N.eq_dec c 34) as [-> |E]; [left; eauto|right; congruence]. }
    destruct D as [(t' & ->)|D].
    - destruct (split_quotes _ t' (le_n _)) as [(s & ->)|(s & r & -> & Q)]; [right; eauto|left].
      destruct (split_bare r) as (y & rest & -> & B & Rs); [intros I; apply N; right; apply in_app_iff; right; now right|].
      exists (s ++ y), (u """" ++ doubled s ++ u """" ++ y), rest. split; [rewrite <- !app_assoc; reflexivity|]. split; [|exact Rs].
      apply quoted_cell. split; [exact B|]. intros r ->. now apply (Q (r ++ rest)).
    - left. destruct (split_bare t N) as (y & rest & -> & B & Rs). exists y, y, rest. split; [reflexivity|]. split; [|exact Rs].
      apply bare_cell. split; [exact B|]. intros r ->. now apply (D (r ++ rest)).
  Qed.
  Lemma split_row n : forall t, List.length t <= n -> ~ In 13%N t ->
    (exists l t1 rest, t = t1 ++ rest /\ cells_text d l t1 /\ (rest = [] \/ exists r, rest = 10%N :: r)) \/ exists l, open_text d l t.
  Proof.
    induction n as [|n IH]; intros t L N.
    - destruct t; [|cbn in L; lia]. left. exists [[]], [], []. split; [reflexivity|]. split; [|now left]. constructor. constructor. split; [constructor|discriminate].
    - destruct (split_cell t N) as [(s & t1 & rest & -> & C & [-> |(c & r & -> & [-> | ->])])|(s & ->)].
      + left. exists [s], t1, []. split; [reflexivity|]. split; [now constructor|now left].
      + rewrite app_length in L. cbn [List.length] in L. destruct (IH r) as [(l & t2 & rest & -> & Cs & Rs)|(l & O)].
        * lia.
        * intros I. apply N. apply in_app_iff. right. now right.
        * left. exists (s :: l), (t1 ++ [d] ++ t2), rest. split; [rewrite <- !app_assoc; reflexivity|]. split; [now constructor|exact Rs].
        * right. exists (s :: l). now apply (open_later d s t1 l r).
      + left. exists [s], t1, (10%N :: r). split; [reflexivity|]. split; [now constructor|right; eauto].
      + right. exists [s]. apply open_cell.
  Qed.
  Lemma table_total n : forall t, List.length t <= n -> ~ In 13%N t -> exists rows, table_text d rows t.
  Proof.
    induction n as [|n IH]; intros t L N; [destruct t; [exists []; constructor|cbn in L; lia]|].
    destruct (split_row _ t (le_n _) N) as [(l & t1 & rest & -> & C & [-> |(r & ->)])|(l & O)].
    - rewrite app_nil_r. destruct t1 as [|c t1]; [exists []; constructor|]. exists [l]. apply last_row; [|discriminate]. apply some_cells; [exact C|discriminate].
    - rewrite app_length in L. cbn [List.length] in L. destruct (IH r) as (rows & T); [lia|intros I; apply N, in_app_iff; right; now right|].
      destruct t1 as [|c t1].
      + exists ([] :: rows). apply (next_row d [] [] rows r); [constructor|exact T].
      + exists (l :: rows). apply (next_row d l (c :: t1) rows r); [|exact T]. apply some_cells; [exact C|discriminate].
    - exists [l]. now apply unfinished_row.
  Qed.
End Total.

(** *** unambiguous *)
Lemma row_fits_short limit l : row_fits limit l = true <-> short_row limit l.
Proof.
  unfold row_fits, short_row, fits. rewrite forallb_forall, Forall_forall. split; intros H x I; specialize (H x I); now apply N.leb_le.
Qed.
Lemma row_long limit l : row_fits limit l = false <-> ~ short_row limit l.
Proof. rewrite <- row_fits_short. destruct (row_fits limit l); split; congruence. Qed.
Lemma rows_short limit rows : Forall (fun l => row_fits limit l = true) rows <-> Forall (short_row limit) rows.
Proof. rewrite !Forall_forall. split; intros H x I; apply row_fits_short; auto. Qed.
Lemma short_exists rows : exists limit, Forall (short_row limit) rows.
Proof.
  exists (N.of_nat (List.length (concat (concat rows)))). apply Forall_forall. intros l I. apply Forall_forall. intros s J.
  assert (K : List.length s <= List.length (concat (concat rows))); [|lia].
  assert (G : forall (ls : list pystr), In s ls -> List.length s <= List.length (concat ls)).
  { induction ls as [|x ls IH]; [intros []|]. cbn [concat]. rewrite app_length. intros [-> |H]; [lia|specialize (IH H); lia]. }
  apply G. apply in_concat. eauto.
Qed.
Lemma table_unique d rows rows' t : sane d -> table_text d rows t -> table_text d rows' t -> rows = rows'.
Proof.
  intros Sa T T'. destruct (short_exists (rows ++ rows')) as (limit & Sh). apply Forall_app in Sh as [Sh Sh'].
  assert (K : forall rows, Forall (short_row limit) rows -> table_text d rows t -> top d limit parse_reset t = (rows, None)).
  { clear - Sa. intros rows Sh T. destruct (table_outcome d limit Sa rows t T) as [[_ E]|(a & l & b & -> & _ & F & _)]; [exact E|exfalso].
    apply Forall_app in Sh as [_ Sh]. inversion Sh as [|? ? S1 _]; subst. apply row_fits_short in S1. congruence. }
  pose proof (K rows Sh T) as E. rewrite (K rows' Sh' T') in E. congruence.
Qed.

(** *** the rows as dicts *)
Fixpoint pairs (names cells : list pystr) : list (pystr * option pystr) :=
  match names with [] => [] | n :: ns => (n, hd_error cells) :: pairs ns (tl cells) end.
Lemma pairs_eq names : forall cells,
  combine names (map Some cells) ++ map (fun key => (key, None)) (skipn (List.length cells) names) = pairs names cells.
Proof.
  induction names as [|n ns IH]; intros [|c cells]; [reflexivity|reflexivity| |].
  - cbn [map combine List.length skipn app pairs hd_error tl]. f_equal. rewrite <- IH. now destruct ns.
  - cbn [map combine List.length skipn app pairs hd_error tl]. f_equal. apply IH.
Qed.
Lemma pairs_names names : forall cells, map fst (pairs names cells) = names.
Proof. induction names as [|n ns IH]; intros cells; [reflexivity|]. cbn. now rewrite IH. Qed.
Lemma pairs_split names : forall cells key v l1 l2, pairs names cells = l1 ++ (key, v) :: l2 -> v = nth_error cells (List.length l1).
Proof.
  induction names as [|n ns IH]; intros cells key v l1 l2 E; [destruct l1; discriminate|].
  destruct l1 as [|x l1]; cbn [pairs app] in E.
  - injection E as _ <- _. now destruct cells.
  - injection E as _ E. apply IH in E. rewrite E. destruct cells; cbn; [now destruct l1|reflexivity].
Qed.
Lemma dict_row_of names cells : dict_row names cells = dict_of (pairs names cells).
Proof. unfold dict_row, dict_of. rewrite <- pairs_eq. unfold dict_update. now rewrite fold_left_app. Qed.
Lemma dict_row_spec names cells : row_as_dict names cells (dict_row names cells).
Proof.
  rewrite dict_row_of. destruct (last_wins_dict_of (pairs names cells)) as [K V]. rewrite pairs_names in K. split; [exact K|].
  intros key v. unfold has. rewrite <- dict_get_NoDup by apply K. rewrite V. split.
  - intros (l1 & l2 & E & N). exists (map fst l1), (map fst l2). split; [|split; [exact N|]].
    + rewrite <- (pairs_names names cells), E, map_app. reflexivity.
    + rewrite map_length. eapply pairs_split, E.
  - intros (l1 & l2 & E & N & ->). pose proof (pairs_names names cells) as P. rewrite E in P at 2.
    apply map_eq_app in P as (p1 & p2 & Ep & E1 & E2). destruct p2 as [|[k v] p2]; [discriminate|]. cbn [map fst] in E2. injection E2 as <- <-.
    exists p1, p2. split; [|exact N]. rewrite Ep. do 2 f_equal. rewrite <- E1, map_length. f_equal. eapply pairs_split, Ep.
Qed.
Lemma row_as_dict_unique names cells r r' : row_as_dict names cells r -> row_as_dict names cells r' -> r = r'.
Proof.
  intros [K V] [K' V']. apply row_ext; [apply K| |].
  - eapply first_occurrences_unique; [exact str_dec|exact K|exact K'].
  - intros key I. assert (I2 : exists v, In (key, v) r) by (apply in_map_iff in I as ([k v] & <- & I); eauto).
    destruct I2 as (v & I2). apply dict_get_NoDup in I2; [|apply K]. exists v. split; [exact I2|]. apply V', V, I2.
Qed.
Lemma dicts_spec names rows out : dicts_of names rows out <-> out = map (dict_row names) (filter not_empty rows).
Proof.
  split.
  - induction 1 as [|rows out _ IH|cells r rows out N R _ IH]; [reflexivity|exact IH|].
    destruct cells as [|c cells]; [congruence|]. cbn [filter not_empty map]. rewrite <- IH. f_equal. eapply row_as_dict_unique; [exact R|apply dict_row_spec].
  - intros ->. induction rows as [|[|c cells] rows IH]; cbn [filter not_empty map]; [constructor|now constructor|].
    apply dicts_row; [discriminate|apply dict_row_spec|exact IH].
Qed.
Lemma table_of_spec rows names raw : table_of rows names raw <-> names = hd_error rows /\ raw = dict_rows rows.
Proof.
  split.
  - intros [|ns rs out H]; [auto|]. apply dicts_spec in H as ->. auto.
  - intros [-> ->]. destruct rows as [|ns rs]; constructor. now apply dicts_spec.
Qed.
Lemma feeds_no_cr s t : line_feeds s t -> ~ In 13%N t.
Proof.
  induction 1 as [|s t _ IH|s t _ _ IH|c s t N _ IH]; [intros []| | |]; intros [E|I]; try discriminate; try contradiction.
Qed.

(** *** writing with quotes *)
Lemma in_quotes_cell d s : cell_text d s (in_quotes s).
Proof.
  pose proof (quoted_cell d s []) as H. rewrite app_nil_r in H. apply H. split; [constructor|discriminate].
Qed.
Lemma quoted_row_text d l : l <> [] -> row_text d l (quoted_row d l).
Proof.
  intros N. apply some_cells.
  - induction l as [|s [|s' l] IH]; [congruence|constructor; apply in_quotes_cell|].
    apply more_cells; [apply in_quotes_cell|apply IH; discriminate].
  - destruct l as [|s [|s' l]]; [congruence|discriminate|discriminate].
Qed.
Lemma quoted_table_text d rows : Forall (fun l => l <> []) rows -> table_text d rows (quoted_table d rows).
Proof.
  induction 1 as [|l rows N _ IH]; [constructor|]. unfold quoted_table. cbn [flat_map]. fold (quoted_table d rows). rewrite <- app_assoc.
  apply next_row; [now apply quoted_row_text|exact IH].
Qed.
