(** C78, C79: the .tree format and the check of the files of a directory. *)
From Coq Require Import Ascii String List NArith ZArith Bool Lia Arith.
From Verif Require Import PyBase PyStr PyRe L_Base L_Re S_Text S_Tree S_DeepAhb S_JsonText M_JsonText M_Tree L_Str L_FlatAhb L_DeepAhb
     L_JsonFile L_Tree C_JsonText.
Import ListNotations.
Local Open Scope list_scope.

(** ** C78 *)

(** a string is read iff it is a tree between whitespace, and the tree is what comes back *)
Theorem C78_strings t w :
  read_tree (TreeStr t) = Ok w <-> tree_text w /\ exists a b, t = a ++ w ++ b /\ Forall layout a /\ Forall layout b.
Proof. apply lark_parse_spec. Qed.

(** a file is read iff its text, with line feeds as line ends, is *)
Theorem C78_files b w :
  read_tree (TreePath (Some (File b))) = Ok w
  <-> exists s t, utf8_text s b /\ line_feeds s t /\ read_tree (TreeStr t) = Ok w.
Proof.
  unfold read_tree. cbn [read_text]. split.
  - intros H. apply bind_ok in H as (t & H & P). apply bind_ok in H as (s & D & [= <-]). exists s, (universal_newlines s).
    split; [now apply C73_decoding|]. split; [now apply newlines_spec|exact P].
  - intros (s & t & D & L & P). apply C73_decoding in D. apply newlines_spec in L. subst t. rewrite D. exact P.
Qed.

(** every other string raises a LarkError, every other file a LarkError or, if it is not UTF-8, a ValueError *)
Theorem C78_unreadable_strings t e :
  read_tree (TreeStr t) = Raise e
  <-> e = LarkError /\ forall a w b, t = a ++ w ++ b -> Forall layout a -> Forall layout b -> ~ tree_text w.
Proof.
  split.
  - intros H. split; [exact (lark_parse_raise t e H)|]. intros a w b E Fa Fb T.
    assert (K : read_tree (TreeStr t) = Ok w) by (apply C78_strings; eauto 6). congruence.
  - intros [-> N]. destruct (read_tree (TreeStr t)) as [w|e'] eqn:E.
    + apply C78_strings in E as (T & a & b & E & Fa & Fb). now destruct (N a w b).
    + f_equal. exact (lark_parse_raise t e' E).
Qed.
Theorem C78_unreadable_files b e :
  read_tree (TreePath (Some (File b))) = Raise e
  <-> e = ValueError /\ (forall s, ~ utf8_text s b)
      \/ exists s t, utf8_text s b /\ line_feeds s t /\ read_tree (TreeStr t) = Raise e.
Proof.
  change (read_tree (TreePath (Some (File b)))) with
    (let* t := (let* s := decode_utf8 b in Ok (universal_newlines s)) in read_tree (TreeStr t)). split.
  - destruct (decode_utf8 b) as [s|e'] eqn:D; cbn [bind].
    + intros H. right. exists s, (universal_newlines s). split; [now apply C73_decoding|]. split; [now apply newlines_spec|exact H].
    + intros [= <-]. left. split; [exact (decode_raises _ b (le_n _) _ D)|]. intros s U. apply C73_decoding in U. congruence.
  - intros [[-> N]|(s & t & U & L & H)].
    + destruct (decode_utf8 b) as [s|e'] eqn:D; cbn [bind].
      * apply C73_decoding in D. now destruct (N s).
      * f_equal. exact (decode_raises _ b (le_n _) _ D).
    + apply C73_decoding in U. apply newlines_spec in L. rewrite U. cbn [bind]. now rewrite L.
Qed.
Theorem C78_other_arguments entries :
  read_tree TreeOther = Raise ValueError /\ read_tree (TreePath None) = Raise FileNotFoundError
  /\ read_tree (TreePath (Some (Directory entries))) = Raise OSError.
Proof. auto. Qed.

(** reading what was read changes nothing *)
Theorem C78_reading_again tree w : read_tree tree = Ok w -> read_tree (TreeStr w) = Ok w.
Proof.
  intros H. assert (T : tree_text w).
  { unfold read_tree in H. apply bind_ok in H as (t & _ & H). now apply lark_parse_spec in H. }
  apply C78_strings. split; [exact T|]. exists [], []. rewrite app_nil_r. auto.
Qed.

(** no line contains whitespace *)
Lemma chain_letters c : layout c -> c <> chr_newline -> letter SEGMENT_GROUP_CHAIN c = false.
Proof. unfold layout. cbn [In]. intros [<-|[<-|[<-|[<-|[<-|[]]]]]] N; [vm_compute; reflexivity..|]. now destruct N. Qed.
Lemma group_newline g : group_line g -> ~ In chr_newline g.
Proof. intros G. apply lang_group in G. refine (lang_no_letter _ _ _ _ G). vm_compute. reflexivity. Qed.
Theorem C78_whitespace tree w c : read_tree tree = Ok w -> In c w -> layout c -> c = chr_newline.
Proof.
  intros H I L. apply C78_reading_again, C78_strings in H as [T _]. apply lang_tree in T.
  destruct (N.eq_dec c chr_newline) as [E|E]; [exact E|]. destruct (lang_no_letter _ _ _ (chain_letters c L E) T I).
Qed.

(** a text is a tree iff each of its lines is right *)
Lemma split_unique (c : char) : forall x l y m, ~ In c x -> ~ In c y -> Forall (fun z => ~ In c z) l -> Forall (fun z => ~ In c z) m ->
  x ++ concat (map (fun z : pystr => [c] ++ z) l) = y ++ concat (map (fun z : pystr => [c] ++ z) m) -> x = y /\ l = m.
Proof.
  intros x l. revert x. induction l as [|a l IH]; intros x y m Nx Ny Fl Fm E.
  - destruct m as [|b m]; cbn in E; rewrite ?app_nil_r in E; [auto|]. destruct Nx. rewrite E. apply in_or_app. right. now left.
  - destruct m as [|b m].
    + destruct Ny. cbn in E. rewrite app_nil_r in E. rewrite <- E. apply in_or_app. right. now left.
    + inversion Fl; subst. inversion Fm; subst. cbn in E.
      assert (K : x = y /\ a ++ concat (map (fun z : pystr => [c] ++ z) l) = b ++ concat (map (fun z : pystr => [c] ++ z) m)).
      { clear - Nx Ny E. revert y Ny E. induction x as [|d x IHx]; intros [|e y] Ny E; cbn in E.
        - split; [reflexivity|]. now injection E.
        - injection E as -> _. destruct Ny. now left.
        - injection E as -> _. destruct Nx. now left.
        - injection E as -> E. destruct (IHx (fun I => Nx (or_intror I)) y (fun I => Ny (or_intror I)) E) as [-> K]. auto. }
      destruct K as [-> K]. destruct (IH a b m) as [-> ->]; auto.
Qed.
Theorem C78_line_by_line line lines : Forall (fun l => ~ In chr_newline l) (line :: lines) ->
  let text := u "/:" ++ line ++ concat (map (fun l => [chr_newline] ++ l) lines) in
  read_tree (TreeStr text) = Ok text <-> Forall group_line (line :: lines).
Proof.
  intros F. cbv zeta. inversion F as [|? ? Nl Fl]; subst. split.
  - intros H. apply C78_strings in H as [(v & E & g & l & G & Fg & ->) _]. apply app_inv_head in E.
    assert (N : Forall (fun z => ~ In chr_newline z) l) by (eapply Forall_impl; [|exact Fg]; apply group_newline).
    destruct (split_unique chr_newline line lines g l) as [-> ->]; auto using group_newline.
  - intros G. inversion G as [|? ? G1 G2]; subst.
    apply C78_strings. split; [exists (line ++ concat (map (fun l => [chr_newline] ++ l) lines)); split; [reflexivity|]; exists line, lines; auto|].
    exists [], []. rewrite app_nil_r. auto.
Qed.

Print Assumptions C78_strings.
Print Assumptions C78_files.
Print Assumptions C78_unreadable_strings.
Print Assumptions C78_unreadable_files.
Print Assumptions C78_other_arguments.
Print Assumptions C78_reading_again.
Print Assumptions C78_whitespace.
Print Assumptions C78_line_by_line.

(** five lines of a hierarchy, with blanks in front and CRLF as line end *)
Definition ex_nl : pystr := [chr_newline].
Definition ex_tree : pystr :=
  u "/:UNB[M;M],UNH[M;M;M*Man14+C*Mnn2*Caa1;M*Man14+C*Rnn2*Caa1{C.F}],UNZ[M;M]" ++ ex_nl
  ++ u "UNH:BGM[M;M;C*Can3+C*Can35;R*Ran3{E01.E02}+R*Ran35],SG2[C;R]" ++ ex_nl
  ++ u "SG2:NAD[M;M;C*Man3+C*Man35*Can17*Can3;(NAD#1#0=MR)C*Man3+R*Man35*N*Ran3{9.293}|(NAD#1#0!=MS|NAD#1#0=MR)C*Man3]" ++ ex_nl
  ++ u "SG3:CTA[M;M;C*Can3;C*Ran3{IC}],COM[C;R;M*Man512;M*Man512{EM.GABi-RLMoT}]" ++ ex_nl
  ++ u "SG6RFF[]".
Definition ex_crlf_tree : pystr :=
  flat_map (fun c => if N.eqb c 10 then [13%N; 10%N] else [c]) (u "  " ++ ex_tree ++ ex_nl ++ ex_nl).
Example C78_instance :
  read_tree (TreePath (Some (File ex_crlf_tree))) = Ok ex_tree /\ read_tree (TreeStr (u "  " ++ ex_tree ++ ex_nl)) = Ok ex_tree
  /\ read_tree (TreeStr ex_crlf_tree) = Raise LarkError /\ read_tree (TreePath (Some (File [195%N]))) = Raise ValueError.
Proof. repeat split; vm_compute; reflexivity. Qed.
Example C78_lines_instance :
  group_line (u "SG2:NAD[M;M],SG3[C;C]") /\ ~ group_line (u "SG2:SG3[C;C]") /\ ~ group_line (u "SG2:NAD[M;M],").
Proof.
  assert (K : forall l, ~ In chr_newline l -> (group_line l <-> read_tree (TreeStr (u "/:" ++ l)) = Ok (u "/:" ++ l))).
  { intros l N. pose proof (C78_line_by_line l [] ltac:(auto)) as H. cbn [map concat] in H. rewrite app_nil_r in H. rewrite H.
    split; [auto|intros F; now inversion F]. }
  split; [|split].
  - apply K; [cbn; intuition discriminate|vm_compute; reflexivity].
  - intros G. apply K in G; [vm_compute in G; discriminate|cbn; intuition discriminate].
  - intros G. apply K in G; [vm_compute in G; discriminate|cbn; intuition discriminate].
Qed.

(** the grammar ignores whitespace, but not inside of the tree: a blank, an empty line or CRLF in a string *)
Theorem C78_whitespace_is_ignored_refuted : exists a b,
  read_tree (TreeStr (a ++ ex_nl ++ b)) = Ok (a ++ ex_nl ++ b)
  /\ read_tree (TreeStr (a ++ ex_nl ++ u " " ++ b)) = Raise LarkError
  /\ read_tree (TreeStr (a ++ ex_nl ++ ex_nl ++ b)) = Raise LarkError
  /\ read_tree (TreeStr (a ++ [13%N] ++ ex_nl ++ b)) = Raise LarkError.
Proof. exists (u "/:UNB[M;M],UNH[M;M]"), (u "UNH:BGM[M;M]"). repeat split; vm_compute; reflexivity. Qed.

(** "contains no obvious errors": groups without a line, two lines of one group, segments without data elements *)
Theorem C78_obvious_errors_refuted :
  let w := u "/:UNB[M;M],SG7[C;R]" ++ ex_nl ++ u "SG1:RFF[M;M]" ++ ex_nl ++ u "SG1:DTM[]" in
  check_file_can_be_parsed_as_tree (Some (File w)) = Ok tt /\ read_tree (TreeStr w) = Ok w.
Proof. split; vm_compute; reflexivity. Qed.

(** a file with a byte order mark is not a tree *)
Theorem C78_byte_order_mark_refuted : exists b w,
  read_tree (TreePath (Some (File b))) = Ok w /\ read_tree (TreePath (Some (File ([239; 187; 191]%N ++ b)))) = Raise LarkError.
Proof. exists (u "/:UNB[M;M]"), (u "/:UNB[M;M]"). split; vm_compute; reflexivity. Qed.
Print Assumptions C78_whitespace_is_ignored_refuted.
Print Assumptions C78_obvious_errors_refuted.
Print Assumptions C78_byte_order_mark_refuted.

(** a missing bracket: the ways in which the rest of the segment can be matched, all of which are tried before the
    text is rejected, double with every two data elements *)
Definition OPEN_SEGMENT : re := RSeq SEGMENT_KEY (RSeq (chr "[") INTERNATIONAL_BDEW_TUPLE_CHAIN).
Definition ex_marks (n : nat) : pystr := concat (repeat (u ";M") n).
Lemma flat_map_two {A B} (f : A -> list B) l x y : In x l -> In y l -> x <> y ->
  List.length (f x) + List.length (f y) <= List.length (flat_map f l).
Proof.
  assert (K : forall l x, In x l -> List.length (f x) <= List.length (flat_map f l)).
  { clear. intros l x. induction l as [|z l IH]; intros I; [destruct I|]. cbn. rewrite app_length. destruct I as [->|I]; [lia|]. apply IH in I. lia. }
  induction l as [|z l IH]; intros I J N; [destruct I|]. cbn. rewrite app_length. destruct I as [->|I], J as [->|J].
  - congruence.
  - apply K in J. lia.
  - apply K in I. lia.
  - specialize (IH I J N). lia.
Qed.
Lemma flat_map_one {A B} (f : A -> list B) l x : In x l -> List.length (f x) <= List.length (flat_map f l).
Proof. induction l as [|z l IH]; intros I; [destruct I|]. cbn. rewrite app_length. destruct I as [->|I]; [lia|]. apply IH in I. lia. Qed.
Lemma mark_elements : data_elements (u "M").
Proof.
  apply joined_one, joined_one. exists (u "M"), [], [], []. split; [reflexivity|]. split; [now left|]. auto.
Qed.
Lemma one_mark : lang (RSeq (chr ";") INTERNATIONAL_BDEW_TUPLE) (u ";M").
Proof.
  exists (u ";"), (u "M"). split; [reflexivity|]. split; [now apply lang_chr|]. apply part_tuple. exists [], (u "M").
  split; [reflexivity|]. split; [constructor|right; apply mark_elements].
Qed.
Lemma two_marks : lang (RSeq (chr ";") INTERNATIONAL_BDEW_TUPLE) (u ";M;M").
Proof.
  exists (u ";"), (u "M;M"). split; [reflexivity|]. split; [now apply lang_chr|]. exists (u "M;"), (u "M"). split; [reflexivity|].
  split; left; [|apply lang_elements, mark_elements]. exists (u "M"), (u ";"). split; [reflexivity|].
  split; [apply lang_elements, mark_elements|now apply lang_chr].
Qed.
Lemma pure_step : pure (RSeq (chr ";") INTERNATIONAL_BDEW_TUPLE).
Proof. cbn. tauto. Qed.
Lemma star_unfold r st : runs (RStar true r) st =
  flat_map (fun st' => if st_pos st <? st_pos st' then star_runs true (runs r) (List.length (st_rest st)) st' else []) (runs r st) ++ [st].
Proof.
  change (runs (RStar true r) st) with (star_runs true (runs r) (List.length (st_rest st)) st).
  rewrite (star_fuel true r (List.length (st_rest st)) (S (List.length (st_rest st)))) by lia. reflexivity.
Qed.
Lemma star_step_ways r st m : In m (runs r st) -> List.length (st_rest m) < List.length (st_rest st) ->
  (if st_pos st <? st_pos m then star_runs true (runs r) (List.length (st_rest st)) m else []) = runs (RStar true r) m.
Proof.
  intros I L. destruct (advance_pos _ _ (runs_advance _ _ _ I)) as [P _]. destruct (Nat.ltb_spec (st_pos st) (st_pos m)); [|lia].
  change (runs (RStar true r) m) with (star_runs true (runs r) (List.length (st_rest m)) m). apply star_fuel; lia.
Qed.
Lemma star_one_way r st m : In m (runs r st) -> List.length (st_rest m) < List.length (st_rest st) ->
  List.length (runs (RStar true r) m) <= List.length (runs (RStar true r) st).
Proof.
  intros I L. rewrite (star_unfold r st), app_length, <- (star_step_ways r st m I L). eapply Nat.le_trans; [|apply Nat.le_add_r].
  exact (flat_map_one (fun st' => if st_pos st <? st_pos st' then star_runs true (runs r) (List.length (st_rest st)) st' else []) _ m I).
Qed.
Lemma star_two_ways r st m m' : In m (runs r st) -> In m' (runs r st) -> m <> m' ->
  List.length (st_rest m) < List.length (st_rest st) -> List.length (st_rest m') < List.length (st_rest st) ->
  List.length (runs (RStar true r) m) + List.length (runs (RStar true r) m') <= List.length (runs (RStar true r) st).
Proof.
  intros I I' N L L'. rewrite (star_unfold r st), app_length, <- (star_step_ways r st m I L), <- (star_step_ways r st m' I' L').
  eapply Nat.le_trans; [|apply Nat.le_add_r].
  exact (flat_map_two (fun st' => if st_pos st <? st_pos st' then star_runs true (runs r) (List.length (st_rest st)) st' else []) _ m m' I I' N).
Qed.
Lemma star_ways n : forall st, st_rest st = ex_marks (2 * n) ->
  2 ^ n <= List.length (runs (RStar true (RSeq (chr ";") INTERNATIONAL_BDEW_TUPLE)) st).
Proof.
  pose proof one_mark as O. pose proof two_marks as T. pose proof pure_step as P.
  set (r := RSeq (chr ";") INTERNATIONAL_BDEW_TUPLE) in *. clearbody r.
  induction n as [|n IH]; intros st E.
  { rewrite star_unfold, app_length. cbn [List.length Nat.pow]. lia. }
  replace (2 * S n) with (S (S (2 * n))) in E by lia. unfold ex_marks in E. cbn [repeat concat] in E. fold (ex_marks (2 * n)) in E.
  destruct (lang_runs r st (u ";M") (u ";M" ++ ex_marks (2 * n)) P E O) as (m1 & I1 & E1).
  destruct (lang_runs r m1 (u ";M") (ex_marks (2 * n)) P E1 O) as (m1' & I1' & E1').
  destruct (lang_runs r st (u ";M;M") (ex_marks (2 * n)) P E T) as (m2 & I2 & E2).
  assert (L1 : List.length (st_rest m1) < List.length (st_rest st)) by (rewrite E, E1, !app_length; cbn; lia).
  assert (L1' : List.length (st_rest m1') < List.length (st_rest m1)) by (rewrite E1, E1', !app_length; cbn; lia).
  assert (L2 : List.length (st_rest m2) < List.length (st_rest m1)) by (rewrite E1, E2, !app_length; cbn; lia).
  assert (D : m1 <> m2) by (intros ->; lia).
  pose proof (IH m1' E1') as H1. pose proof (IH m2 E2) as H2. pose proof (star_one_way r m1 m1' I1' L1') as H3.
  pose proof (star_two_ways r st m1 m2 I1 I2 D L1 ltac:(lia)) as H4. cbn [Nat.pow]. lia.
Qed.
Theorem C78_backtracking n :
  let segment := u "ABC[M" ++ concat (repeat (u ";M") (2 * n)) in
  List.length segment = 4 * n + 5 /\ read_tree (TreeStr (u "/:" ++ segment)) = Raise LarkError
  /\ 2 ^ n <= List.length (runs OPEN_SEGMENT (start segment)).
Proof.
  cbv zeta. fold (ex_marks (2 * n)).
  assert (L : forall k, List.length (ex_marks k) = 2 * k).
  { intros k. unfold ex_marks. induction k as [|k IH]; [reflexivity|]. cbn [repeat concat]. rewrite app_length, IH. cbn. lia. }
  assert (B : forall k, ~ In chr_rbracket (ex_marks k)).
  { intros k I. unfold ex_marks in I. apply in_concat in I as (x & Hx & I). apply repeat_spec in Hx. subst x. cbn in I. intuition discriminate. }
  split; [rewrite app_length, L; cbn; lia|]. split.
  - apply C78_unreadable_strings. split; [reflexivity|]. intros a w b E _ _ (v & -> & g & l & G & _ & ->). apply group_bracket in G.
    assert (I : In chr_rbracket (u "/:" ++ u "ABC[M" ++ ex_marks (2 * n))) by (rewrite E, !in_app_iff; auto 10).
    apply in_app_or in I as [I|I]; [cbn in I; intuition discriminate|]. apply in_app_or in I as [I|I]; [cbn in I; intuition discriminate|].
    now apply B in I.
  - assert (P : pure (RSeq (RSeq SEGMENT_KEY (chr "[")) INTERNATIONAL_BDEW_TUPLE)) by (cbn; tauto).
    destruct (lang_runs _ (start (u "ABC[M" ++ ex_marks (2 * n))) (u "ABC[M") (ex_marks (2 * n)) P eq_refl) as (m & I & E).
    { exists (u "ABC["), (u "M"). split; [reflexivity|]. split.
      - exists (u "ABC"), (u "["). split; [reflexivity|]. split; [|now apply lang_chr]. apply lang_segment_key. split; [cbn; lia|].
        repeat constructor.
      - apply part_tuple. exists [], (u "M"). split; [reflexivity|]. split; [constructor|right; apply mark_elements]. }
    unfold OPEN_SEGMENT, INTERNATIONAL_BDEW_TUPLE_CHAIN. rewrite runs_assoc.
    assert (A : forall st, runs (RSeq (RSeq SEGMENT_KEY (chr "[")) (RSeq INTERNATIONAL_BDEW_TUPLE (RStar true (RSeq (chr ";") INTERNATIONAL_BDEW_TUPLE)))) st
      = flat_map (runs (RStar true (RSeq (chr ";") INTERNATIONAL_BDEW_TUPLE))) (runs (RSeq (RSeq SEGMENT_KEY (chr "[")) INTERNATIONAL_BDEW_TUPLE) st)).
    { intros st. rewrite runs_assoc. reflexivity. }
    rewrite A. eapply Nat.le_trans; [|exact (flat_map_one _ _ m I)]. now apply star_ways.
Qed.
Print Assumptions C78_backtracking.

(** ** C79 *)

Lemma endswith_spec s t : endswith s t = true <-> exists b, s = b ++ t.
Proof.
  unfold endswith. rewrite startswith_spec. split; intros (b & E).
  - exists (rev b). rewrite <- (rev_involutive s), E, rev_app_distr, rev_involutive. reflexivity.
  - exists (rev b). now rewrite E, rev_app_distr.
Qed.
Lemma less_leb a b : code_point_less a b -> str_leb b a = false.
Proof.
  intros (c & a' & b' & -> & -> & K). induction c as [|x c IH]; cbn.
  - destruct K as [[-> N]|(x & y & r & r' & -> & -> & L)]; [destruct b'; [congruence|reflexivity]|]. cbn.
    destruct (N.ltb_spec y x); [lia|]. destruct (N.eqb_spec y x); [lia|reflexivity].
  - rewrite N.ltb_irrefl, N.eqb_refl. exact IH.
Qed.
Lemma insert_reverse_in e l x : In x (insert_reverse e l) <-> x = e \/ In x l.
Proof.
  induction l as [|y l IH]; cbn; [intuition|]. destruct (str_leb (fst y) (fst e)); cbn; [intuition|]. rewrite IH. intuition.
Qed.
Lemma sorted_reverse_in l x : In x (sorted_reverse l) <-> In x l.
Proof. induction l as [|y l IH]; cbn; [tauto|]. rewrite insert_reverse_in, IH. intuition. Qed.
Lemma sorted_reverse_head l e r : sorted_reverse l = e :: r -> forall x, In x l -> str_leb (fst x) (fst e) = true.
Proof.
  revert e r. induction l as [|y l IH]; intros e r H x I; [destruct I|]. cbn in H.
  assert (R : str_leb (fst y) (fst y) = true) by (destruct (str_leb_total (fst y) (fst y)); assumption).
  destruct (sorted_reverse l) as [|z k] eqn:E.
  - cbn in H. injection H as <- _. destruct I as [<-|I]; [exact R|]. apply sorted_reverse_in in I. rewrite E in I. destruct I.
  - cbn in H. destruct (str_leb (fst z) (fst y)) eqn:L; injection H as <- _.
    + destruct I as [<-|I]; [exact R|]. exact (str_leb_trans _ _ _ (IH z k eq_refl x I) L).
    + destruct I as [<-|I]; [|exact (IH z k eq_refl x I)]. destruct (str_leb_total (fst y) (fst z)); congruence.
Qed.
Lemma NoDup_fst (entries : list (pystr * node)) a n n' :
  NoDup (map fst entries) -> In (a, n) entries -> In (a, n') entries -> n = n'.
Proof.
  induction entries as [|[b m] l IH]; cbn; intros D I I'; [destruct I|]. inversion D as [|? ? N D']; subst.
  destruct I as [I|I], I' as [I'|I'].
  - congruence.
  - injection I as -> _. destruct N. exact (in_map fst _ _ I').
  - injection I' as -> _. destruct N. exact (in_map fst _ _ I).
  - auto.
Qed.

(** nothing to check without a directory or without trees in it; a file instead of the directory is an error *)
Theorem C79_nothing_to_check entries b :
  check_youngest_tree_is_parseable None = Ok tt
  /\ check_youngest_tree_is_parseable (Some (File b)) = Raise ValueError
  /\ ((forall name n, In (name, n) entries -> ~ tree_name name) ->
      check_youngest_tree_is_parseable (Some (Directory entries)) = Ok tt).
Proof.
  split; [reflexivity|]. split; [reflexivity|]. intros H. cbn [check_youngest_tree_is_parseable].
  destruct (sorted_reverse (filter (fun e => endswith (fst e) (u ".tree")) entries)) as [|[name n] r] eqn:E; [reflexivity|].
  assert (I : In (name, n) (filter (fun e => endswith (fst e) (u ".tree")) entries)) by (apply sorted_reverse_in; rewrite E; now left).
  apply filter_In in I as [I K]. cbn [fst] in K. apply endswith_spec in K. now destruct (H name n I).
Qed.

(** otherwise exactly one entry is checked: the one with the last name *)
Theorem C79_only_the_last_name entries name n : NoDup (map fst entries) -> last_tree entries name n ->
  check_youngest_tree_is_parseable (Some (Directory entries)) = check_file_can_be_parsed_as_tree (Some n).
Proof.
  intros D (I & T & M). cbn [check_youngest_tree_is_parseable].
  assert (I' : In (name, n) (filter (fun e => endswith (fst e) (u ".tree")) entries)) by (apply filter_In; split; [exact I|now apply endswith_spec]).
  destruct (sorted_reverse (filter (fun e => endswith (fst e) (u ".tree")) entries)) as [|[name' n'] r] eqn:E.
  - apply sorted_reverse_in in I'. rewrite E in I'. destruct I'.
  - pose proof (sorted_reverse_head _ _ _ E _ I') as L. cbn [fst] in L.
    assert (J : In (name', n') (filter (fun e => endswith (fst e) (u ".tree")) entries)) by (apply sorted_reverse_in; rewrite E; now left).
    apply filter_In in J as [J K]. cbn [fst] in K. apply endswith_spec in K. destruct (M name' n' J K) as [[= -> ->]|Q]; [reflexivity|].
    apply less_leb in Q. congruence.
Qed.
(** there is such an entry if there are trees at all *)
Theorem C79_there_is_a_last_name entries name n : NoDup (map fst entries) -> In (name, n) entries -> tree_name name ->
  exists name' n', last_tree entries name' n'.
Proof.
  intros D I T. assert (I' : In (name, n) (filter (fun e => endswith (fst e) (u ".tree")) entries)) by (apply filter_In; split; [exact I|now apply endswith_spec]).
  destruct (sorted_reverse (filter (fun e => endswith (fst e) (u ".tree")) entries)) as [|[name' n'] r] eqn:E.
  - apply sorted_reverse_in in I'. rewrite E in I'. destruct I'.
  - assert (J : In (name', n') (filter (fun e => endswith (fst e) (u ".tree")) entries)) by (apply sorted_reverse_in; rewrite E; now left).
    apply filter_In in J as [J K]. cbn [fst] in K. apply endswith_spec in K. exists name', n'. split; [exact J|]. split; [exact K|].
    intros a m Ia Ta. destruct (str_dec a name') as [->|N]; [left; f_equal; exact (NoDup_fst _ _ _ _ D Ia J)|right]. apply str_leb_less; [|exact N].
    change a with (fst (a, m)). change name' with (fst (name', n')). apply (sorted_reverse_head _ _ _ E). apply filter_In. split; [exact Ia|now apply endswith_spec].
Qed.
(** so a directory passes the check iff there are no trees in it or the last one can be read *)
Theorem C79_passed_iff entries : NoDup (map fst entries) ->
  check_youngest_tree_is_parseable (Some (Directory entries)) = Ok tt
  <-> forall name n, last_tree entries name n -> exists w, read_tree (TreePath (Some n)) = Ok w.
Proof.
  intros D. split.
  - intros H name n L. rewrite (C79_only_the_last_name _ _ _ D L) in H. apply bind_ok in H as (w & H & _). eauto.
  - intros H. destruct (existsb (fun e => endswith (fst e) (u ".tree")) entries) eqn:E.
    + apply existsb_exists in E as ([a m] & I & T). apply endswith_spec in T. destruct (C79_there_is_a_last_name _ _ _ D I T) as (name & n & L).
      rewrite (C79_only_the_last_name _ _ _ D L). destruct (H _ _ L) as (w & R). unfold check_file_can_be_parsed_as_tree. now rewrite R.
    + apply (C79_nothing_to_check entries []). intros name n I T. apply endswith_spec in T.
      assert (K : existsb (fun e => endswith (fst e) (u ".tree")) entries = true) by (apply existsb_exists; exists (name, n); auto). congruence.
Qed.
Print Assumptions C79_nothing_to_check.
Print Assumptions C79_only_the_last_name.
Print Assumptions C79_there_is_a_last_name.
Print Assumptions C79_passed_iff.

Definition ex_good : node := File (u "/:UNB[M;M]").
Definition ex_bad : node := File (u "/:UNB[M;M").
Example C79_instance :
  let entries := [(u "UTILTS1.0.tree", ex_bad); (u "UTILTS1.1.tree", ex_good); (u "UTILTS1.2.txt", ex_bad)] in
  NoDup (map fst entries) /\ last_tree entries (u "UTILTS1.1.tree") ex_good
  /\ check_youngest_tree_is_parseable (Some (Directory entries)) = Ok tt.
Proof.
  cbn zeta. split; [repeat constructor; cbn; intuition discriminate|]. split; [|vm_compute; reflexivity].
  split; [right; now left|]. split; [now exists (u "UTILTS1.1")|]. intros name n [[= <- <-]|[[= <- <-]|[[= <- <-]|[]]]] T.
  - right. exists (u "UTILTS1."), (u "0.tree"), (u "1.tree"). split; [reflexivity|]. split; [reflexivity|]. right.
    exists 48%N, 49%N, (u ".tree"), (u ".tree"). split; [reflexivity|]. split; [reflexivity|lia].
  - now left.
  - apply endswith_spec in T. vm_compute in T. discriminate.
Qed.
(** the last name is not the youngest version: 1.9 comes after 1.10, and lower case after upper case *)
Theorem C79_youngest_refuted :
  check_youngest_tree_is_parseable (Some (Directory [(u "UTILTS1.9.tree", ex_good); (u "UTILTS1.10.tree", ex_bad)])) = Ok tt
  /\ check_file_can_be_parsed_as_tree (Some ex_bad) = Raise LarkError.
Proof. split; vm_compute; reflexivity. Qed.
Print Assumptions C79_youngest_refuted.
