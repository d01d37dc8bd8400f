(** Lemmas about reading rows of a CSV file. *)
From Coq Require Import Ascii String List NArith ZArith Bool Lia Arith.
From Verif Require Import PyBase PyStr PyRe M_Components M_Ahb M_Schema M_CsvReader M_Xml S_Text S_Numbers S_FlatAhb S_ValuePool S_LocationXml S_Csv
  L_Base L_Str L_Re L_Validators L_FlatAhb L_ValuePool L_Paths L_LocationXml L_Numbers.
Import ListNotations.
Local Open Scope list_scope.

(** ** headings *)
Lemma length_0 {A} (l : list A) : Nat.eqb (List.length l) 0 = true <-> l = [].
Proof. destruct l; cbn; split; congruence. Qed.

Lemma only_gruppe r : line_only_contains_segment_gruppe r = true
  <-> forall key v, In key other_columns -> has r key (Some v) -> blank v.
Proof.
  unfold line_only_contains_segment_gruppe. rewrite forallb_forall. split; intros H.
  - intros key v Hin Hv. specialize (H key Hin). cbv beta in H. unfold has in Hv. rewrite Hv in H.
    now apply length_0, strip_nil in H.
  - intros key Hin. destruct (dict_get key r) as [[v|]|] eqn:E; [|reflexivity|reflexivity].
    apply length_0, strip_nil. exact (H key v Hin E).
Qed.

Lemma heading_text_ok r t : heading_text r = Some t <-> heading r t.
Proof.
  unfold heading_text, heading, has. destruct (dict_get (u "Segment Gruppe") r) as [[v|]|]; [|split; [discriminate|intros (H & _); discriminate]..].
  destruct (truthy v && line_only_contains_segment_gruppe r && negb (startswith v (u "SG"))) eqn:E.
  - apply andb_true_iff in E as [E E3]. apply andb_true_iff in E as [E1 E2].
    apply truthy_true in E1. apply negb_true_iff in E3.
    assert (K : ~ (exists t, v = u "SG" ++ t)) by (rewrite <- startswith_spec; congruence).
    split.
    + intros [= <-]. split; [reflexivity|]. split; [exact E1|]. split; [exact K|]. apply (proj1 (only_gruppe r) E2).
    + intros ([= ->] & _). reflexivity.
  - split; [discriminate|]. intros ([= ->] & Hn & Hs & Hb). exfalso.
    apply truthy_true in Hn. apply (proj2 (only_gruppe r)) in Hb. rewrite Hn, Hb in E. cbn [andb] in E.
    apply negb_false_iff in E. apply Hs, startswith_spec, E.
Qed.
Lemma heading_text_none r : heading_text r = None <-> no_heading r.
Proof.
  unfold no_heading. split.
  - intros H t Ht. apply heading_text_ok in Ht. congruence.
  - intros H. destruct (heading_text r) as [t|] eqn:E; [|reflexivity]. apply heading_text_ok in E. now apply H in E.
Qed.
Lemma heading_dec r : (exists t, heading r t) \/ no_heading r.
Proof.
  destruct (heading_text r) as [t|] eqn:E; [left; exists t; now apply heading_text_ok|right; now apply heading_text_none].
Qed.

Lemma spaced_snoc texts v : spaced (texts ++ [v]) = spaced texts ++ u " " ++ v.
Proof. unfold spaced. rewrite flat_map_app. cbn [flat_map]. now rewrite app_nil_r. Qed.
Lemma spaced_nonempty texts : texts <> [] <-> Nat.ltb 0 (List.length (spaced texts)) = true.
Proof. destruct texts as [|t texts]; cbn; split; congruence. Qed.

Lemma previous_index_ok r i : previous_index r = Ok i <-> exists s n, has r [] (Some s) /\ number_text 10 s n /\ i = str_of_Z (n - 1).
Proof.
  unfold previous_index, cell, has. destruct (dict_get [] r) as [[s|]|]; cbn [bind].
  - destruct (py_int 10 s) as [n|] eqn:E.
    + split; [intros [= <-]; exists s, n; split; [reflexivity|]; split; [now apply (py_int_spec 10 s n (or_introl eq_refl))|reflexivity]|].
      intros (s' & n' & [= <-] & E' & ->). apply (py_int_spec 10 s n' (or_introl eq_refl)) in E'. congruence.
    + split; [discriminate|]. intros (s' & n' & [= <-] & E' & ->). apply (py_int_spec 10 s n' (or_introl eq_refl)) in E'. congruence.
  - split; [discriminate|]. intros (s' & n' & [=] & _).
  - split; [discriminate|]. intros (s' & n' & [=] & _).
Qed.
Lemma previous_index_numbered r : (exists i, previous_index r = Ok i) <-> numbered r.
Proof.
  unfold numbered. split.
  - intros (i & H). apply previous_index_ok in H as (s & n & H & E & _). eauto.
  - intros (s & n & H & E). eexists. apply previous_index_ok. eauto.
Qed.

(** a row is determined by its columns *)
Lemma row_ext (m m' : row) : NoDup (map fst m) -> map fst m = map fst m' ->
  (forall key, In key (map fst m) -> exists v, has m key v /\ has m' key v) -> m = m'.
Proof.
  revert m'. induction m as [|[k v] m IH]; intros [|[k' v'] m'] Nd E H; try discriminate; [reflexivity|].
  cbn [map fst] in E. injection E as <- E. cbn [map fst] in Nd, H. inversion Nd as [|? ? Hnin Nd']; subst.
  destruct (H k (or_introl eq_refl)) as (w & H1 & H2). unfold has in H1, H2. cbn [dict_get] in H1, H2.
  rewrite str_eqb_refl in H1, H2. assert (Ev : v = v') by congruence. subst v'. f_equal. apply IH; [exact Nd'|exact E|].
  intros key Hin. destruct (H key (or_intror Hin)) as (x & H3 & H4). exists x. unfold has in *. cbn [dict_get] in H3, H4.
  assert (K : str_eqb key k = false) by (apply str_eqb_neq; intros ->; contradiction).
  rewrite K in H3, H4. auto.
Qed.

Lemma merged_row_keys i t : map fst (merged_row i t) = [] :: u "Segment Gruppe" :: other_columns.
Proof. reflexivity. Qed.
Lemma keys_nodup : NoDup ([] :: u "Segment Gruppe" :: other_columns).
Proof.
  assert (H : forall l : list pystr, (fix f (l : list pystr) := match l with [] => true | x :: r => negb (str_in x r) && f r end) l = true -> NoDup l).
  { induction l as [|x l IH]; [constructor|]. intros H. apply andb_true_iff in H as [H1 H2]. constructor; [|now apply IH].
    apply negb_true_iff in H1. now apply str_in_nIn in H1. }
  apply H. vm_compute. reflexivity.
Qed.
Lemma merged_row_columns i t key : In key other_columns -> has (merged_row i t) key (Some []).
Proof.
  intros H. unfold has. cbn [In other_columns] in H. repeat (destruct H as [<-|H]; [reflexivity|]). destruct H.
Qed.
Lemma stands_for_eq texts r m : stands_for texts r m <-> exists i, previous_index r = Ok i /\ m = merged_row i (spaced texts).
Proof.
  split.
  - intros ((s & n & Hs & Hn & Hm) & (t & t' & Ht & Hr & Hg) & Hc & Hk). exists (str_of_Z (n - 1)).
    split; [apply previous_index_ok; eauto|]. apply row_ext.
    + rewrite Hk. exact keys_nodup.
    + rewrite Hk. reflexivity.
    + rewrite Hk. intros key [<-|[<-|Hin]].
      * eexists. split; [exact Hm|reflexivity].
      * eexists. split; [exact Hg|]. apply stripped_unique in Ht as <-. apply replace_spec in Hr as <-; [|discriminate]. reflexivity.
      * exists (Some []). split; [now apply Hc|now apply merged_row_columns].
  - intros (i & Hi & ->). apply previous_index_ok in Hi as (s & n & Hs & Hn & ->). split; [|split; [|split]].
    + exists s, n. split; [exact Hs|]. split; [exact Hn|]. reflexivity.
    + exists (strip (spaced texts)), (replace (strip (spaced texts)) (u "  ") (u " ")). split; [apply strip_spec|]. split; [now apply replace_spec|]. reflexivity.
    + intros key. apply merged_row_columns.
    + reflexivity.
Qed.

(** ** merging *)
Lemma merge_loop_headings hs texts : Forall2 heading hs texts -> forall acc rows,
  merge_loop acc (hs ++ rows) = merge_loop (acc ++ spaced texts) rows.
Proof.
  induction 1 as [|h t hs texts Hh H IH]; intros acc rows; cbn [app spaced flat_map].
  - now rewrite app_nil_r.
  - cbn [merge_loop]. apply heading_text_ok in Hh. rewrite Hh, IH. cbn. unfold spaced. now rewrite <- !app_assoc.
Qed.
Lemma headings_texts hs : (forall h, In h hs -> exists t, heading h t) -> exists texts, Forall2 heading hs texts.
Proof.
  induction hs as [|h hs IH]; intros H; [exists []; constructor|].
  destruct (H h) as [t Ht]; [cbn; auto|]. destruct IH as [texts IH]; [intros; apply H; cbn; auto|]. exists (t :: texts). now constructor.
Qed.

Lemma merge_sound rows : forall hs texts out, Forall2 heading hs texts -> merge_loop (spaced texts) rows = Ok out ->
  merged (hs ++ rows) out.
Proof.
  induction rows as [|r rows IH]; intros hs texts out Hh H; cbn [merge_loop] in H.
  - injection H as <-. rewrite app_nil_r. constructor. intros h Hin.
    clear -Hh Hin. induction Hh as [|x t hs texts Hx Hh IH]; [destruct Hin|]. destruct Hin as [<-|Hin]; eauto.
  - destruct (heading_text r) as [v|] eqn:E.
    + apply heading_text_ok in E. change (r :: rows) with ([r] ++ rows). rewrite app_assoc. apply (IH _ (texts ++ [v])).
      * apply Forall2_app; [exact Hh|]. constructor; [exact E|constructor].
      * now rewrite spaced_snoc.
    + apply heading_text_none in E. destruct texts as [|t texts].
      * inversion Hh; subst. cbn [spaced flat_map List.length] in H. change (0 <? 0) with false in H. cbv iota in H.
        apply bind_ok in H as (out' & H & [= <-]). cbn [app]. constructor; [exact E|]. apply (IH [] []); [constructor|exact H].
      * assert (K : (0 <? List.length (spaced (t :: texts))) = true) by (apply spaced_nonempty; discriminate).
        rewrite K in H. apply bind_ok in H as (i & Hi & H). apply bind_ok in H as (out' & H & [= <-]).
        eapply merged_run; [exact Hh|intros ->; inversion Hh|exact E|apply stands_for_eq; eauto|]. apply (IH [] []); [constructor|exact H].
Qed.
Lemma merge_complete rows out : merged rows out -> merge_loop [] rows = Ok out.
Proof.
  induction 1 as [hs Hh|r rows out E H IH|hs texts r rows out m Hh Hn E Hs H IH].
  - apply headings_texts in Hh as (texts & Hh). rewrite <- (app_nil_r hs), (merge_loop_headings _ _ Hh). reflexivity.
  - cbn [merge_loop]. apply heading_text_none in E. rewrite E. change (0 <? List.length (@nil char)) with false. cbv iota. rewrite IH. reflexivity.
  - rewrite (merge_loop_headings _ _ Hh). cbn [app merge_loop]. apply heading_text_none in E. rewrite E.
    assert (K : (0 <? List.length (spaced texts)) = true). { apply spaced_nonempty. intros ->. inversion Hh; subst. now apply Hn. }
    rewrite K. apply stands_for_eq in Hs as (i & Hi & ->). rewrite Hi. cbn [bind]. rewrite IH. reflexivity.
Qed.
Lemma merge_ok rows out : merge_section_only_lines rows = Ok out <-> merged rows out.
Proof. split; [apply (merge_sound rows [] []); constructor|apply merge_complete]. Qed.

Lemma merge_loop_total rows : forall texts,
  (texts <> [] -> match rows with [] => True | r :: _ => no_heading r -> numbered r end) ->
  (forall l1 h r l2, rows = l1 ++ h :: r :: l2 -> (exists t, heading h t) -> no_heading r -> numbered r) ->
  exists out, merge_loop (spaced texts) rows = Ok out.
Proof.
  induction rows as [|r rows IH]; intros texts Hf Hr; cbn [merge_loop]; [eauto|].
  assert (Hr' : forall l1 h r0 l2, rows = l1 ++ h :: r0 :: l2 -> (exists t, heading h t) -> no_heading r0 -> numbered r0).
  { intros l1 h r0 l2 ->. apply (Hr (r :: l1) h r0 l2 eq_refl). }
  destruct (heading_text r) as [v|] eqn:E.
  - apply heading_text_ok in E. rewrite <- spaced_snoc. apply IH; [|exact Hr'].
    intros _. destruct rows as [|r' rows]; [exact I|]. apply (Hr [] r r' rows eq_refl). eauto.
  - apply heading_text_none in E. destruct (IH []) as (out & IH'); [congruence|exact Hr'|].
    change (spaced []) with (@nil char) in IH'. destruct (0 <? List.length (spaced texts)) eqn:L.
    + apply spaced_nonempty in L. specialize (Hf L E). apply previous_index_numbered in Hf as (i & Hi). rewrite Hi. cbn [bind]. rewrite IH'. cbn. eauto.
    + rewrite IH'. cbn. eauto.
Qed.
Lemma merged_numbered rows out : merged rows out -> forall l1 h r l2, rows = l1 ++ h :: r :: l2 -> (exists t, heading h t) -> no_heading r -> numbered r.
Proof.
  assert (A : forall (a b : list row) h r l1 l2, a ++ b = l1 ++ h :: r :: l2 ->
     (exists x, b = x ++ h :: r :: l2) \/ In r a \/ (exists a', a = a' ++ [h] /\ b = r :: l2)).
  { clear. induction a as [|x a IH]; intros b h r l1 l2 E; [left; exists l1; exact E|].
    destruct l1 as [|y l1]; cbn [app] in E; injection E as -> E.
    - destruct a as [|z a]; cbn [app] in E; [right; right; exists []; split; [reflexivity|exact E]|].
      injection E as -> E. right; left; cbn; auto.
    - apply IH in E as [H|[H|(a' & -> & H)]]; [left; exact H|right; left; cbn; auto|]. right; right. exists (y :: a'). auto. }
  induction 1 as [hs Hh|r rows out E H IH|hs texts r rows out m Hh Hn E Hs H IH]; intros l1 h r' l2 E' Ht Hr.
  - exfalso. destruct (Hh r') as [t Hr']; [subst; apply in_or_app; right; cbn; auto|]. exact (Hr t Hr').
  - destruct l1 as [|y l1]; cbn [app] in E'; injection E' as -> E'; [exfalso; destruct Ht as [t Ht]; exact (E t Ht)|]. eapply IH; eauto.
  - apply A in E' as [(x & E')|[Hin|(hs' & -> & E')]].
    + destruct x as [|y x]; cbn [app] in E'; injection E' as -> E'; [exfalso; destruct Ht as [t Ht]; exact (E t Ht)|]. eapply IH; eauto.
    + exfalso. clear -Hh Hin Hr. induction Hh as [|x t hs texts Hx Hh IH]; [destruct Hin|]. destruct Hin as [<-|Hin]; [exact (Hr t Hx)|auto].
    + injection E' as <- <-. destruct Hs as ((s & n & Hs & Hn' & _) & _). exists s, n. auto.
Qed.
Lemma merge_raise rows e : merge_section_only_lines rows = Raise e -> e = KeyError \/ e = TypeError \/ e = ValueError.
Proof.
  unfold merge_section_only_lines. generalize (@nil char). induction rows as [|r rows IH]; intros acc; cbn [merge_loop]; [discriminate|].
  destruct (heading_text r); [apply IH|].
  assert (K : forall e, previous_index r = Raise e -> e = KeyError \/ e = TypeError \/ e = ValueError).
  { intros e'. unfold previous_index, cell. destruct (dict_get [] r) as [[s|]|]; cbn [bind].
    - destruct (py_int 10 s); [discriminate|]. intros [= <-]; auto.
    - intros [= <-]; auto.
    - intros [= <-]; auto. }
  specialize (IH []). destruct (0 <? List.length acc).
  - destruct (previous_index r) as [i|e']; cbn [bind]; [|intros [= <-]; auto].
    destruct (merge_loop [] rows) as [o|e']; cbn [bind]; [discriminate|]. intros [= <-]. auto.
  - destruct (merge_loop [] rows) as [o|e']; cbn [bind]; [discriminate|]. intros [= <-]. auto.
Qed.

(** ** value pool entries *)
Lemma match_code s : matches re_value_pool_entry s = true <-> code_like s.
Proof.
  unfold re_value_pool_entry. rewrite matches_acc. unfold code_like. split.
  - intros (s' & H). rewrite acc_bol_seq in H. apply acc_seq in H as (m & H & Hm). apply acc_not in H as [-> Hmp].
    apply acc_seq in Hm as (k & H & Hk). apply acc_char in H as (c & -> & Hc).
    apply acc_seq in Hk as (j & H & Hj). apply acc_plus_char in H as (w & -> & Hn & F). apply acc_eol in Hj as [-> Hj].
    exists (c :: w), j. split; [reflexivity|]. split; [destruct w; [congruence|cbn; lia]|]. split; [|split; [exact Hj|]].
    + constructor; [exact Hc|now apply all_forallb].
    + intros (t & E). apply Hmp. exists t. now apply acc_lit.
  - intros (w & n & -> & L & F & Hn & Hmp). destruct w as [|c w]; [cbn in L; lia|]. inversion F as [|? ? Hc F']; subst.
    exists n. apply acc_bol_seq, acc_seq. exists ((c :: w) ++ n). split.
    { apply acc_not. split; [reflexivity|]. intros (m & H). apply acc_lit in H. apply Hmp. eauto. }
    apply acc_seq. exists (w ++ n). split; [apply acc_char; exists c; auto|].
    apply acc_seq. exists n. split; [|apply acc_eol; auto]. apply acc_plus_char. exists w. split; [reflexivity|].
    split; [destruct w; [cbn in L; lia|congruence]|now apply all_forallb].
Qed.
Lemma match_number s : matches re_numeric_entry s = true <-> number_like s.
Proof.
  unfold re_numeric_entry. rewrite matches_acc. unfold number_like. split.
  - intros (s' & H). rewrite acc_bol_seq in H. apply acc_seq in H as (m & H & Hm).
    apply acc_plus_char in H as (d & -> & Hn & F). apply all_forallb in F.
    apply acc_seq in Hm as (k & Hf & Hk). apply acc_seq in Hk as (j & Hl & Hj). apply acc_eol in Hj as [-> Hj].
    assert (Hf' : exists f, m = f ++ k /\ (f = [] \/ exists e, f = u "." ++ e /\ e <> [] /\ all is_decimal e)).
    { apply acc_opt in Hf as [Hf| ->]; [|exists []; auto].
      apply acc_seq in Hf as (i & H & Hi). apply acc_char in H as (c & -> & Hc). apply N.eqb_eq in Hc as <-.
      apply acc_plus_char in Hi as (e & -> & He & Fe). exists (u "." ++ e). split; [reflexivity|]. right. exists e. rewrite all_forallb in Fe. auto. }
    destruct Hf' as (f & -> & Hf').
    assert (Hl' : exists l, k = l ++ j /\ (l = [] \/ exists c, l = [c] /\ is_az c = true)).
    { apply acc_opt in Hl as [Hl| ->]; [|exists []; auto]. apply acc_char in Hl as (c & -> & Hc). exists [c]. eauto. }
    destruct Hl' as (l & -> & Hl'). exists d, f, l, j. repeat (split; [first [reflexivity|assumption]|]). exact Hj.
  - intros (d & f & l & n & -> & Hd & Fd & Hf & Hl & Hn). exists n. apply acc_bol_seq, acc_seq. exists (f ++ l ++ n). split.
    { apply acc_plus_char. exists d. rewrite all_forallb. auto. }
    apply acc_seq. exists (l ++ n). split.
    { apply acc_opt. destruct Hf as [-> |(e & -> & He & Fe)]; [now right|left]. apply acc_seq. exists (e ++ l ++ n). split.
      - apply acc_char. exists (ch "."). split; [reflexivity|apply N.eqb_refl].
      - apply acc_plus_char. exists e. rewrite all_forallb. auto. }
    apply acc_seq. exists n. split; [|apply acc_eol; auto].
    apply acc_opt. destruct Hl as [-> |(c & -> & Hc)]; [now right|left]. apply acc_char. exists c. auto.
Qed.
Lemma match_gabi_any s : matches re_gabi_qualifier s = true <-> gabi_like s.
Proof.
  unfold re_gabi_qualifier. rewrite matches_acc. unfold gabi_like. split.
  - intros (s' & H). rewrite acc_bol_seq in H. apply acc_seq in H as (m & H & Hm). apply acc_not in H as [-> Hmp].
    apply acc_seq in Hm as (k & Hg & Hk).
    assert (Hg' : exists g, s = g ++ k /\ (g = [] \/ g = u "GABi")).
    { apply acc_opt in Hg as [H| ->]; [|exists []; auto]. apply acc_cap, acc_lit in H as ->. exists (u "GABi"). auto. }
    destruct Hg' as (g & -> & Hg').
    apply acc_seq in Hk as (j & H & Hj). apply acc_plus_char in H as (w & -> & Hn & F). apply all_forallb in F.
    apply acc_seq in Hj as (i & H & He). apply acc_eol in He as [-> Hi].
    assert (Ht : exists t, j = t ++ i /\ (t = [] \/ t = u "RLMoT" \/ t = u "RLMmT")).
    { apply acc_opt in H as [H| ->]; [|exists []; auto].
      apply acc_cap, acc_seq in H as (h & H & Hh). apply acc_lit in H as ->.
      apply acc_seq in Hh as (g' & H & Hg''). apply acc_lit in Hg'' as ->. apply acc_cap, acc_alt in H as [H|H]; apply acc_lit in H as ->.
      - exists (u "RLMoT"). auto.
      - exists (u "RLMmT"). auto. }
    destruct Ht as (t & -> & Ht). exists g, w, t, i. repeat (split; [first [reflexivity|assumption]|]).
    intros (x & E). apply Hmp. exists x. now apply acc_lit.
  - intros (g & w & t & n & -> & Hg & Hw & F & Ht & Hn & Hmp). apply all_forallb in F. exists n. apply acc_bol_seq, acc_seq.
    exists (g ++ w ++ t ++ n). split.
    { apply acc_not. split; [reflexivity|]. intros (m & H). apply acc_lit in H. apply Hmp. eauto. }
    apply acc_seq. exists (w ++ t ++ n). split.
    { apply acc_opt. destruct Hg as [-> | ->]; [now right|left]. apply acc_cap, acc_lit. reflexivity. }
    apply acc_seq. exists (t ++ n). split; [apply acc_plus_char; exists w; auto|].
    apply acc_seq. exists n. split.
    + apply acc_opt. destruct Ht as [-> |[-> | ->]]; [now right|left|left];
        (apply acc_cap, acc_seq; eexists; split; [apply acc_lit; rewrite <- ?app_assoc; reflexivity|]).
      * apply acc_seq. exists (u "T" ++ n). split; [apply acc_cap, acc_alt; left; apply acc_lit; reflexivity|apply acc_lit; reflexivity].
      * apply acc_seq. exists (u "T" ++ n). split; [apply acc_cap, acc_alt; right; apply acc_lit; reflexivity|apply acc_lit; reflexivity].
    + apply acc_eol. auto.
Qed.
Lemma match_ebd s : matches re_ebd_code s = true <-> ebd_like s.
Proof.
  unfold re_ebd_code. rewrite matches_acc. unfold ebd_like. split.
  - intros (s' & H). rewrite acc_bol_seq in H. apply acc_seq in H as (m & H & Hm). apply acc_cap, acc_char in H as (c & -> & Hc).
    apply acc_seq in Hm as (k & H & Hk). apply acc_char in H as (x & -> & Hx). apply N.eqb_eq in Hx as <-.
    apply acc_seq in Hk as (j & H & Hj). apply acc_plus_char in H as (d & -> & Hd & F). apply acc_eol in Hj as [-> Hj].
    exists c, d, j. split; [reflexivity|]. apply orb_true_iff in Hc. rewrite !N.eqb_eq in Hc. apply all_forallb in F. auto.
  - intros (c & d & n & -> & Hc & Hd & F & Hn). exists n. apply acc_bol_seq, acc_seq. exists (u "_" ++ d ++ n). split.
    { apply acc_cap, acc_char. exists c. split; [reflexivity|]. apply orb_true_iff. now rewrite !N.eqb_eq. }
    apply acc_seq. exists (d ++ n). split; [apply acc_char; exists (ch "_"); split; [reflexivity|apply N.eqb_refl]|].
    apply acc_seq. exists n. split; [|apply acc_eol; auto]. apply acc_plus_char. exists d. rewrite all_forallb. auto.
Qed.
Lemma looks_like_entry_nonempty s : looks_like_entry s -> s <> [].
Proof.
  intros [H|[H|[H|[H|H]]]] ->.
  - destruct H as (w & n & E & L & _). destruct w; [cbn in L; lia|discriminate].
  - destruct H as (d & f & l & n & E & Hd & _). destruct d; [congruence|discriminate].
  - destruct H as (c & E & _). discriminate.
  - destruct H as (g & w & t & n & E & _ & Hw & _). destruct g; [|discriminate]. destruct w; [congruence|discriminate].
  - destruct H as (c & d & n & E & _). discriminate.
Qed.
Lemma is_entry_ok o : is_value_pool_entry o = true <-> exists s, o = Some s /\ looks_like_entry s.
Proof.
  destruct o as [s|]; cbn [is_value_pool_entry]; [|split; [discriminate|intros (s & [=] & _)]].
  assert (O : (match s with [c] => upper_is_self c | _ => false end) = true <-> one_upper_char s).
  { unfold one_upper_char. destruct s as [|c [|d s]].
    - split; [discriminate|intros (c & [=] & _)].
    - split; [intros H; exists c; auto|intros (c' & [= <-] & H); exact H].
    - split; [discriminate|intros (c' & [=] & _)]. }
  split.
  - intros H. exists s. split; [reflexivity|]. unfold looks_like_entry.
    destruct (negb (truthy s)); [discriminate|].
    destruct (matches re_value_pool_entry s) eqn:E1; [left; now apply match_code|].
    destruct (matches re_numeric_entry s) eqn:E2; [right; left; now apply match_number|].
    destruct (match s with [c] => upper_is_self c | _ => false end) eqn:E3; [right; right; left; now apply O|].
    destruct (matches re_gabi_qualifier s) eqn:E4; [right; right; right; left; now apply match_gabi_any|].
    right; right; right; right. now apply match_ebd.
  - intros (s' & [= <-] & H). assert (T : truthy s = true) by (apply truthy_true, looks_like_entry_nonempty, H). rewrite T. cbn [negb].
    destruct (matches re_value_pool_entry s) eqn:E1; [reflexivity|].
    destruct (matches re_numeric_entry s) eqn:E2; [reflexivity|].
    destruct (match s with [c] => upper_is_self c | _ => false end) eqn:E3; [reflexivity|].
    destruct (matches re_gabi_qualifier s) eqn:E4; [reflexivity|].
    rewrite <- not_true_iff_false in E1, E2, E4. rewrite match_code in E1. rewrite match_number in E2. rewrite match_gabi_any in E4.
    apply match_ebd. destruct H as [H|[H|[H|[H|H]]]]; [tauto|tauto|apply O in H; congruence|tauto|exact H].
Qed.
Lemma comes_back_strip o : comes_back_as o (or_none (option_map strip o)).
Proof.
  destruct o as [s|]; cbn [option_map]; [|constructor]. unfold or_none. cbn [otruthy].
  destruct (strip s) as [|c t] eqn:E; cbn [truthy].
  - constructor. now apply strip_nil.
  - constructor; [rewrite <- E; apply strip_spec|discriminate].
Qed.
Lemma is_entry_or_none o : is_value_pool_entry (or_none o) = is_value_pool_entry o.
Proof. unfold or_none. destruct o as [[|c s]|]; reflexivity. Qed.
Lemma entry_or_none o : is_value_pool_entry o = true -> or_none o = o.
Proof. destruct o as [[|c s]|]; [discriminate|reflexivity|reflexivity]. Qed.
Lemma separate_spec x y e n : separate_value_pool_entry_and_name x y = (e, n) <-> separated x y e n.
Proof.
  unfold separate_value_pool_entry_and_name, separated.
  assert (E : separate_value_pool_entry_and_name x y =
    if is_value_pool_entry (or_none (option_map strip x)) then (or_none (option_map strip x), or_none (option_map strip y))
    else (or_none (option_map strip y), or_none (option_map strip x))).
  { unfold separate_value_pool_entry_and_name. rewrite is_entry_or_none.
    destruct (is_value_pool_entry (option_map strip x)) eqn:Ex; cbn [andb]; [|reflexivity].
    destruct (is_value_pool_entry (option_map strip y)) eqn:Ey; cbn [negb]; rewrite (entry_or_none _ Ex); [now rewrite (entry_or_none _ Ey)|reflexivity]. }
  unfold separate_value_pool_entry_and_name in E. cbv zeta in *. rewrite E. clear E.
  set (x' := or_none (option_map strip x)). set (y' := or_none (option_map strip y)). split.
  - intros H. exists x', y'. split; [apply comes_back_strip|]. split; [apply comes_back_strip|].
    destruct (is_value_pool_entry x') eqn:Ex; injection H as <- <-.
    + left. split; [now apply is_entry_ok|auto].
    + right. split; [intros K; apply is_entry_ok in K; congruence|auto].
  - intros (x2 & y2 & Hx & Hy & H). apply (comes_back_unique _ _ x') in Hx; [|apply comes_back_strip].
    apply (comes_back_unique _ _ y') in Hy; [|apply comes_back_strip]. subst x2 y2.
    destruct H as [(Hx & -> & ->)|(Hx & -> & ->)].
    + apply is_entry_ok in Hx. now rewrite Hx.
    + destruct (is_value_pool_entry x') eqn:Ex; [exfalso; apply Hx; now apply is_entry_ok|reflexivity].
Qed.

(** ** the expression column *)
Lemma match_pruefi s : matches re_pruefi s = true <-> five_digits s.
Proof.
  unfold re_pruefi. rewrite matches_acc. unfold five_digits. split.
  - intros (s' & H). apply acc_digits_eol in H as (k & -> & Hk & Hn). exists k, s'. auto.
  - intros (d & n & -> & Hd & Hn). exists n. apply acc_digits_eol. exists d. auto.
Qed.
Lemma column_ok names p : find (matches re_pruefi) names = Some p <-> first_five_digits names p.
Proof.
  split.
  - intros H. apply find_split in H as (l1 & l2 & -> & H & Hn). exists l1, l2. split; [reflexivity|]. split; [now apply match_pruefi|].
    intros q Hq. rewrite <- match_pruefi. specialize (Hn q Hq). congruence.
  - intros (l1 & l2 & -> & H & Hn). apply match_pruefi in H. induction l1 as [|q l1 IH]; cbn [app find]; [now rewrite H|].
    assert (K : matches re_pruefi q = false) by (apply not_true_iff_false; rewrite match_pruefi; apply Hn; cbn; auto).
    rewrite K. apply IH. intros q' Hq'. apply Hn. cbn; auto.
Qed.

(** ** dicts *)
Lemma dict_set_twice {V} k (v v' : V) d : dict_set k v (dict_set k v' d) = dict_set k v d.
Proof.
  induction d as [|[k1 v1] d IH]; cbn [dict_set]; [now rewrite str_eqb_refl|].
  destruct (str_eqb k k1) eqn:E; cbn [dict_set]; rewrite E; [reflexivity|now rewrite IH].
Qed.
Lemma dict_set_comm {V} k k2 (v v2 : V) d : In k (map fst d) -> k <> k2 ->
  dict_set k v (dict_set k2 v2 d) = dict_set k2 v2 (dict_set k v d).
Proof.
  induction d as [|[k1 v1] d IH]; [intros []|]. intros Hin Hne. cbn [dict_set].
  destruct (str_eqb_spec k k1) as [E1|N1], (str_eqb_spec k2 k1) as [E2|N2]; [congruence| | |]; cbn [dict_set].
  - subst k1. rewrite str_eqb_refl. destruct (str_eqb_spec k2 k); [congruence|reflexivity].
  - subst k1. rewrite str_eqb_refl. destruct (str_eqb_spec k k2); [congruence|reflexivity].
  - destruct (str_eqb_spec k k1); [congruence|]. destruct (str_eqb_spec k2 k1); [congruence|]. f_equal. apply IH; [|exact Hne].
    cbn in Hin. destruct Hin as [Hin|Hin]; [congruence|exact Hin].
Qed.
Lemma dict_set_keys_in {V} k (v : V) d x : In x (map fst (dict_set k v d)) <-> x = k \/ In x (map fst d).
Proof.
  induction d as [|[k1 v1] d IH]; cbn [dict_set]; [cbn; intuition|].
  destruct (str_eqb_spec k k1) as [<-|N]; cbn [map fst In]; [intuition|]. rewrite IH. intuition.
Qed.
Lemma dict_update_comm {V} (e : list (pystr * V)) : forall k v d, In k (map fst d) -> ~ In k (map fst e) ->
  dict_update (dict_set k v d) e = dict_set k v (dict_update d e).
Proof.
  unfold dict_update. induction e as [|[k1 v1] e IH]; intros k v d Hin Hn; cbn [fold_left fst snd map]; [reflexivity|].
  cbn [map fst In] in Hn. rewrite <- dict_set_comm; [|exact Hin|intuition congruence]. apply IH; [|tauto]. apply dict_set_keys_in. auto.
Qed.
Lemma dict_update_set {V} (e : list (pystr * V)) : NoDup (map fst e) -> forall d k v,
  dict_update d (dict_set k v e) = dict_set k v (dict_update d e).
Proof.
  induction e as [|[k1 v1] e IH]; intros ND d k v; cbn [dict_set]; [reflexivity|]. cbn [map fst] in ND. inversion ND as [|? ? Hn ND']; subst.
  destruct (str_eqb_spec k k1) as [<-|N]; unfold dict_update; cbn [fold_left fst snd].
  - change (dict_update (dict_set k v d) e = dict_set k v (dict_update (dict_set k v1 d) e)).
    rewrite <- dict_update_comm; [|apply dict_set_keys_in; auto|exact Hn]. now rewrite dict_set_twice.
  - apply (IH ND').
Qed.
(** dict(ps) *)
Definition dict_of {V} (ps : list (pystr * V)) : list (pystr * V) := dict_update [] ps.
Lemma dict_of_snoc {V} ps k (v : V) : dict_of (ps ++ [(k, v)]) = dict_set k v (dict_of ps).
Proof. unfold dict_of, dict_update. now rewrite fold_left_app. Qed.
Lemma dict_of_keys {V} (ps : list (pystr * V)) : first_occurrences (map fst ps) (map fst (dict_of ps)).
Proof.
  induction ps as [|[q i] ps IH] using rev_ind; [apply first_occurrences_nil|].
  rewrite dict_of_snoc, map_app. cbn [map fst].
  destruct (in_dec str_dec q (map fst (dict_of ps))) as [H|H].
  - rewrite dict_set_keys_old by exact H. apply first_occurrences_old; [exact IH|]. now apply IH.
  - rewrite dict_set_new by exact H. rewrite map_app. apply first_occurrences_new; [exact IH|]. intros K. apply H. now apply IH.
Qed.
Lemma dict_of_update {V} (a b : list (pystr * V)) : dict_update (dict_of a) (dict_of b) = dict_of (a ++ b).
Proof.
  induction b as [|[k v] b IH] using rev_ind; [now rewrite app_nil_r|].
  rewrite dict_of_snoc, dict_update_set by apply dict_of_keys. rewrite app_assoc, dict_of_snoc. now rewrite IH.
Qed.
Lemma last_wins_dict_of {V} (ps : list (pystr * V)) : last_wins ps (dict_of ps).
Proof.
  split; [apply dict_of_keys|]. intros k t. rewrite dict_get_NoDup by apply dict_of_keys. revert t.
  induction ps as [|[q v] ps IH] using rev_ind; intros t.
  - split; [discriminate|]. intros (l1 & l2 & E & _). destruct l1; discriminate.
  - rewrite dict_of_snoc, dict_get_set. destruct (str_eqb_spec k q) as [-> |N].
    + split.
      * intros [= <-]. exists ps, []. split; [reflexivity|]. intros [].
      * intros (l1 & l2 & E & Hn). destruct l2 as [|x l2] using rev_ind.
        -- apply app_inj_tail in E as [_ E]. congruence.
        -- exfalso. apply Hn. rewrite map_app. apply in_or_app. right.
           change (l1 ++ (q, t) :: l2 ++ [x]) with (l1 ++ ((q, t) :: l2) ++ [x]) in E. rewrite app_assoc in E. apply app_inj_tail in E as [_ <-]. cbn; auto.
    + rewrite IH. split.
      * intros (l1 & l2 & -> & Hn). exists l1, (l2 ++ [(q, v)]). split; [now rewrite <- app_assoc|].
        rewrite map_app. intros Hin. apply in_app_or in Hin as [Hin|[Hin|[]]]; [contradiction|cbn in Hin; congruence].
      * intros (l1 & l2 & E & Hn). destruct l2 as [|x l2] using rev_ind.
        -- apply app_inj_tail in E as [_ E]. congruence.
        -- change (l1 ++ (k, t) :: l2 ++ [x]) with (l1 ++ ((k, t) :: l2) ++ [x]) in E. rewrite app_assoc in E. apply app_inj_tail in E as [-> _].
           exists l1, l2. split; [reflexivity|]. intros Hin. apply Hn. rewrite map_app. apply in_or_app. auto.
Qed.
Lemma last_wins_unique {V} (ps d : list (pystr * V)) : last_wins ps d -> d = dict_of ps.
Proof.
  intros [Hk Hv]. destruct (last_wins_dict_of ps) as [Hk' Hv'].
  assert (E : map fst d = map fst (dict_of ps)) by (eapply first_occurrences_unique; [exact str_dec|exact Hk|exact Hk']).
  assert (M : forall p, In p d <-> In p (dict_of ps)) by (intros [k t]; rewrite Hv, Hv'; reflexivity).
  assert (ND : NoDup (map fst d)) by apply Hk. clear Hk Hk' Hv Hv'. revert E M ND. generalize (dict_of ps). clear ps.
  induction d as [|[k v] d IH]; intros [|[k' v'] e] E M ND; try discriminate; [reflexivity|].
  cbn [map fst] in E, ND. injection E as <- E. inversion ND as [|? ? Hn ND']; subst.
  assert (v = v').
  { destruct (proj1 (M (k, v)) (or_introl eq_refl)) as [[= ->]|Hin]; [reflexivity|]. exfalso. apply Hn. rewrite E. now apply (in_map fst) in Hin. }
  subst v'. f_equal. apply IH; [exact E| |exact ND'].
  intros p. specialize (M p). cbn [In] in M. split; intros Hp.
  - destruct (proj1 M (or_intror Hp)) as [<-|H]; [|exact H]. exfalso. apply Hn. now apply (in_map fst) in Hp.
  - destruct (proj2 M (or_intror Hp)) as [<-|H]; [|exact H]. exfalso. apply Hn. rewrite E. now apply (in_map fst) in Hp.
Qed.

(** ** conditions *)
Lemma states_snoc w c r caps : forall pos, states pos (w ++ [c]) r caps = states pos w (c :: r) caps ++ [mkst (pos + S (List.length w)) r caps].
Proof.
  induction w as [|d w IH]; intros pos; cbn [app states List.length].
  - now rewrite Nat.add_1_r.
  - rewrite IH. rewrite <- app_assoc. cbn [app]. do 4 f_equal. lia.
Qed.
Lemma rev_states w r caps pos : exists l, rev (states pos w r caps) = mkst (pos + List.length w) r caps :: l
  /\ forall st, In st l -> exists w1 c w2, w = w1 ++ c :: w2 /\ st = mkst (pos + List.length w1) (c :: w2 ++ r) caps.
Proof.
  revert r. induction w as [|c w IH] using rev_ind; intros r.
  - exists []. cbn. rewrite Nat.add_0_r. split; [reflexivity|intros st []].
  - destruct (IH (c :: r)) as (l & E & H). exists (mkst (pos + List.length w) (c :: r) caps :: l).
    rewrite states_snoc, rev_app_distr, E. cbn [rev app]. rewrite app_length. cbn [List.length]. rewrite Nat.add_1_r. split; [reflexivity|].
    intros st [<-|Hst]; [exists w, c, []; auto|]. apply H in Hst as (w1 & d & w2 & -> & ->). exists w1, d, (w2 ++ [c]).
    rewrite <- !app_assoc. auto.
Qed.

Definition re_text : re := RSeq (RCap 2 (RPlus (RChar not_bracket))) (RStar true (RChar is_space)).
Lemma stop_space rest : stops not_bracket rest -> stops is_space rest.
Proof.
  destruct rest as [|c rest]; [exact id|]. cbn [stops]. unfold not_bracket. intros H. apply andb_false_iff in H as [H|H];
  apply negb_false_iff, N.eqb_eq in H as ->; vm_compute; reflexivity.
Qed.
Lemma space_not_bracket c : is_space c = true -> not_bracket c = true.
Proof.
  intros H. destruct (not_bracket c) eqn:E; [reflexivity|]. assert (K : stops is_space [c]) by (apply stop_space; exact E). cbn in K. congruence.
Qed.
Lemma text_runs pos t rest caps : t <> [] -> forallb not_bracket t = true -> stops not_bracket rest ->
  hd_error (runs re_text (mkst pos (t ++ rest) caps)) = Some (mkst (pos + List.length t) rest ((2, t) :: caps)).
Proof.
  intros Hn F St. destruct t as [|c t]; [congruence|]. cbn [forallb] in F. apply andb_true_iff in F as [Hc F].
  unfold re_text. rewrite runs_seq, runs_cap. unfold RPlus. rewrite runs_seq. cbn [runs st_rest app st_pos st_caps]. rewrite Hc. cbn [flat_map]. rewrite app_nil_r.
  rewrite (star_greedy not_bracket t rest St F) by (cbn; rewrite app_length; lia).
  destruct (rev_states t rest caps (S pos)) as (l & E & _). rewrite E. cbn [map flat_map st_pos st_rest st_caps].
  replace (S pos + List.length t - pos) with (List.length (c :: t)) by (cbn [List.length]; lia).
  change (c :: t ++ rest) with ((c :: t) ++ rest). rewrite firstn_app, Nat.sub_diag, firstn_all, firstn_O, app_nil_r.
  rewrite <- (app_nil_l rest) at 1 2. rewrite (star_greedy is_space [] rest (stop_space _ St)) by (reflexivity || (cbn; lia)).
  cbn [states rev app hd_error List.length]. now rewrite Nat.add_succ_r.
Qed.
Lemma no_text_runs pos rest caps : stops not_bracket rest -> runs re_text (mkst pos rest caps) = [].
Proof.
  intros St. unfold re_text. rewrite runs_seq, runs_cap. unfold RPlus. rewrite runs_seq. cbn [runs st_rest].
  destruct rest as [|c rest]; [reflexivity|]. cbn in St. now rewrite St.
Qed.
Lemma hd_flat_map {A B} (f : A -> list B) a l b : hd_error (f a) = Some b -> hd_error (flat_map f (a :: l)) = Some b.
Proof. cbn [flat_map]. destruct (f a); [discriminate|]. cbn. auto. Qed.

Lemma leading_space s : exists a t, s = a ++ t /\ forallb is_space a = true /\ stops is_space t.
Proof.
  induction s as [|c s (a & t & -> & Ha & Ht)]; [exists [], []; cbn; auto|].
  destruct (is_space c) eqn:E; [exists (c :: a), t; cbn; rewrite E; auto|exists [], (c :: a ++ t); cbn; auto].
Qed.
Lemma bracket_free_forallb t : bracket_free t <-> forallb not_bracket t = true.
Proof.
  unfold bracket_free. rewrite forallb_forall. split.
  - intros [H1 H2] c Hc. unfold not_bracket. apply andb_true_iff. split; apply negb_true_iff, N.eqb_neq; intros ->; contradiction.
  - intros H. split; intros Hin; specialize (H _ Hin); vm_compute in H; discriminate.
Qed.
Lemma stop_bracket rest : stops not_bracket rest <-> rest = [] \/ exists t, rest = u "[" ++ t \/ rest = u "]" ++ t.
Proof.
  destruct rest as [|c rest]; cbn [stops]; [split; auto|]. unfold not_bracket. rewrite andb_false_iff, !negb_false_iff, !N.eqb_eq. split.
  - intros [-> | ->]; right; exists rest; [left|right]; reflexivity.
  - intros [[=]|(t & [[= -> _]|[= -> _]])]; [left|right]; reflexivity.
Qed.
(** \s* and the text *)
Lemma space_text_runs pos text rest caps : text <> [] -> forallb not_bracket text = true -> stops not_bracket rest ->
  exists g, hd_error (runs (RSeq (RStar true (RChar is_space)) re_text) (mkst pos (text ++ rest) caps))
              = Some (mkst (pos + List.length text) rest ((2, g) :: caps)) /\ strip g = strip text.
Proof.
  intros Hn F St. destruct (leading_space text) as (sp & t & -> & Hsp & Ht). rewrite forallb_app in F. apply andb_true_iff in F as [_ F].
  rewrite runs_seq. cbn [runs]. rewrite <- app_assoc.
  assert (St' : stops is_space (t ++ rest)) by (destruct t; [now apply stop_space|exact Ht]).
  rewrite (star_greedy is_space sp (t ++ rest) St' Hsp) by (cbn [st_rest]; rewrite app_length; lia).
  destruct t as [|c t].
  - destruct sp as [|c sp _] using rev_ind; [contradiction Hn; reflexivity|]. rewrite app_nil_r. cbn [app]. rewrite states_snoc, rev_app_distr. cbn [rev app].
    destruct (rev_states sp (c :: rest) caps pos) as (l & E & _). rewrite E. cbn [flat_map]. change (flat_map (runs re_text) l) with (flat_map (runs re_text) l).
    rewrite no_text_runs by exact St. cbn [app]. exists [c]. split.
    + assert (K : hd_error (runs re_text (mkst (pos + List.length sp) ([c] ++ rest) caps)) = Some (mkst (pos + List.length sp + 1) rest ((2, [c]) :: caps))).
      { apply text_runs; [discriminate| |exact St]. cbn. rewrite space_not_bracket; [reflexivity|].
        rewrite forallb_app in Hsp. apply andb_true_iff in Hsp as [_ Hsp]. cbn in Hsp. now rewrite andb_true_r in Hsp. }
      cbn [app] in K. apply (hd_flat_map _ _ l) in K. cbn [flat_map] in K. rewrite K. rewrite app_length. cbn [List.length]. now rewrite Nat.add_assoc.
    + assert (B : blank [c] /\ blank (sp ++ [c])).
      { apply all_forallb in Hsp. split; [|exact Hsp]. now apply blank_app in Hsp as [_ Hsp]. }
      destruct B as [B1 B2]. apply strip_nil in B1. apply strip_nil in B2. now rewrite B1, B2.
  - destruct (rev_states sp ((c :: t) ++ rest) caps pos) as (l & E & _). rewrite E. exists (c :: t). split.
    + apply hd_flat_map. rewrite text_runs by (first [discriminate|assumption]). rewrite app_length. now rewrite Nat.add_assoc.
    + apply all_forallb in Hsp. unfold strip. now rewrite lstrip_app.
Qed.
Lemma decimal_not_bracket c : is_decimal c = true -> N.eqb chr_rbracket c = false.
Proof. intros H. apply N.eqb_neq. intros <-. vm_compute in H. discriminate. Qed.
Lemma condition_runs s k text rest pos : begins_with s k text rest ->
  exists g, hd_error (runs re_bedingung (mkst pos s [])) = Some (mkst (pos + (2 + List.length k + List.length text)) rest [(2, g); (1, k)])
    /\ strip g = strip text.
Proof.
  intros (-> & (Hk & Fk) & Ht & Hb & Hr). apply bracket_free_forallb in Hb. apply stop_bracket in Hr. apply all_forallb in Fk.
  unfold re_bedingung. rewrite runs_seq. change (u "[") with [chr_lbracket]. rewrite runs_lit_hit. cbn [flat_map]. rewrite app_nil_r. rewrite runs_seq.
  destruct k as [|c k]; [congruence|]. cbn [forallb] in Fk. apply andb_true_iff in Fk as [Hc Fk].
  rewrite runs_cap. change (RPlus (RChar is_decimal)) with (RSeq (RChar is_decimal) (RStar true (RChar is_decimal))).
  rewrite runs_seq. cbn [runs st_rest app st_pos st_caps]. rewrite Hc. cbn [flat_map]. rewrite app_nil_r.
  assert (St : stops is_decimal (u "]" ++ text ++ rest)) by (vm_compute; reflexivity).
  rewrite (star_greedy is_decimal k _ St Fk) by (cbn; rewrite app_length; lia).
  destruct (rev_states k (u "]" ++ text ++ rest) [] (S (pos + List.length [chr_lbracket]))) as (l & E & _). rewrite E. cbn [map st_pos st_rest st_caps].
  assert (K : exists g, hd_error (runs (RSeq (RLit [chr_rbracket]) (RSeq (RStar true (RChar is_space)) re_text))
     (mkst (S (pos + List.length [chr_lbracket]) + List.length k) (u "]" ++ text ++ rest) [(1, c :: k)]))
     = Some (mkst (pos + (2 + List.length (c :: k) + List.length text)) rest [(2, g); (1, c :: k)]) /\ strip g = strip text).
  { rewrite runs_seq. change (u "]") with [chr_rbracket]. rewrite runs_lit_hit. cbn [flat_map]. rewrite app_nil_r.
    match goal with |- context [runs (RSeq (RStar true (RChar is_space)) re_text) (mkst ?p _ ?cs)] =>
      destruct (space_text_runs p text rest cs Ht Hb Hr) as (g & Hg & Hs) end.
    exists g. split; [|exact Hs]. rewrite Hg. do 2 f_equal. cbn [List.length]. lia. }
  destruct K as (g & Hg & Hs). exists g. split; [|exact Hs]. apply hd_flat_map.
  match goal with |- context [firstn ?n ?z] => replace (firstn n z) with (c :: k); [exact Hg|] end.
  match goal with |- context [firstn ?n ?z] => replace n with (List.length (c :: k)) by (cbn [List.length]; lia); change z with ((c :: k) ++ (u "]" ++ text ++ rest)) end.
  now rewrite firstn_app, Nat.sub_diag, firstn_all, firstn_O, app_nil_r.
Qed.
Lemma condition_found s pos st l : runs re_bedingung (mkst pos s []) = st :: l -> exists k text rest, begins_with s k text rest.
Proof.
  intros E.
  destruct (runs_acc re_bedingung (mkst pos s [])) as [A _]. specialize (A st). rewrite E in A. specialize (A (or_introl eq_refl)). cbn [st_pos st_rest] in A.
  unfold re_bedingung in A. apply acc_seq in A as (m1 & A1 & A). apply acc_lit in A1 as ->.
  apply acc_seq in A as (m2 & A1 & A). apply acc_cap, acc_plus_char in A1 as (k & -> & Hk & Fk).
  apply acc_seq in A as (m3 & A1 & A). apply acc_lit in A1 as ->.
  apply acc_seq in A as (m4 & A1 & A). apply acc_star_char in A1 as (sp & -> & Fs).
  apply acc_seq in A as (m5 & A1 & A). apply acc_cap, acc_plus_char in A1 as (t & -> & Ht & Ft).
  assert (K : exists x r, sp ++ t ++ m5 = x ++ r /\ x <> [] /\ forallb not_bracket x = true /\ stops not_bracket r).
  { assert (P : forall a b : pystr, forallb not_bracket a = true -> exists x r, a ++ b = x ++ r /\ (a <> [] -> x <> []) /\ forallb not_bracket x = true /\ stops not_bracket r).
    { induction a as [|c a IH]; cbn [app forallb]; intros b Fa.
      - clear. induction b as [|c b (x & r & E & _ & F & St)]; [exists [], []; cbn; auto|].
        destruct (not_bracket c) eqn:Ec.
        + exists (c :: x), r. cbn [app forallb]. rewrite Ec, E, F. auto.
        + exists [], (c :: b). cbn. auto.
      - apply andb_true_iff in Fa as [Hc Fa]. destruct (IH b Fa) as (x & r & -> & _ & F & St). exists (c :: x), r. cbn [app forallb]. rewrite Hc, F.
        split; [reflexivity|]. split; [discriminate|auto]. }
    rewrite app_assoc. destruct (P (sp ++ t) m5) as (x & r & E' & Hx & F & St).
    - rewrite forallb_app, Ft, andb_true_r. apply forallb_forall. intros c Hc. apply space_not_bracket. rewrite forallb_forall in Fs. auto.
    - exists x, r. split; [exact E'|]. split; [|auto]. apply Hx. intros K. apply app_eq_nil in K as [_ K]. contradiction. }
  destruct K as (x & r & -> & Hx & Fx & St). exists k, x, r. split; [reflexivity|]. split; [split; [exact Hk|now apply all_forallb]|].
  split; [exact Hx|]. split; [now apply bracket_free_forallb|now apply stop_bracket].
Qed.
Lemma condition_match s pos : ~ (exists k text rest, begins_with s k text rest) -> hd_error (runs re_bedingung (mkst pos s [])) = None.
Proof.
  intros H. destruct (runs re_bedingung (mkst pos s [])) as [|st l] eqn:E; [reflexivity|]. exfalso. apply H. eapply condition_found, E.
Qed.
Definition text_of (m : rst) (n : nat) : pystr := match group n m with Some g => g | None => [] end.
Definition pair_of (m : rst) : pystr * pystr := (text_of m 1, strip (text_of m 2)).
Lemma finditer_conditions s l : conditions_in s l -> forall pos, map pair_of (finditer_go re_bedingung pos 0 s) = l.
Proof.
  induction 1 as [|s k text t rest l Hb Hs H IH|c s l Hb H IH]; intros pos; [reflexivity| |].
  - destruct (condition_runs s k text rest pos Hb) as (g & Hg & Es). pose proof Hb as (-> & _).
    replace (u "[" ++ k ++ u "]" ++ text ++ rest) with ((u "[" ++ k ++ u "]" ++ text) ++ rest) in * by (now rewrite <- !app_assoc).
    assert (L : List.length (u "[" ++ k ++ u "]" ++ text) = 2 + List.length k + List.length text).
    { rewrite !app_length. change (List.length (u "[")) with 1. change (List.length (u "]")) with 1. lia. }
    rewrite (finditer_hit re_bedingung (u "[" ++ k ++ u "]" ++ text) rest pos _ ltac:(discriminate) Hg) by (cbn [st_pos]; now rewrite L).
    cbn [map]. rewrite IH. f_equal. unfold pair_of, text_of, group. cbn [find fst snd st_caps Nat.eqb]. rewrite Es. apply stripped_unique in Hs as <-. reflexivity.
  - cbn [finditer_go]. rewrite (condition_match _ _ Hb). apply IH.
Qed.
Lemma condition_dec s : (exists k text rest, begins_with s k text rest) \/ ~ (exists k text rest, begins_with s k text rest).
Proof.
  destruct (runs re_bedingung (mkst 0 s [])) as [|st l] eqn:E.
  - right. intros (k & text & rest & H). apply (condition_runs _ _ _ _ 0) in H as (g & Hg & _). rewrite E in Hg. discriminate.
  - left. eapply condition_found, E.
Qed.
Lemma begins_with_fun s k text rest k' text' rest' : begins_with s k text rest -> begins_with s k' text' rest' -> strip text = strip text' /\ k = k' /\ rest = rest'.
Proof.
  intros H H'. apply (condition_runs _ _ _ _ 0) in H as (g & Hg & E). apply (condition_runs _ _ _ _ 0) in H' as (g' & Hg' & E').
  rewrite Hg in Hg'. injection Hg' as _ -> -> ->. split; [congruence|auto].
Qed.
Lemma conditions_total : forall n s, List.length s <= n -> exists l, conditions_in s l.
Proof.
  induction n as [|n IH]; intros s L; [destruct s; [exists []; constructor|cbn in L; lia]|].
  destruct s as [|c s]; [exists []; constructor|].
  destruct (condition_dec (c :: s)) as [(k & text & rest & H)|H].
  - destruct (IH rest) as (l & Hl).
    + destruct H as (E & _). apply (f_equal (@List.length char)) in E. rewrite !app_length in E. change (List.length (u "[")) with 1 in E. cbn [List.length] in *. lia.
    + exists ((k, strip text) :: l). econstructor; [exact H|apply strip_spec|exact Hl].
  - destruct (IH s) as (l & Hl); [cbn in L; lia|]. exists l. now constructor.
Qed.
Lemma fold_pairs (l : list rst) : forall d, fold_left (fun d m => dict_set (text_of m 1) (strip (text_of m 2)) d) l d = dict_update d (map pair_of l).
Proof. unfold dict_update. induction l as [|m l IH]; intros d; cbn [fold_left map]; [reflexivity|]. apply IH. Qed.
Lemma extract_eq s l : conditions_in s l -> extract_bedingungen (Some s) = dict_of l.
Proof.
  intros H. cbn [extract_bedingungen]. destruct (truthy s) eqn:T; cbn [negb].
  - rewrite (fold_pairs (finditer re_bedingung s)). unfold finditer. now rewrite (finditer_conditions s l H 0).
  - destruct s; [|discriminate]. assert (l = []) by (rewrite <- (finditer_conditions [] l H 0); reflexivity). subst. reflexivity.
Qed.
Lemma extract_ok s d : extract_bedingungen (Some s) = d <-> exists l, conditions_in s l /\ last_wins l d.
Proof.
  split.
  - intros <-. destruct (conditions_total (List.length s) s) as (l & Hl); [lia|]. exists l. split; [exact Hl|].
    rewrite (extract_eq s l Hl). apply last_wins_dict_of.
  - intros (l & Hl & Hd). rewrite (extract_eq s l Hl). symmetry. now apply last_wins_unique.
Qed.
(** ** the common case *)
Lemma skip_conditions w s l : ~ In chr_lbracket w -> conditions_in s l -> conditions_in (w ++ s) l.
Proof.
  intros Hw H. induction w as [|c w IH]; [exact H|]. cbn [app]. constructor; [|apply IH; intros K; apply Hw; cbn; auto].
  intros (k & text & rest & E & _). apply Hw. cbn in E. injection E as -> _. cbn; auto.
Qed.
Lemma listing_starts cs : listing cs = [] \/ exists t, listing cs = u "[" ++ t.
Proof. destruct cs as [|kt cs]; [auto|]. right. cbn [listing flat_map]. rewrite <- !app_assoc. eauto. Qed.
Lemma conditions_listing cs : (forall k t, In (k, t) cs -> condition_key k /\ bracket_free t) ->
  exists l, Forall2 trimmed (with_text cs) l /\ conditions_in (listing cs) l.
Proof.
  induction cs as [|[k t] cs IH]; intros H; [exists []; split; constructor|].
  destruct IH as (l & Hf & Hl); [intros k' t' Hin; apply H; cbn; auto|].
  destruct (H k t (or_introl eq_refl)) as [Hk Ht]. cbn [listing flat_map with_text filter fst snd]. fold (listing cs) (with_text cs).
  destruct t as [|c t].
  - exists l. split; [exact Hf|]. rewrite app_nil_r. rewrite <- !app_assoc.
    change (u "[" ++ k ++ u "]" ++ listing cs) with (chr_lbracket :: (k ++ u "]" ++ listing cs)). constructor.
    + intros (k' & text & rest & E & Hk' & Htext & Hb & _). cbn [app u] in E. change (u "[" ++ k' ++ u "]" ++ text ++ rest) with (chr_lbracket :: (k' ++ u "]" ++ text ++ rest)) in E.
      injection E as E. apply split_first in E as [-> E].
      * destruct text as [|c text]; [congruence|]. destruct (listing_starts cs) as [L|(x & L)]; rewrite L in E; [discriminate|].
        injection E as <- _. destruct Hb as [Hb _]. apply Hb. cbn; auto.
      * destruct Hk as [_ Hk]. apply (not_in_all is_decimal); [exact Hk|vm_compute; reflexivity].
      * destruct Hk' as [_ Hk']. apply (not_in_all is_decimal); [exact Hk'|vm_compute; reflexivity].
    + rewrite app_assoc. apply skip_conditions; [|exact Hl]. intros K. apply in_app_or in K as [K|[K|[]]]; [|vm_compute in K; discriminate].
      destruct Hk as [_ Hk]. revert K. apply (not_in_all is_decimal); [exact Hk|vm_compute; reflexivity].
  - exists ((k, strip (c :: t)) :: l). split.
    + constructor; [|exact Hf]. split; [reflexivity|apply strip_spec].
    + apply conditions_here with (text := c :: t) (rest := listing cs); [|apply strip_spec|exact Hl].
      split; [now rewrite <- !app_assoc|]. split; [exact Hk|]. split; [discriminate|]. split; [exact Ht|].
      destruct (listing_starts cs) as [L|(x & L)]; [auto|right; exists x; auto].
Qed.

(** ** one row *)
Lemma cell_ok r key v : cell r key = Ok v <-> has r key v.
Proof. unfold cell, has. destruct (dict_get key r); split; congruence. Qed.
Lemma cell_raise r key e : cell r key = Raise e <-> ~ column r key /\ e = KeyError.
Proof.
  unfold cell, column, has. destruct (dict_get key r) as [v|]; split.
  - discriminate.
  - intros [H _]. exfalso. apply H. eauto.
  - intros [= <-]. split; [intros (v & [=])|reflexivity].
  - intros [_ ->]. reflexivity.
Qed.
Lemma cell_value_or_none c : cell_value c (or_none c).
Proof. destruct c as [[|a s]|]; unfold or_none; cbn; constructor. discriminate. Qed.
Lemma cell_value_unique c v : cell_value c v -> v = or_none c.
Proof. intros H. inversion H as [| |s Hs]; subst; [reflexivity|reflexivity|]. destruct s; [congruence|reflexivity]. Qed.
Lemma is_segment_group_ok o : is_segment_group o = true <-> exists g, o = Some g /\ code_like g.
Proof.
  destruct o as [s|]; cbn [is_segment_group]; [|split; [discriminate|intros (g & [=] & _)]]. split.
  - destruct (negb (truthy s)); [discriminate|]. intros H. exists s. split; [reflexivity|now apply match_code].
  - intros (g & [= <-] & H). assert (T : truthy s = true).
    { apply truthy_true. intros ->. destruct H as (w & n & E & L & _). destruct w; [cbn in L; lia|discriminate]. }
    rewrite T. cbn [negb]. now apply match_code.
Qed.
Lemma table_lookup (k1 k2 k3 r1 r2 r3 s : pystr) b :
  (if str_in s (map fst [(k1, r1); (k2, r2); (k3, r3)]) then
     match dict_get s [(k1, r1); (k2, r2); (k3, r3)] with Some r => Ok (Some r) | None => Raise KeyError end
   else Ok (Some s)) = Ok b ->
  Some s = Some k1 /\ b = Some r1 \/ Some s = Some k2 /\ b = Some r2 \/ Some s = Some k3 /\ b = Some r3
  \/ Some s <> Some k1 /\ Some s <> Some k2 /\ Some s <> Some k3 /\ b = Some s.
Proof.
  intros H. destruct (str_in s _) eqn:E.
  - cbn [dict_get] in H. destruct (str_eqb_spec s k1) as [-> |N1]; [left; split; congruence|].
    destruct (str_eqb_spec s k2) as [-> |N2]; [right; left; split; congruence|].
    destruct (str_eqb_spec s k3) as [-> |N3]; [right; right; left; split; congruence|discriminate].
  - apply str_in_nIn in E. cbn [map fst In] in E. right; right; right. injection H as <-.
    split; [|split; [|split]]; [intros K; injection K as K; apply E; auto..|reflexivity].
Qed.
Lemma table_none (k1 k2 k3 r1 r2 r3 : pystr) (a : option pystr) : (forall c s, a <> Some (c :: s)) -> truthy k1 = true -> truthy k2 = true -> truthy k3 = true ->
  a = Some k1 /\ a = Some r1 \/ a = Some k2 /\ a = Some r2 \/ a = Some k3 /\ a = Some r3
  \/ a <> Some k1 /\ a <> Some k2 /\ a <> Some k3 /\ a = a.
Proof.
  intros H T1 T2 T3. right; right; right. assert (K : forall k, truthy k = true -> a <> Some k) by (intros [|c s]; [discriminate|auto]). auto.
Qed.
Lemma replace_section_ok a b : replace_hardcoded_section_names a = Ok b -> (forall s, a = Some s -> stripped s s) -> published_section a b.
Proof.
  intros H Hs. destruct a as [s|]; cbn [replace_hardcoded_section_names] in H.
  - specialize (Hs s eq_refl). apply stripped_unique in Hs. destruct (truthy s) eqn:T; cbn [negb] in H.
    + rewrite Hs in H. exact (table_lookup _ _ _ _ _ _ _ _ H).
    + injection H as <-. destruct s; [|discriminate]. unfold published_section. apply table_none; [discriminate|vm_compute; reflexivity..].
  - injection H as <-. unfold published_section. apply table_none; [discriminate|vm_compute; reflexivity..].
Qed.
Lemma replace_section_total a : (forall s, a = Some s -> stripped s s) -> exists b, replace_hardcoded_section_names a = Ok b.
Proof.
  intros Hs. destruct a as [s|]; cbn [replace_hardcoded_section_names]; [|eauto]. specialize (Hs s eq_refl). apply stripped_unique in Hs.
  destruct (negb (truthy s)); [eauto|]. rewrite Hs. destruct (str_in s (map fst hardcoded_replacements)) eqn:E; [|eauto].
  apply str_in_In in E. destruct (dict_get s hardcoded_replacements) as [r|] eqn:G; [eauto|]. exfalso. apply dict_get_None in G. contradiction.
Qed.
Lemma comes_back_clean a b : comes_back_as a b -> forall s, b = Some s -> stripped s s.
Proof.
  intros H s ->. inversion H as [| |s' t Ht Hn]; subst. apply stripped_unique in Ht as <-.
  pose proof (strip_spec (strip s')) as K. now rewrite strip_involutive in K.
Qed.

(** the line made of a row, before it gets its index *)
Definition line_from (p : pystr) (guid : N) (section : option pystr) (r : row) (g : option pystr) (l : AhbLine) : Prop :=
  al_group l = g
    /\ (exists c, has r (u "Segment") c /\ cell_value c (al_segment l))
    /\ (exists c, has r (u "Datenelement") c /\ cell_value c (al_element l))
    /\ (exists c, has r p c /\ cell_value c (al_expression l))
    /\ (exists x y, has r (u "Codes und Qualifier") x /\ has r (u "Beschreibung") y /\ separated x y (al_entry l) (al_name l))
    /\ published_section section (al_section l)
    /\ al_guid l = Some guid /\ al_index l = None /\ al_segment_id l = None /\ al_conditions l = None.

Lemma row_sound p guid section bed r sec' bed' ol : (forall s, section = Some s -> stripped s s) ->
  raw_ahb_row_to_ahbline p guid section bed r = Ok (sec', bed', ol) ->
  (exists b, has r (u "Bedingung") b /\ bed' = dict_update bed (extract_bedingungen b))
  /\ ((exists t, section_row r t /\ comes_back_as (Some t) sec' /\ ol = None)
      \/ (exists g l, line_row r g /\ sec' = section /\ ol = Some l /\ line_from p guid section r g l)).
Proof.
  intros Hs H. unfold raw_ahb_row_to_ahbline in H.
  apply bind_ok in H as (x & Hx & H). apply cell_ok in Hx. apply bind_ok in H as (y & Hy & H). apply cell_ok in Hy.
  destruct (separate_value_pool_entry_and_name x y) as [e n] eqn:Es. apply separate_spec in Es.
  apply bind_ok in H as (b & Hb & H). apply cell_ok in Hb. cbv zeta in H.
  apply bind_ok in H as (g & Hg & H). apply cell_ok in Hg.
  assert (L : forall g', line_row r g' ->
    (let* segment := cell r (u "Segment") in
     let* data_element := cell r (u "Datenelement") in
     let* expression := cell r p in
     let* section_name := replace_hardcoded_section_names section in
     let* l := new_AhbLine (mkLine (Some guid) g' (or_none segment) (or_none data_element) None e n (or_none expression) None section_name None) in
     Ok (section, dict_update bed (extract_bedingungen b), Some l)) = Ok (sec', bed', ol) ->
    bed' = dict_update bed (extract_bedingungen b) /\ exists g l, line_row r g /\ sec' = section /\ ol = Some l /\ line_from p guid section r g l).
  { clear H. intros g' Hg' H. apply bind_ok in H as (sg & Hsg & H). apply cell_ok in Hsg. apply bind_ok in H as (de & Hde & H). apply cell_ok in Hde.
    apply bind_ok in H as (ex & Hex & H). apply cell_ok in Hex. apply bind_ok in H as (sn & Hsn & H). apply bind_ok in H as (l & Hl & H).
    unfold new_AhbLine in Hl. apply bind_ok in Hl as (x' & _ & Hl). injection Hl as Hl.
    assert (bed' = dict_update bed (extract_bedingungen b) /\ sec' = section /\ ol = Some l) as (-> & -> & ->) by (repeat split; congruence).
    split; [reflexivity|]. exists g', l. split; [exact Hg'|]. split; [reflexivity|]. split; [reflexivity|]. subst l.
    unfold line_from. cbn [al_guid al_group al_segment al_element al_segment_id al_entry al_name al_expression al_conditions al_section al_index].
    split; [reflexivity|]. split; [exists sg; split; [exact Hsg|apply cell_value_or_none]|].
    split; [exists de; split; [exact Hde|apply cell_value_or_none]|]. split; [exists ex; split; [exact Hex|apply cell_value_or_none]|].
    split; [exists x, y; auto|]. split; [now apply replace_section_ok|]. auto. }
  destruct (is_segment_group g) eqn:Eg.
  - apply is_segment_group_ok in Eg as (g' & -> & Hc). apply L in H as [-> H]; [|now constructor].
    split; [exists b; auto|right; exact H].
  - destruct g as [g|]; [|discriminate].
    assert (Hc : ~ code_like g) by (intros K; assert (is_segment_group (Some g) = true) by (apply is_segment_group_ok; eauto); congruence).
    destruct (3 <=? List.length g) eqn:E3.
    + apply Nat.leb_le in E3.
      assert (bed' = dict_update bed (extract_bedingungen b) /\ sec' = or_none (Some (strip g)) /\ ol = None) as (-> & -> & ->) by (repeat split; congruence).
      split; [exists b; auto|left]. exists g. split; [repeat split; auto|]. split; [apply (comes_back_strip (Some g))|reflexivity].
    + apply Nat.leb_gt in E3. apply L in H as [-> H]; [|econstructor; [exact Hg|exact Hc|lia]]. split; [exists b; auto|right; exact H].
Qed.
Lemma row_total p guid section bed r : (forall s, section = Some s -> stripped s s) ->
  ((exists x, raw_ahb_row_to_ahbline p guid section bed r = Ok x) <-> readable_row p r).
Proof.
  intros Hs. split.
  - intros ([[sec' bed'] ol] & H). unfold raw_ahb_row_to_ahbline in H.
    apply bind_ok in H as (x & Hx & H). apply cell_ok in Hx. apply bind_ok in H as (y & Hy & H). apply cell_ok in Hy.
    destruct (separate_value_pool_entry_and_name x y) as [e n].
    apply bind_ok in H as (b & Hb & H). apply cell_ok in Hb. cbv zeta in H. apply bind_ok in H as (g & Hg & H). apply cell_ok in Hg.
    split; [now exists x|]. split; [now exists y|]. split; [now exists b|].
    assert (L : forall g', 
      (let* segment := cell r (u "Segment") in
       let* data_element := cell r (u "Datenelement") in
       let* expression := cell r p in
       let* section_name := replace_hardcoded_section_names section in
       let* l := new_AhbLine (mkLine (Some guid) g' (or_none segment) (or_none data_element) None e n (or_none expression) None section_name None) in
       Ok (section, dict_update bed (extract_bedingungen b), Some l)) = Ok (sec', bed', ol) ->
       column r (u "Segment") /\ column r (u "Datenelement") /\ column r p /\ forall s, has r p (Some s) -> blank s -> s = []).
    { clear H. intros g' H. apply bind_ok in H as (sg & Hsg & H). apply cell_ok in Hsg. apply bind_ok in H as (de & Hde & H). apply cell_ok in Hde.
      apply bind_ok in H as (ex & Hex & H). apply cell_ok in Hex. apply bind_ok in H as (sn & Hsn & H). apply bind_ok in H as (l & Hl & H).
      split; [now exists sg|]. split; [now exists de|]. split; [now exists ex|]. intros s Hp Bs.
      assert (ex = Some s) as -> by (unfold has in *; congruence). destruct s as [|c s]; [reflexivity|]. exfalso.
      unfold new_AhbLine, check_AhbLine in Hl. cbn [al_expression al_index] in Hl. apply bind_ok in Hl as (u1 & Hl & _). apply bind_ok in Hl as (u2 & Hl & _).
      unfold or_none in Hl. cbn [otruthy truthy check_optional] in Hl. destruct u2. apply check_not_blank_ok in Hl as (s' & [= <-] & Hb'). contradiction. }
    destruct (is_segment_group g) eqn:Eg.
    + apply L in H. pose proof Eg as Eg'. apply is_segment_group_ok in Eg' as (g' & -> & _). split; [now exists g'|]. intros g0 _. exact H.
    + destruct g as [g|]; [|discriminate]. split; [now exists g|].
      assert (Hc : ~ code_like g) by (intros K; assert (is_segment_group (Some g) = true) by (apply is_segment_group_ok; eauto); congruence).
      destruct (3 <=? List.length g) eqn:E3.
      * apply Nat.leb_le in E3. intros g0 Hg0. exfalso. inversion Hg0 as [g1 H1 H2|g1 H1 H2 H3]; subst; assert (g1 = g) by (unfold has in *; congruence); subst; [contradiction|lia].
      * apply L in H. intros g0 _. exact H.
  - intros ((x & Hx) & (y & Hy) & (b & Hb) & (g & Hg) & Hl). unfold raw_ahb_row_to_ahbline.
    apply cell_ok in Hx, Hy, Hb. rewrite Hx. cbn [bind]. rewrite Hy. cbn [bind]. destruct (separate_value_pool_entry_and_name x y) as [e n].
    rewrite Hb. cbn [bind]. cbv zeta. assert (Hg' := Hg). apply cell_ok in Hg'. rewrite Hg'. cbn [bind].
    assert (L : forall g0 g', line_row r g0 -> exists z, 
      (let* segment := cell r (u "Segment") in
       let* data_element := cell r (u "Datenelement") in
       let* expression := cell r p in
       let* section_name := replace_hardcoded_section_names section in
       let* l := new_AhbLine (mkLine (Some guid) g' (or_none segment) (or_none data_element) None e n (or_none expression) None section_name None) in
       Ok (section, dict_update bed (extract_bedingungen b), Some l)) = Ok z).
    { intros g0 g' H0. destruct (Hl g0 H0) as ((sg & Hsg) & (de & Hde) & (ex & Hex) & Hbl). destruct (replace_section_total section Hs) as (sn & Hsn).
      assert (Hex' := Hex). apply cell_ok in Hsg, Hde, Hex'. rewrite Hsg, Hde, Hex'. cbn [bind]. rewrite Hsn. cbn [bind].
      match goal with |- context [new_AhbLine ?a] => assert (K : new_AhbLine a = Ok a) end.
      { unfold new_AhbLine, check_AhbLine. cbn [al_expression al_index check_optional]. destruct ex as [[|c s]|]; unfold or_none; cbn [otruthy truthy check_optional bind]; [reflexivity| |reflexivity].
        assert (N : ~ blank (c :: s)) by (intros B; specialize (Hbl _ Hex B); discriminate).
        assert (Q : check_not_blank (Some (c :: s)) = Ok tt) by (apply check_not_blank_ok; eauto). match goal with |- context [check_not_blank ?z] => replace (check_not_blank z) with (Ok tt) by (symmetry; exact Q) end. reflexivity. }
      rewrite K. cbn [bind]. eauto. }
    destruct (is_segment_group (Some g)) eqn:Eg.
    + pose proof Eg as Eg'. apply is_segment_group_ok in Eg' as (g' & [= <-] & Hc). apply (L (Some g)). now constructor.
    + assert (Hc : ~ code_like g) by (intros K; assert (is_segment_group (Some g) = true) by (apply is_segment_group_ok; eauto); congruence).
      destruct (3 <=? List.length g) eqn:E3; [eauto|]. apply Nat.leb_gt in E3. apply (L None). econstructor; [exact Hg|exact Hc|lia].
Qed.
Lemma row_raise p guid section bed r e : (forall s, section = Some s -> stripped s s) ->
  raw_ahb_row_to_ahbline p guid section bed r = Raise e -> e = KeyError \/ e = TypeError \/ e = ValueError.
Proof.
  intros Hs. unfold raw_ahb_row_to_ahbline.
  assert (C : forall A (k : option pystr -> result A) key, (forall v, k v = Raise e -> e = KeyError \/ e = TypeError \/ e = ValueError) ->
    bind (cell r key) k = Raise e -> e = KeyError \/ e = TypeError \/ e = ValueError).
  { intros A k key Hk. destruct (cell r key) as [v|e'] eqn:E; cbn [bind]; [apply Hk|]. intros [= ->]. apply cell_raise in E as [_ ->]. auto. }
  apply C. intros x. apply C. intros y. destruct (separate_value_pool_entry_and_name x y) as [en n]. apply C. intros b. cbv zeta. apply C. intros g.
  assert (L : forall g', 
      (let* segment := cell r (u "Segment") in
       let* data_element := cell r (u "Datenelement") in
       let* expression := cell r p in
       let* section_name := replace_hardcoded_section_names section in
       let* l := new_AhbLine (mkLine (Some guid) g' (or_none segment) (or_none data_element) None en n (or_none expression) None section_name None) in
       Ok (section, dict_update bed (extract_bedingungen b), Some l)) = Raise e -> e = KeyError \/ e = TypeError \/ e = ValueError).
  { intros g'. apply C. intros sg. apply C. intros de. apply C. intros ex. destruct (replace_section_total section Hs) as (sn & Hsn). rewrite Hsn. cbn [bind].
    unfold new_AhbLine, check_AhbLine. cbn [al_expression al_index check_optional]. destruct (or_none ex) as [s|]; cbn [check_optional bind]; [|discriminate].
    destruct (check_not_blank (Some s)) as [q|e'] eqn:Q; cbn [bind]; [discriminate|]. apply check_not_blank_raise in Q as ->. intros [= <-]. auto. }
  destruct (is_segment_group g); [apply L|]. destruct g as [g|]; [|intros [= <-]; auto]. destruct (3 <=? List.length g); [discriminate|apply L].
Qed.

(** ** all rows *)
Definition lines_upto (n : nat) (p : pystr) (guids : nat -> N) (rows : list row) (lines : list AhbLine) : Prop :=
  exists positions,
    (forall a i b j c, positions = a ++ i :: b ++ j :: c -> i < j)
    /\ (forall i, In i positions <-> i < n /\ exists r g, nth_error rows i = Some r /\ line_row r g)
    /\ Forall2 (line_at p guids rows) positions lines.
Definition conditions_upto (rows : list row) (d : list (pystr * pystr)) : Prop :=
  exists cells l, Forall2 (fun r c => has r (u "Bedingung") c) rows cells /\ all_conditions cells l /\ last_wins l d.

Lemma line_and_section r g t : line_row r g -> section_row r t -> False.
Proof.
  intros H (H1 & H2 & H3). inversion H as [g1 K1 K2|g1 K1 K2 K3]; subst; assert (g1 = t) by (unfold has in *; congruence); subst; [contradiction|lia].
Qed.
Lemma line_row_fun r g g' : line_row r g -> line_row r g' -> g = g'.
Proof.
  intros H H'. inversion H as [g1 K1 K2|g1 K1 K2 K3]; subst; inversion H' as [g2 J1 J2|g2 J1 J2 J3]; subst;
    assert (g1 = g2) by (unfold has in *; congruence); subst; congruence.
Qed.
Lemma section_at_clean rows i s : section_at rows i s -> forall x, s = Some x -> stripped x x.
Proof.
  intros [(j & r & t & _ & _ & _ & H & _)|(_ & ->)]; [eapply comes_back_clean; exact H|discriminate].
Qed.
Lemma all_conditions_app a b la lb : all_conditions a la -> all_conditions b lb -> all_conditions (a ++ b) (la ++ lb).
Proof.
  induction 1 as [|cells l H IH|s cells l l' Hs H IH]; intros Hb; cbn [app]; [exact Hb|constructor; auto|].
  rewrite <- app_assoc. constructor; auto.
Qed.

Lemma read_rows_spec p guids rows : forall rest done st st', rows = done ++ rest ->
  section_at rows (List.length done) (rd_section st) -> lines_upto (List.length done) p guids rows (rd_rows st) -> conditions_upto done (rd_bedingungen st) ->
  read_rows p guids (List.length done) st rest = Ok st' ->
  lines_upto (List.length rows) p guids rows (rd_rows st') /\ conditions_upto rows (rd_bedingungen st').
Proof.
  induction rest as [|r rest IH]; intros done st st' E Hs Hl Hc H; cbn [read_rows] in H.
  - injection H as <-. rewrite app_nil_r in E. subst done. auto.
  - apply bind_ok in H as ([[sec bed] ol] & Hr & H).
    apply row_sound in Hr as [(b & Hb & ->) Hr]; [|eapply section_at_clean; exact Hs].
    assert (N : nth_error rows (List.length done) = Some r) by (rewrite E, nth_error_app2, Nat.sub_diag; [reflexivity|lia]).
    assert (L : List.length (done ++ [r]) = S (List.length done)) by (rewrite app_length; cbn; lia).
    rewrite <- L in H. eapply IH in H; [exact H|now rewrite <- app_assoc| | |]; cbn [rd_section rd_rows rd_bedingungen].
    + rewrite L. destruct Hr as [(t & Ht & Hsec & _)|(g & l & Hg & -> & _)].
      * left. exists (List.length done), r, t. split; [lia|]. split; [exact N|]. split; [exact Ht|]. split; [exact Hsec|]. intros k r' Hk. lia.
      * assert (Q : forall r' t', nth_error rows (List.length done) = Some r' -> ~ section_row r' t').
        { intros r' t' Hn. assert (r' = r) by congruence. subst. intros K. eapply line_and_section; eauto. }
        destruct Hs as [(j & rj & t & Hj & Hnj & Ht & Hsec & Hno)|(Hno & Hsec)]; [left|right].
        -- exists j, rj, t. split; [lia|]. split; [exact Hnj|]. split; [exact Ht|]. split; [exact Hsec|]. intros k r' Hk Hn t'.
           destruct (Nat.eq_dec k (List.length done)) as [-> |Hne]; [now apply Q|]. apply (Hno k r'); [lia|exact Hn].
        -- split; [|exact Hsec]. intros k r' Hk Hn t'.
           destruct (Nat.eq_dec k (List.length done)) as [-> |Hne]; [now apply Q|]. apply (Hno k r'); [lia|exact Hn].
    + destruct Hl as (ps & Hsort & Hin & Hf). destruct Hr as [(t & Ht & _ & ->)|(g & l & Hg & _ & -> & Hl)].
      * exists ps. split; [exact Hsort|]. split; [|exact Hf]. intros i. rewrite Hin, L. split; intros [Hi (r' & g' & Hn & Hr')].
        -- split; [lia|]. eauto.
        -- split; [|eauto]. destruct (Nat.eq_dec i (List.length done)) as [-> |Hne]; [|lia]. exfalso.
           assert (r' = r) by congruence. subst. eapply line_and_section; eauto.
      * exists (ps ++ [List.length done]). split; [|split].
        -- intros a i b' j c Eq. destruct c as [|x c _] using rev_ind.
           ++ change (a ++ i :: b' ++ [j]) with (a ++ (i :: b') ++ [j]) in Eq. rewrite app_assoc in Eq. apply app_inj_tail in Eq as [Eq <-].
              assert (K : In i ps) by (rewrite Eq; apply in_or_app; right; cbn; auto). apply Hin in K. lia.
           ++ change (a ++ i :: b' ++ j :: c ++ [x]) with (a ++ (i :: b' ++ (j :: c) ++ [x])) in Eq.
              replace (a ++ (i :: b' ++ (j :: c) ++ [x])) with ((a ++ i :: b' ++ j :: c) ++ [x]) in Eq.
              2:{ repeat (rewrite <- app_assoc; cbn [app]). reflexivity. }
              apply app_inj_tail in Eq as [Eq _]. eapply Hsort, Eq.
        -- intros i. rewrite in_app_iff, Hin, L. split.
           ++ intros [[Hi Hx]|[<-|[]]]; [split; [lia|exact Hx]|]. split; [lia|]. eauto.
           ++ intros [Hi Hx]. destruct (Nat.eq_dec i (List.length done)) as [-> |Hne]; [right; cbn; auto|left; split; [lia|exact Hx]].
        -- apply Forall2_app; [exact Hf|]. constructor; [|constructor].
           destruct Hl as (Hg' & H1 & H2 & H3 & H4 & H5 & H6 & H7 & H8 & H9). exists r.
           split; [exact N|]. cbn [set_index al_guid al_group al_segment al_element al_segment_id al_entry al_name al_expression al_conditions al_section al_index].
           split; [now rewrite Hg'|]. split; [exact H1|]. split; [exact H2|]. split; [exact H3|]. split; [exact H4|].
           split; [exists (rd_section st); auto|]. auto.
    + destruct Hc as (cells & ls & Hf & Ha & Hw). destruct b as [s|].
      * destruct (conditions_total (List.length s) s) as (l' & Hl'); [lia|]. exists (cells ++ [Some s]), (ls ++ l'). split; [|split].
        -- apply Forall2_app; [exact Hf|]. constructor; [exact Hb|constructor].
        -- apply all_conditions_app; [exact Ha|]. rewrite <- (app_nil_r l'). constructor; [exact Hl'|constructor].
        -- rewrite (extract_eq s l' Hl'). apply last_wins_unique in Hw as ->. rewrite dict_of_update. apply last_wins_dict_of.
      * exists (cells ++ [None]), ls. split; [|split].
        -- apply Forall2_app; [exact Hf|]. constructor; [exact Hb|constructor].
        -- rewrite <- (app_nil_r ls). apply all_conditions_app; [exact Ha|]. constructor. constructor.
        -- cbn [extract_bedingungen dict_update fold_left]. exact Hw.
Qed.
Lemma read_all p guids rows st : read_rows p guids 0 (mkReader None [] []) rows = Ok st ->
  lines_of p guids rows (rd_rows st) /\ conditions_upto rows (rd_bedingungen st).
Proof.
  intros H. destruct (read_rows_spec p guids rows rows [] (mkReader None [] []) st eq_refl) as [(ps & H1 & H2 & H3) Hc]; [| | |exact H|].
  - right. split; [intros k r' Hk; cbn in Hk; lia|reflexivity].
  - exists []. split; [|split].
    + intros a i b j c E. destruct a; discriminate.
    + intros i. cbn. split; [intros []|lia].
    + constructor.
  - exists [], []. split; [constructor|]. split; [constructor|]. apply (last_wins_dict_of []).
  - split; [|exact Hc]. exists ps. split; [exact H1|]. split; [|exact H3]. intros i. rewrite H2. split; [tauto|]. intros (r & g & Hn & Hg).
    split; [apply nth_error_Some; congruence|eauto].
Qed.
Lemma read_rows_ok p guids : forall rows n st, (forall s, rd_section st = Some s -> stripped s s) ->
  ((exists st', read_rows p guids n st rows = Ok st') <-> Forall (readable_row p) rows).
Proof.
  induction rows as [|r rows IH]; intros n st Hs; cbn [read_rows]; [split; [constructor|eauto]|]. split.
  - intros (st' & H). apply bind_ok in H as ([[sec bed] ol] & Hr & H). constructor; [eapply row_total; eauto|].
    apply row_sound in Hr as [_ Hr]; [|exact Hs].
    eapply (IH (S n) (mkReader sec bed _)); [|eexists; exact H]. cbn [rd_section].
    destruct Hr as [(t & _ & Hr & _)|(g & l & _ & -> & _)]; [eapply comes_back_clean, Hr|exact Hs].
  - intros H. inversion H as [|? ? Hr Hrows]; subst. apply (row_total p (guids n) (rd_section st) (rd_bedingungen st) r Hs) in Hr as ([[sec bed] ol] & Hr).
    rewrite Hr. cbn [bind]. apply row_sound in Hr as [_ Hr]; [|exact Hs]. apply IH; [|exact Hrows]. cbn [rd_section].
    destruct Hr as [(t & _ & Hr & _)|(g & l & _ & -> & _)]; [eapply comes_back_clean, Hr|exact Hs].
Qed.
Lemma read_rows_raise p guids e : forall rows n st, (forall s, rd_section st = Some s -> stripped s s) ->
  read_rows p guids n st rows = Raise e -> e = KeyError \/ e = TypeError \/ e = ValueError.
Proof.
  induction rows as [|r rows IH]; intros n st Hs; cbn [read_rows]; [discriminate|].
  destruct (raw_ahb_row_to_ahbline p (guids n) (rd_section st) (rd_bedingungen st) r) as [[[sec bed] ol]|e'] eqn:E; cbn [bind].
  - apply IH. cbn [rd_section]. apply row_sound in E as [_ Hr]; [|exact Hs].
    destruct Hr as [(t & _ & Hr & _)|(g & l & _ & -> & _)]; [eapply comes_back_clean, Hr|exact Hs].
  - intros [= ->]. eapply row_raise; eauto.
Qed.
