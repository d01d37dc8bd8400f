(** The language of the pattern of .tree files, and where its first match ends. *)
From Coq Require Import Ascii String List NArith ZArith Bool Lia Arith.
From Verif Require Import PyBase PyStr PyRe L_Base L_Re S_Text S_Tree M_JsonText M_Tree.
Import ListNotations.
Local Open Scope list_scope.

(** ** Patterns without assertions have a language *)

Fixpoint pure (r : re) : Prop :=
  match r with
  | RChar _ | REps => True
  | RSeq a b | RAlt a b => pure a /\ pure b
  | RStar _ a | RCap _ a => pure a
  | RBol | REol | RNot _ => False
  end.
Fixpoint lang (r : re) (w : pystr) : Prop :=
  match r with
  | RChar p => exists c, w = [c] /\ p c = true
  | REps => w = []
  | RSeq a b => exists x y, w = x ++ y /\ lang a x /\ lang b y
  | RAlt a b => lang a w \/ lang b w
  | RStar _ a => exists l, w = concat l /\ Forall (fun x => lang a x /\ x <> []) l
  | RCap _ a => lang a w
  | RBol | REol | RNot _ => False
  end.

Lemma acc_lang r : pure r -> forall pos s s', acc r pos s s' <-> exists w, s = w ++ s' /\ lang r w.
Proof.
  induction r as [p| |a IHa b IHb|a IHa b IHb|g a IHa|n a IHa| | |a IHa]; cbn [pure acc lang]; intros P pos s s'; try contradiction.
  - split.
    + intros (c & -> & H). exists [c]. split; [reflexivity|eauto].
    + intros (w & -> & c & -> & H). exists c. auto.
  - split; [intros ->; exists []; auto|intros (w & -> & ->); reflexivity].
  - destruct P as [Pa Pb]. split.
    + intros (m & H1 & H2). apply (IHa Pa) in H1 as (x & -> & Lx). apply (IHb Pb) in H2 as (y & -> & Ly).
      exists (x ++ y). rewrite app_assoc. split; [reflexivity|]. exists x, y. auto.
    + intros (w & -> & x & y & -> & Lx & Ly). exists (y ++ s'). rewrite <- app_assoc. split; [apply (IHa Pa); eauto|apply (IHb Pb); eauto].
  - destruct P as [Pa Pb]. rewrite (IHa Pa), (IHb Pb). split.
    + intros [(w & -> & H)|(w & -> & H)]; exists w; auto.
    + intros (w & -> & [H|H]); [left|right]; eauto.
  - split.
    + intros H. induction H as [pos s|pos s s1 s2 H L H' IH]; [exists []; split; [reflexivity|]; exists []; auto|].
      apply (IHa P) in H as (x & -> & Lx). destruct IH as (w & -> & l & -> & F). exists (x ++ concat l). rewrite app_assoc.
      split; [reflexivity|]. exists (x :: l). split; [reflexivity|]. constructor; [|exact F]. split; [exact Lx|].
      intros ->. rewrite !app_length in L. cbn in L. lia.
    + intros (w & -> & l & -> & F). revert pos. induction F as [|x l [Lx Nx] F IH]; intros pos; cbn [concat app]; [constructor|].
      rewrite <- app_assoc. eapply star_step; [apply (IHa P); exists x; split; [reflexivity|exact Lx]| |apply IH].
      rewrite (app_length x). destruct x; [congruence|cbn; lia].
  - apply (IHa P).
Qed.

(** all ways to match are words of the language, and each word is a way to match *)
Lemma runs_lang r st st' : pure r -> In st' (runs r st) -> exists w, st_rest st = w ++ st_rest st' /\ lang r w.
Proof. intros P H. apply (acc_lang r P (st_pos st)). apply (proj1 (runs_acc r st)), H. Qed.
Lemma lang_runs r st w s' : pure r -> st_rest st = w ++ s' -> lang r w -> exists st', In st' (runs r st) /\ st_rest st' = s'.
Proof. intros P E H. apply (proj2 (runs_acc r st)). apply (acc_lang r P). eauto. Qed.
Lemma lang_dec_none r st : pure r -> (forall w s', st_rest st = w ++ s' -> ~ lang r w) -> runs r st = [].
Proof.
  intros P H. destruct (runs r st) as [|x l] eqn:E; [reflexivity|]. destruct (runs_lang r st x P) as (w & R & L); [rewrite E; now left|].
  now destruct (H _ _ R).
Qed.

(** the characters a pattern can match *)
Fixpoint letter (r : re) (c : char) : bool :=
  match r with
  | RChar p => p c
  | REps | RBol | REol | RNot _ => false
  | RSeq a b | RAlt a b => letter a c || letter b c
  | RStar _ a | RCap _ a => letter a c
  end.
Lemma lang_letter r : forall w c, lang r w -> In c w -> letter r c = true.
Proof.
  induction r as [p| |a IHa b IHb|a IHa b IHb|g a IHa|n a IHa| | |a IHa]; cbn [lang letter]; intros w c H I.
  - destruct H as (d & -> & H). destruct I as [<-|[]]. exact H.
  - subst w. destruct I.
  - destruct H as (x & y & -> & Lx & Ly). apply in_app_or in I as [I|I]; [now rewrite (IHa _ _ Lx I)|now rewrite (IHb _ _ Ly I), orb_true_r].
  - destruct H as [H|H]; [now rewrite (IHa _ _ H I)|now rewrite (IHb _ _ H I), orb_true_r].
  - destruct H as (l & -> & F). apply in_concat in I as (x & Hx & I). rewrite Forall_forall in F. destruct (F _ Hx) as [Lx _]. eauto.
  - eauto.
  - destruct H.
  - destruct H.
  - destruct H.
Qed.
Lemma lang_no_letter r w c : letter r c = false -> lang r w -> ~ In c w.
Proof. intros E L I. rewrite (lang_letter r w c L I) in E. discriminate. Qed.

(** ** The grammar *)

Lemma joined_iff sep P Q w : (forall x, P x <-> Q x) -> joined sep P w <-> joined sep Q w.
Proof.
  intros H. split; intros (x & l & Hx & F & ->); exists x, l; (split; [now apply H|split; [|reflexivity]]);
    eapply Forall_impl; try exact F; intros y; apply H.
Qed.

Lemma lang_lit t w : lang (RLit t) w <-> w = t.
Proof.
  revert w. induction t as [|c t IH]; intros w; cbn [RLit lang]; [reflexivity|]. split.
  - intros (x & y & -> & (d & -> & E) & L). apply IH in L. apply N.eqb_eq in E. now subst.
  - intros ->. exists [c], t. split; [reflexivity|]. split; [exists c; split; [reflexivity|apply N.eqb_refl]|now apply IH].
Qed.
Lemma lang_chr a w : lang (chr a) w <-> w = [ch a].
Proof.
  unfold chr. cbn [lang]. split; [intros (c & -> & E); apply N.eqb_eq in E; now subst|intros ->; exists (ch a)].
  split; [reflexivity|apply N.eqb_refl].
Qed.
Lemma lang_seq a b w : lang (RSeq a b) w <-> exists x y, w = x ++ y /\ lang a x /\ lang b y.
Proof. reflexivity. Qed.
Lemma lang_opt a w : lang (ROpt a) w <-> w = [] \/ lang a w.
Proof. unfold ROpt. cbn [lang]. tauto. Qed.
Lemma lang_alts a l w : lang (RAlts a l) w <-> Exists (fun r => lang r w) (a :: l).
Proof.
  revert a. induction l as [|b l IH]; intros a; cbn [RAlts lang]; rewrite Exists_cons.
  - rewrite Exists_nil. tauto.
  - rewrite IH. tauto.
Qed.

Lemma lang_star_char g p w : lang (RStar g (RChar p)) w <-> all p w.
Proof.
  cbn [lang]. split.
  - intros (l & -> & F). induction F as [|x l [(c & -> & H) _] F IH]; [constructor|]. cbn. constructor; assumption.
  - intros H. exists (map (fun c => [c]) w). split; [induction w as [|c w IH]; [reflexivity|cbn; f_equal; apply IH; now inversion H]|].
    induction H as [|c w H F IH]; constructor; [split; [eauto|discriminate]|exact IH].
Qed.
Lemma lang_plus_char p w : lang (RPlus (RChar p)) w <-> w <> [] /\ all p w.
Proof.
  unfold RPlus. rewrite lang_seq. split.
  - intros (x & y & -> & (c & -> & H) & L). apply lang_star_char in L. split; [discriminate|]. constructor; assumption.
  - intros [N F]. destruct w as [|c w]; [congruence|]. exists [c], w. split; [reflexivity|]. inversion F; subst.
    split; [exists c; auto|now apply lang_star_char].
Qed.
Lemma lang_rep_char n p w : lang (RRep n (RChar p)) w <-> List.length w = n /\ all p w.
Proof.
  revert w. induction n as [|n IH]; intros w; cbn [RRep].
  - cbn [lang]. split; [intros ->; split; [reflexivity|constructor]|intros [H _]; now apply length_zero_iff_nil].
  - rewrite lang_seq. split.
    + intros (x & y & -> & (c & -> & H) & L). apply IH in L as [<- F]. split; [reflexivity|constructor; assumption].
    + intros [L F]. destruct w as [|c w]; [discriminate|]. inversion F; subst. exists [c], w. split; [reflexivity|].
      split; [exists c; auto|apply IH; cbn in L; split; [lia|assumption]].
Qed.

(** repetitions with a separator *)
Lemma lang_star_sep q c r w : (forall x, lang q x <-> x = [c]) ->
  lang (RStar true (RSeq q r)) w <-> exists l, Forall (lang r) l /\ w = concat (map (fun y => [c] ++ y) l).
Proof.
  intros Q. cbn [lang]. split.
  - intros (l & -> & F). induction F as [|x l [(a & b & -> & La & Lb) _] F (l' & F' & E)]; [exists []; auto|].
    apply Q in La. subst a. exists (b :: l'). split; [now constructor|]. cbn. now rewrite E.
  - intros (l & F & ->). exists (map (fun y => [c] ++ y) l). split; [reflexivity|].
    induction F as [|x l H F IH]; constructor; [|exact IH]. split; [exists [c], x; split; [reflexivity|split; [now apply Q|exact H]]|discriminate].
Qed.
Lemma lang_joined q c r P w : (forall x, lang q x <-> x = [c]) -> (forall x, lang r x <-> P x) ->
  lang (RSeq r (RStar true (RSeq q r))) w <-> joined [c] P w.
Proof.
  intros Q R. rewrite <- (joined_iff [c] (lang r) P w R). rewrite lang_seq. split.
  - intros (x & y & -> & Lx & Ly). apply (lang_star_sep q c r y Q) in Ly as (l & F & ->). exists x, l. auto.
  - intros (x & l & Hx & F & ->). exists x, (concat (map (fun y => [c] ++ y) l)). split; [reflexivity|]. split; [exact Hx|].
    apply (lang_star_sep q c r _ Q). eauto.
Qed.

Lemma lang_INT w : lang INT w <-> numeral w.
Proof. apply lang_plus_char. Qed.
Lemma lang_key w : lang SEGMENT_GROUP_KEY w <-> group_key w.
Proof.
  unfold SEGMENT_GROUP_KEY. rewrite lang_alts, !Exists_cons, Exists_nil, !lang_lit, lang_seq. unfold group_key. split.
  - intros [(x & y & -> & Lx & Ly)|H]; [|tauto]. right. right. apply lang_lit in Lx. apply lang_INT in Ly. subst x. eauto.
  - intros [H|[H|(n & H & ->)]]; [tauto|tauto|]. left. exists (u "SG"), n. split; [reflexivity|].
    split; [now apply lang_lit|now apply lang_INT].
Qed.
Lemma lang_mark w : lang OBLIG_MARK w <-> mark w.
Proof.
  unfold OBLIG_MARK. rewrite lang_alts, !Exists_cons, Exists_nil, !lang_chr. unfold mark. cbn [map In].
  change (u "M") with [ch "M"]. change (u "R") with [ch "R"]. change (u "N") with [ch "N"]. change (u "C") with [ch "C"].
  change (u "D") with [ch "D"]. change (u "O") with [ch "O"]. intuition auto 10.
Qed.
Lemma lang_set w : lang CHARACTER_SET w <-> character_set w.
Proof.
  unfold CHARACTER_SET. rewrite lang_alts, !Exists_cons, Exists_nil, !lang_lit. unfold character_set. cbn [map In].
  intuition auto 10.
Qed.
Lemma lang_entry w : lang VALUE_POOL_ENTRY w <-> entry w.
Proof.
  unfold VALUE_POOL_ENTRY. rewrite lang_plus_char. unfold entry, all, is_entry_letter.
  assert (K : forall c, is_AZ c || is_az c || is_decimal c || N.eqb c (ch "-") || N.eqb c (ch "_") = true
    <-> (is_AZ c = true \/ is_az c = true \/ is_decimal c = true \/ [c] = u "-" \/ [c] = u "_")).
  { intros c. rewrite !orb_true_iff, !N.eqb_eq. change (u "-") with [ch "-"]. change (u "_") with [ch "_"].
    assert (I : forall a : char, [c] = [a] <-> c = a) by (intros a; split; [now intros [=]|now intros ->]). rewrite !I. tauto. }
  split; intros [H F]; (split; [exact H|]); eapply Forall_impl; try exact F; intros c; apply K.
Qed.
Lemma lang_entries w : lang VALUE_POOL w <-> entries w.
Proof.
  unfold VALUE_POOL, entries. rewrite lang_seq. split.
  - intros (x & y & -> & Lx & x2 & y2 & -> & L2 & x3 & y3 & -> & L3 & L4). apply lang_chr in Lx. apply lang_chr in L4. subst.
    exists (x2 ++ x3). split; [|rewrite <- app_assoc; reflexivity].
    apply (lang_joined (chr ".") (ch ".") VALUE_POOL_ENTRY entry); [apply lang_chr|apply lang_entry|]. exists x2, x3. auto.
  - intros (v & J & ->). apply (lang_joined (chr ".") (ch ".") VALUE_POOL_ENTRY entry) in J; [|apply lang_chr|apply lang_entry].
    destruct J as (x2 & x3 & -> & L2 & L3). exists (u "{"), ((x2 ++ x3) ++ u "}"). split; [reflexivity|]. split; [now apply lang_chr|].
    exists x2, (x3 ++ u "}"). split; [now rewrite app_assoc|]. split; [exact L2|]. exists x3, (u "}"). split; [reflexivity|].
    split; [exact L3|now apply lang_chr].
Qed.
Lemma numeral_nonempty n : numeral n -> n <> [].
Proof. now intros []. Qed.
Lemma set_nonempty s : character_set s -> s <> [].
Proof. unfold character_set. cbn [map In]. intros [<-|[<-|[<-|[<-|[]]]]]; discriminate. Qed.
Lemma lang_composite w : lang COMPOSITE w <-> composite w.
Proof.
  unfold COMPOSITE, composite. rewrite lang_seq. split.
  - intros (m & y & -> & Lm & Ly). apply lang_mark in Lm. apply lang_opt in Ly as [->|(s & y2 & -> & Ls & Ly)].
    { exists m, [], [], []. auto 10. }
    apply lang_set in Ls. apply lang_opt in Ly as [->|(n & y3 & -> & Ln & Ly)].
    { exists m, s, [], []. rewrite !app_nil_r. auto 10. }
    apply lang_INT in Ln. pose proof (set_nonempty _ Ls). apply lang_opt in Ly as [->|Le].
    { exists m, s, n, []. auto 10. }
    apply lang_entries in Le. pose proof (numeral_nonempty _ Ln). exists m, s, n, y3. auto 10.
  - intros (m & s & n & e & -> & Hm & Hs & Hn & He). exists m, (s ++ n ++ e). split; [reflexivity|]. split; [now apply lang_mark|].
    apply lang_opt. destruct Hs as [->|Hs].
    { destruct Hn as [->|[N _]]; [|congruence]. destruct He as [->|[N _]]; [now left|congruence]. }
    right. exists s, (n ++ e). split; [reflexivity|]. split; [now apply lang_set|]. apply lang_opt. destruct Hn as [->|[_ Hn]].
    { destruct He as [->|[N _]]; [now left|congruence]. }
    right. exists n, e. split; [reflexivity|]. split; [now apply lang_INT|]. apply lang_opt.
    destruct He as [->|[_ He]]; [now left|right; now apply lang_entries].
Qed.
Lemma lang_elements w : lang MULTIPLE_DATA_ELEMENTS w <-> data_elements w.
Proof.
  apply (lang_joined (chr "+") (ch "+")); [apply lang_chr|]. intros x. apply (lang_joined (chr "*") (ch "*")); [apply lang_chr|].
  apply lang_composite.
Qed.
Lemma lang_segment_key w : lang SEGMENT_KEY w <-> segment_key w.
Proof.
  unfold SEGMENT_KEY, segment_key. rewrite lang_seq. split.
  - intros (x & y & -> & Lx & Ly). apply lang_rep_char in Lx as [Lx Fx]. apply lang_star_char in Ly. rewrite app_length. split; [lia|].
    now apply Forall_app.
  - intros [L F]. exists (firstn 3 w), (skipn 3 w). split; [now rewrite firstn_skipn|].
    rewrite <- (firstn_skipn 3 w) in F. apply Forall_app in F as [F1 F2].
    split; [apply lang_rep_char; split; [rewrite firstn_length; lia|exact F1]|now apply lang_star_char].
Qed.
Lemma lang_comparison w : lang CONDITION_BODY w <-> comparison w.
Proof.
  unfold CONDITION_BODY, comparison. split.
  - intros (k & y & -> & Lk & x1 & y1 & -> & L1 & i & y2 & -> & Li & x3 & y3 & -> & L3 & j & y4 & -> & Lj & n & y5 & -> & Ln
             & x6 & e & -> & L6 & Le).
    apply lang_segment_key in Lk. apply lang_chr in L1, L3, L6. apply lang_INT in Li, Lj. apply lang_entry in Le. subst.
    exists k, i, j, n, e. split; [reflexivity|]. split; [exact Lk|]. split; [exact Li|]. split; [exact Lj|]. split; [|exact Le].
    apply lang_opt in Ln as [->|Ln]; [now left|right; now apply lang_chr].
  - intros (k & i & j & n & e & -> & Hk & Hi & Hj & Hn & He).
    exists k, (u "#" ++ i ++ u "#" ++ j ++ n ++ u "=" ++ e). split; [reflexivity|]. split; [now apply lang_segment_key|].
    exists (u "#"), (i ++ u "#" ++ j ++ n ++ u "=" ++ e). split; [reflexivity|]. split; [now apply lang_chr|].
    exists i, (u "#" ++ j ++ n ++ u "=" ++ e). split; [reflexivity|]. split; [now apply lang_INT|].
    exists (u "#"), (j ++ n ++ u "=" ++ e). split; [reflexivity|]. split; [now apply lang_chr|].
    exists j, (n ++ u "=" ++ e). split; [reflexivity|]. split; [now apply lang_INT|].
    exists n, (u "=" ++ e). split; [reflexivity|]. split; [apply lang_opt; destruct Hn as [->| ->]; [now left|right; now apply lang_chr]|].
    exists (u "="), e. split; [reflexivity|]. split; [now apply lang_chr|now apply lang_entry].
Qed.
Lemma lang_conditioned w : lang CONDITIONED_DATA_ELEMENTS_SWITCH w <-> conditioned w.
Proof.
  unfold CONDITIONED_DATA_ELEMENTS_SWITCH, CONDITION, conditioned. split.
  - intros (c & y & -> & (x1 & y1 & -> & L1 & x2 & y2 & -> & L2 & x3 & y3 & -> & L3 & L4) & d & b & -> & Ld & Lb).
    apply lang_chr in L1, L4. apply lang_elements in Ld. subst. exists (x2 ++ x3), d, b. rewrite <- !app_assoc. split; [reflexivity|].
    split; [|split; [exact Ld|apply lang_opt in Lb as [->|Lb]; [now left|right; now apply lang_chr]]].
    apply (lang_joined (chr "|") (ch "|") CONDITION_BODY comparison); [apply lang_chr|apply lang_comparison|]. exists x2, x3. auto.
  - intros (c & d & b & -> & J & Hd & Hb). apply (lang_joined (chr "|") (ch "|") CONDITION_BODY comparison) in J; [|apply lang_chr|apply lang_comparison].
    destruct J as (x2 & x3 & -> & L2 & L3). exists (u "(" ++ (x2 ++ x3) ++ u ")"), (d ++ b). split; [now rewrite <- !app_assoc|]. split.
    + exists (u "("), ((x2 ++ x3) ++ u ")"). split; [reflexivity|]. split; [now apply lang_chr|]. exists x2, (x3 ++ u ")").
      split; [now rewrite app_assoc|]. split; [exact L2|]. exists x3, (u ")"). split; [reflexivity|]. split; [exact L3|now apply lang_chr].
    + exists d, b. split; [reflexivity|]. split; [now apply lang_elements|]. apply lang_opt.
      destruct Hb as [->| ->]; [now left|right; now apply lang_chr].
Qed.
Lemma conditioned_nonempty w : conditioned w -> w <> [].
Proof. intros (c & d & b & -> & _). discriminate. Qed.
Lemma lang_switches w : lang (RStar true CONDITIONED_DATA_ELEMENTS_SWITCH) w <-> exists l, w = concat l /\ Forall conditioned l.
Proof.
  split.
  - intros (l & -> & F). exists l. split; [reflexivity|]. eapply Forall_impl; [|exact F]. intros x [H _]. now apply lang_conditioned.
  - intros (l & -> & F). exists l. split; [reflexivity|]. eapply Forall_impl; [|exact F]. intros x H.
    split; [now apply lang_conditioned|now apply conditioned_nonempty].
Qed.

(** a tuple is a part, or two of them; so a list of tuples is a list of parts *)
Lemma joined_one sep (P : pystr -> Prop) w : P w -> joined sep P w.
Proof. intros H. exists w, []. cbn. rewrite app_nil_r. auto. Qed.
Lemma joined_app sep P a b : joined sep P a -> joined sep P b -> joined sep P (a ++ sep ++ b).
Proof.
  intros (x & l & Hx & F & ->) (y & m & Hy & G & ->). exists x, (l ++ y :: m). split; [exact Hx|]. split.
  - apply Forall_app. auto.
  - rewrite map_app, concat_app. cbn [map concat]. now rewrite <- !app_assoc.
Qed.
Lemma joined_flat sep P w : joined sep (joined sep P) w -> joined sep P w.
Proof.
  intros (x & l & Hx & F & ->). revert x Hx. induction F as [|y l Hy F IH]; intros x Hx; cbn [map concat].
  - now rewrite app_nil_r.
  - replace (x ++ (sep ++ y) ++ concat (map (fun z => sep ++ z) l)) with ((x ++ sep ++ y) ++ concat (map (fun z => sep ++ z) l))
      by now rewrite <- !app_assoc.
    apply IH. now apply joined_app.
Qed.
Lemma lang_tuple w : lang INTERNATIONAL_BDEW_TUPLE w -> joined (u ";") part w.
Proof.
  unfold INTERNATIONAL_BDEW_TUPLE. intros (x & y & -> & Lx & Ly).
  destruct Lx as [(d & s & -> & Ld & Ls)|Lx].
  - apply lang_elements in Ld. apply lang_chr in Ls. subst s. rewrite <- app_assoc. apply joined_app; apply joined_one.
    + exists [], d. auto.
    + destruct Ly as [Ly|Ly]; [apply lang_elements in Ly; exists [], y; auto|].
      apply lang_switches in Ly as (l & -> & F). exists l, []. rewrite app_nil_r. auto.
  - apply lang_switches in Lx as (l & -> & F). apply joined_one. destruct Ly as [Ly|Ly].
    + apply lang_elements in Ly. exists l, y. auto.
    + apply lang_switches in Ly as (m & -> & G). exists (l ++ m), []. rewrite app_nil_r, concat_app. split; [reflexivity|].
      split; [now apply Forall_app|auto].
Qed.
Lemma part_tuple w : part w -> lang INTERNATIONAL_BDEW_TUPLE w.
Proof.
  intros (l & d & -> & F & Hd). exists (concat l), d. split; [reflexivity|]. split; [right; apply lang_switches; eauto|].
  destruct Hd as [->|Hd]; [right; apply lang_switches; exists []; auto|left; now apply lang_elements].
Qed.
Lemma lang_body w : lang INTERNATIONAL_BDEW_TUPLE_CHAIN w <-> joined (u ";") part w.
Proof.
  unfold INTERNATIONAL_BDEW_TUPLE_CHAIN. rewrite (lang_joined (chr ";") (ch ";") _ (lang INTERNATIONAL_BDEW_TUPLE));
    [|apply lang_chr|reflexivity]. split.
  - intros (x & l & Hx & F & ->). apply joined_flat. exists x, l. split; [now apply lang_tuple|]. split; [|reflexivity].
    eapply Forall_impl; [|exact F]. apply lang_tuple.
  - intros (x & l & Hx & F & ->). exists x, l. split; [now apply part_tuple|]. split; [|reflexivity].
    eapply Forall_impl; [|exact F]. apply part_tuple.
Qed.
Lemma lang_segment w : lang SEGMENT w <-> segment w.
Proof.
  unfold SEGMENT, segment. split.
  - intros (k & y & -> & Lk & x1 & y1 & -> & L1 & b & y2 & -> & Lb & L2). apply lang_segment_key in Lk. apply lang_chr in L1, L2.
    apply lang_body in Lb. subst. exists k, b. auto.
  - intros (k & b & -> & Hk & Hb). exists k, (u "[" ++ b ++ u "]"). split; [reflexivity|]. split; [now apply lang_segment_key|].
    exists (u "["), (b ++ u "]"). split; [reflexivity|]. split; [now apply lang_chr|]. exists b, (u "]"). split; [reflexivity|].
    split; [now apply lang_body|now apply lang_chr].
Qed.
Lemma lang_reference w : lang SEGMENT_GROUP_REFERENCE w <-> reference w.
Proof.
  unfold SEGMENT_GROUP_REFERENCE, reference. split.
  - intros (k & y & -> & Lk & x1 & y1 & -> & L1 & a & y2 & -> & La & x3 & y3 & -> & L3 & b & y4 & -> & Lb & L4).
    apply lang_key in Lk. apply lang_chr in L1, L3, L4. apply lang_mark in La, Lb. subst. exists k, a, b. auto.
  - intros (k & a & b & -> & Hk & Ha & Hb). exists k, (u "[" ++ a ++ u ";" ++ b ++ u "]"). split; [reflexivity|]. split; [now apply lang_key|].
    exists (u "["), (a ++ u ";" ++ b ++ u "]"). split; [reflexivity|]. split; [now apply lang_chr|].
    exists a, (u ";" ++ b ++ u "]"). split; [reflexivity|]. split; [now apply lang_mark|].
    exists (u ";"), (b ++ u "]"). split; [reflexivity|]. split; [now apply lang_chr|]. exists b, (u "]"). split; [reflexivity|].
    split; [now apply lang_mark|now apply lang_chr].
Qed.

(** the part of a line in front of the first comma; what follows a comma *)
Definition HEAD : re := ROpt (RSeq SEGMENT_GROUP_KEY (ROpt (chr ":"))).
Definition ITEM : re := RAlt SEGMENT SEGMENT_GROUP_REFERENCE.
Lemma lang_head w : lang HEAD w <-> w = [] \/ exists k, group_key k /\ (w = k \/ w = k ++ u ":").
Proof.
  unfold HEAD. rewrite lang_opt. split; (intros [H|H]; [now left|right]).
  - destruct H as (k & y & -> & Lk & Ly). apply lang_key in Lk. exists k. split; [exact Lk|]. apply lang_opt in Ly as [->|Ly].
    + left. apply app_nil_r.
    + right. apply lang_chr in Ly. now subst.
  - destruct H as (k & Hk & [->| ->]).
    + exists k, []. split; [now rewrite app_nil_r|]. split; [now apply lang_key|]. apply lang_opt. now left.
    + exists k, (u ":"). split; [reflexivity|]. split; [now apply lang_key|]. apply lang_opt. right. now apply lang_chr.
Qed.
Lemma lang_item w : lang ITEM w <-> segment w \/ reference w.
Proof. unfold ITEM. cbn [lang]. now rewrite <- lang_segment, <- lang_reference. Qed.
Lemma lang_group w : lang SEGMENT_GROUP w <-> group_line w.
Proof.
  unfold SEGMENT_GROUP, group_line. fold HEAD ITEM. split.
  - intros (h & y & -> & Lh & s & y2 & -> & Ls & Ly). apply lang_head in Lh. apply lang_segment in Ls.
    apply (lang_star_sep _ (ch ",") ITEM) in Ly as (l & F & ->); [|apply lang_chr]. exists h, s, l. split; [reflexivity|].
    split; [exact Lh|]. split; [exact Ls|]. eapply Forall_impl; [|exact F]. intros x. apply lang_item.
  - intros (h & s & l & -> & Hh & Hs & F). exists h, (s ++ concat (map (fun x => u "," ++ x) l)). split; [reflexivity|].
    split; [now apply lang_head|]. exists s, (concat (map (fun x => u "," ++ x) l)). split; [reflexivity|]. split; [now apply lang_segment|].
    apply (lang_star_sep _ (ch ",") ITEM); [apply lang_chr|]. exists l. split; [|reflexivity]. eapply Forall_impl; [|exact F]. intros x. apply lang_item.
Qed.
Lemma lang_tree w : lang SEGMENT_GROUP_CHAIN w <-> tree_text w.
Proof.
  unfold SEGMENT_GROUP_CHAIN, ROOT_NODE, tree_text.
  assert (Q : forall x : pystr, lang (RChar (N.eqb chr_newline)) x <-> x = [chr_newline]).
  { intros x. cbn [lang]. split; [intros (c & -> & E); apply N.eqb_eq in E; now subst|intros ->; eauto using N.eqb_refl]. }
  split.
  - intros (x & y & -> & Lx & x2 & y2 & -> & L2 & Ly). apply lang_chr in Lx, L2. subst. exists y2. split; [reflexivity|].
    apply (lang_joined _ _ _ _ _ Q lang_group). exact Ly.
  - intros (v & -> & J). exists (u "/"), (u ":" ++ v). split; [reflexivity|]. split; [now apply lang_chr|].
    exists (u ":"), v. split; [reflexivity|]. split; [now apply lang_chr|]. apply (lang_joined _ _ _ _ _ Q lang_group). exact J.
Qed.

(** ** Where the first match ends *)

Definition first (r : re) (st : rst) : option rst := hd_error (runs r st).

Lemma flat_map_ext_in {A B} (f g : A -> list B) l : (forall x, In x l -> f x = g x) -> flat_map f l = flat_map g l.
Proof.
  intros H. induction l as [|x l IH]; [reflexivity|]. cbn. rewrite (H x (or_introl eq_refl)). f_equal. apply IH. intros y Hy. apply H. now right.
Qed.
Lemma star_fuel g a : forall f f' st, List.length (st_rest st) <= f -> List.length (st_rest st) <= f' ->
  star_runs g (runs a) f st = star_runs g (runs a) f' st.
Proof.
  assert (Z : forall f st, List.length (st_rest st) = 0 ->
    flat_map (fun st' => if st_pos st <? st_pos st' then star_runs g (runs a) f st' else []) (runs a st) = []).
  { intros f st L. rewrite (flat_map_ext_in _ (fun _ => [])); [induction (runs a st); auto|]. intros m Hm.
    destruct (advance_pos _ _ (runs_advance _ _ _ Hm)) as [Hp _]. destruct (Nat.ltb_spec (st_pos st) (st_pos m)); [lia|reflexivity]. }
  induction f as [|f IH]; intros f' st L L'.
  - destruct f' as [|f']; [reflexivity|]. cbn [star_runs]. rewrite Z by lia. now destruct g.
  - destruct f' as [|f']; cbn [star_runs]; [rewrite Z by lia; now destruct g|].
    rewrite (flat_map_ext_in _ (fun st' => if st_pos st <? st_pos st' then star_runs g (runs a) f' st' else [])); [reflexivity|].
    intros m Hm. destruct (advance_pos _ _ (runs_advance _ _ _ Hm)) as [Hp Hl]. destruct (Nat.ltb_spec (st_pos st) (st_pos m)); [|reflexivity].
    apply IH; lia.
Qed.

Lemma first_seq a b st m st' : first a st = Some m -> first b m = Some st' -> first (RSeq a b) st = Some st'.
Proof.
  unfold first. cbn [runs]. destruct (runs a st) as [|m' l]; [discriminate|]. cbn [hd_error flat_map]. intros [= ->].
  destruct (runs b m) as [|x k]; [discriminate|]. intros [= ->]. reflexivity.
Qed.
Lemma runs_assoc a b c st : runs (RSeq a (RSeq b c)) st = runs (RSeq (RSeq a b) c) st.
Proof.
  cbn [runs]. induction (runs a st) as [|x l IH]; [reflexivity|]. cbn [flat_map]. now rewrite flat_map_app, IH.
Qed.

(** if only one word fits, it is the first match *)
Lemma first_unique r st w s' : pure r -> st_rest st = w ++ s' -> lang r w ->
  (forall w' s'', st_rest st = w' ++ s'' -> lang r w' -> w' = w) ->
  exists m, first r st = Some m /\ st_rest m = s'.
Proof.
  intros P E L U. destruct (lang_runs r st w s' P E L) as (m & I & _). unfold first. destruct (runs r st) as [|x l] eqn:R; [destruct I|].
  exists x. split; [reflexivity|]. destruct (runs_lang r st x P) as (w' & E' & L'); [rewrite R; now left|].
  rewrite (U _ _ E' L') in E'. rewrite E in E'. now apply app_inv_head in E'.
Qed.

Lemma first_star a rest : (forall st, st_rest st = rest -> runs a st = []) -> forall l st,
  st_rest st = concat l ++ rest -> Forall (fun x => x <> []) l ->
  (forall l1 x l2, l = l1 ++ x :: l2 -> forall st, st_rest st = x ++ concat l2 ++ rest ->
     exists m, first a st = Some m /\ st_rest m = concat l2 ++ rest) ->
  exists m, first (RStar true a) st = Some m /\ st_rest m = rest.
Proof.
  intros Stop l. induction l as [|x l IH]; intros st E F Step.
  - exists st. split; [|exact E]. unfold first. cbn [runs]. rewrite (star_fuel true a _ (S (List.length (st_rest st)))) by lia.
    cbn [star_runs]. now rewrite (Stop st E).
  - inversion F as [|? ? Nx F']; subst. cbn [concat] in E. rewrite <- app_assoc in E.
    destruct (Step [] x l eq_refl st E) as (m & H & Em).
    destruct (IH m Em F') as (m' & H' & Em').
    { intros l1 y l2 -> st' E'. exact (Step (x :: l1) y l2 eq_refl st' E'). }
    exists m'. split; [|exact Em']. unfold first in *. cbn [runs] in *. destruct (runs a st) as [|m0 k] eqn:R; [discriminate|]. injection H as ->.
    destruct (advance_pos _ _ (runs_advance a st m ltac:(rewrite R; now left))) as [Hp Hl].
    assert (Q : List.length (st_rest m) < List.length (st_rest st)).
    { rewrite E, Em, !app_length. destruct x; [congruence|cbn; lia]. }
    rewrite (star_fuel true a (List.length (st_rest st)) (S (List.length (st_rest st)))) by lia. cbn [star_runs]. rewrite R. cbn [flat_map].
    destruct (Nat.ltb_spec (st_pos st) (st_pos m)) as [_|]; [|lia].
    rewrite (star_fuel true a (List.length (st_rest st)) (List.length (st_rest m))) by lia.
    destruct (star_runs true (runs a) (List.length (st_rest m)) m); [discriminate|]. cbn in H' |- *. exact H'.
Qed.

(** texts that end with the only closing bracket in them *)
Definition closed (w : pystr) : Prop := exists x, w = x ++ u "]" /\ ~ In chr_rbracket x.
Lemma closed_unique w w' r r' : closed w -> closed w' -> w ++ r = w' ++ r' -> w = w'.
Proof.
  intros (x & -> & Nx) (y & -> & Ny) E. rewrite <- !app_assoc in E. change (u "]") with [chr_rbracket] in *. f_equal.
  revert y Ny E. induction x as [|c x IH]; intros [|d y] Ny E; cbn in *.
  - reflexivity.
  - injection E as <- _. destruct Ny. now left.
  - injection E as -> _. destruct Nx. now left.
  - injection E as -> E. f_equal. apply IH; auto.
Qed.
Lemma segment_closed w : lang SEGMENT w -> closed w.
Proof.
  intros (k & y & -> & Lk & x1 & y1 & -> & L1 & b & y2 & -> & Lb & L2). apply lang_chr in L2. subst y2.
  exists (k ++ x1 ++ b). split; [rewrite <- !app_assoc; reflexivity|]. intros I. apply in_app_or in I as [I|I].
  { revert I. refine (lang_no_letter _ _ _ _ Lk). vm_compute. reflexivity. }
  apply in_app_or in I as [I|I].
  { revert I. refine (lang_no_letter _ _ _ _ L1). vm_compute. reflexivity. }
  revert I. refine (lang_no_letter _ _ _ _ Lb). vm_compute. reflexivity.
Qed.
Lemma prefix_closed r x w : letter r chr_rbracket = false -> lang r x -> closed w -> closed (x ++ w).
Proof.
  intros E L (y & -> & N). exists (x ++ y). split; [now rewrite app_assoc|]. intros I. apply in_app_or in I as [I|I]; [|auto].
  revert I. exact (lang_no_letter _ _ _ E L).
Qed.
Lemma reference_closed w : lang SEGMENT_GROUP_REFERENCE w -> closed w.
Proof.
  intros (k & y & -> & Lk & x1 & y1 & -> & L1 & a & y2 & -> & La & x3 & y3 & -> & L3 & b & y4 & -> & Lb & L4). apply lang_chr in L4. subst y4.
  refine (prefix_closed _ _ _ _ Lk _); [vm_compute; reflexivity|]. refine (prefix_closed _ _ _ _ L1 _); [vm_compute; reflexivity|].
  refine (prefix_closed _ _ _ _ La _); [vm_compute; reflexivity|]. refine (prefix_closed _ _ _ _ L3 _); [vm_compute; reflexivity|].
  refine (prefix_closed _ _ _ _ Lb _); [vm_compute; reflexivity|]. exists []. split; [reflexivity|auto].
Qed.
Lemma item_closed w : lang ITEM w -> closed w.
Proof. intros [H|H]; [now apply segment_closed|now apply reference_closed]. Qed.
Lemma comma_item_closed w : lang (RSeq (chr ",") ITEM) w -> closed w.
Proof. intros (x & y & -> & Lx & Ly). refine (prefix_closed _ _ _ _ Lx _); [vm_compute; reflexivity|]. now apply item_closed. Qed.
Lemma head_segment_closed w : lang (RSeq HEAD SEGMENT) w -> closed w.
Proof. intros (x & y & -> & Lx & Ly). refine (prefix_closed _ _ _ _ Lx _); [vm_compute; reflexivity|]. now apply segment_closed. Qed.

Lemma pure_head : pure (RSeq HEAD SEGMENT).
Proof. cbn. tauto. Qed.
Lemma pure_item : pure (RSeq (chr ",") ITEM).
Proof. cbn. tauto. Qed.
Lemma pure_group : pure SEGMENT_GROUP.
Proof. cbn. tauto. Qed.
Lemma pure_chain : pure SEGMENT_GROUP_CHAIN.
Proof. cbn. tauto. Qed.

Lemma first_group st g rest : st_rest st = g ++ rest -> group_line g -> (forall r, rest <> ch "," :: r) ->
  exists m, first SEGMENT_GROUP st = Some m /\ st_rest m = rest.
Proof.
  intros E G C. apply lang_group in G. destruct G as (h & y & -> & Lh & s & y2 & -> & Ls & Ly).
  apply (lang_star_sep _ (ch ",") ITEM) in Ly as (l & F & ->); [|apply lang_chr].
  assert (E' : st_rest st = (h ++ s) ++ concat (map (fun y => [ch ","] ++ y) l) ++ rest) by (rewrite E, <- !app_assoc; reflexivity).
  assert (L : lang (RSeq HEAD SEGMENT) (h ++ s)) by (exists h, s; auto).
  destruct (first_unique _ _ _ _ pure_head E' L) as (m & H & Em).
  { intros w' s'' E2 L'. eapply closed_unique; [apply head_segment_closed, L'|apply head_segment_closed, L|]. now rewrite <- E', <- E2. }
  destruct (first_star (RSeq (chr ",") ITEM) rest) with (l := map (fun y => [ch ","] ++ y) l) (st := m) as (m' & H' & Em').
  - intros st' Es. apply lang_dec_none; [exact pure_item|]. intros w s' E2 (x & y & -> & Lx & Ly). apply lang_chr in Lx. subst x.
    rewrite Es in E2. now apply C in E2.
  - exact Em.
  - apply Forall_forall. intros x I. apply in_map_iff in I as (y & <- & _). discriminate.
  - intros l1 x l2 El st' Es.
    assert (Lx : lang (RSeq (chr ",") ITEM) x).
    { assert (I : In x (map (fun y => [ch ","] ++ y) l)) by (rewrite El; apply in_elt). apply in_map_iff in I as (y & <- & I).
      rewrite Forall_forall in F. exists [ch ","], y. split; [reflexivity|]. split; [now apply lang_chr|now apply F]. }
    apply (first_unique _ _ _ _ pure_item Es Lx). intros w' s'' E2 L'.
    eapply closed_unique; [apply comma_item_closed, L'|apply comma_item_closed, Lx|]. now rewrite <- Es, <- E2.
  - exists m'. split; [|exact Em']. unfold SEGMENT_GROUP. fold HEAD ITEM. unfold first. rewrite runs_assoc. exact (first_seq _ _ _ _ _ H H').
Qed.

Lemma group_bracket g : group_line g -> In chr_rbracket g.
Proof.
  intros (h & s & l & -> & _ & (k & b & -> & _) & _). rewrite !in_app_iff. cbn. auto 10.
Qed.
Lemma is_ws_layout c : is_ws c = true <-> layout c.
Proof.
  unfold is_ws, layout. rewrite !orb_true_iff, !N.eqb_eq. cbn [In]. intuition auto.
Qed.

Lemma first_chain st w rest : st_rest st = w ++ rest -> tree_text w -> Forall layout rest ->
  exists m, first SEGMENT_GROUP_CHAIN st = Some m /\ st_rest m = rest.
Proof.
  intros E (v & -> & g & l & G & F & ->) W.
  assert (B : forall r, rest <> ch "," :: r).
  { intros r ->. inversion W as [|? ? H _]. unfold layout in H. cbn in H. intuition discriminate. }
  assert (B2 : forall (k : list pystr) r, concat (map (fun y => [chr_newline] ++ y) k) ++ rest <> ch "," :: r).
  { intros [|x k] r; [apply B|discriminate]. }
  set (K := concat (map (fun y => [chr_newline] ++ y) l)) in *.
  set (m1 := mkst (S (st_pos st)) (u ":" ++ (g ++ K) ++ rest) (st_caps st)).
  assert (F1 : first ROOT_NODE st = Some m1) by (unfold first, ROOT_NODE, chr; cbn [runs]; rewrite E; reflexivity).
  set (m2 := mkst (S (st_pos m1)) ((g ++ K) ++ rest) (st_caps m1)).
  assert (F2 : first (chr ":") m1 = Some m2) by (unfold first, chr; cbn [runs]; reflexivity).
  destruct (first_group m2 g (K ++ rest)) as (m3 & F3 & E3); [cbn; now rewrite <- app_assoc|exact G|apply B2|].
  destruct (first_star (RSeq (RChar (N.eqb chr_newline)) SEGMENT_GROUP) rest) with (l := map (fun y => [chr_newline] ++ y) l) (st := m3)
    as (m4 & F4 & E4).
  - intros st' Es. apply lang_dec_none; [split; [exact I|exact pure_group]|]. intros w s' E2 (x & y & -> & _ & Ly).
    apply lang_group, group_bracket in Ly. rewrite Forall_forall in W.
    assert (I : In chr_rbracket rest) by (rewrite <- Es, E2, !in_app_iff; auto). apply W in I. unfold layout in I. cbn in I. intuition discriminate.
  - exact E3.
  - apply Forall_forall. intros x I. apply in_map_iff in I as (y & <- & _). discriminate.
  - intros l1 x l2 El st' Es.
    assert (I : In x (map (fun y => [chr_newline] ++ y) l)) by (rewrite El; apply in_elt). apply in_map_iff in I as (y & <- & I).
    assert (E2 : exists k, l2 = map (fun y => [chr_newline] ++ y) k).
    { clear - El. revert l El. induction l1 as [|a l1 IH]; intros [|b l] El; cbn in El; try discriminate.
      - injection El as _ El. eauto.
      - injection El as _ El. eauto. }
    destruct E2 as (k & ->). set (r := concat (map (fun y => [chr_newline] ++ y) k) ++ rest) in *.
    rewrite Forall_forall in F.
    set (n1 := mkst (S (st_pos st')) (y ++ r) (st_caps st')).
    assert (H1 : first (RChar (N.eqb chr_newline)) st' = Some n1) by (unfold first; cbn [runs]; rewrite Es; reflexivity).
    destruct (first_group n1 y r) as (n2 & H2 & En); [reflexivity|now apply F|apply B2|]. exists n2. split; [|exact En].
    exact (first_seq _ _ _ _ _ H1 H2).
  - exists m4. split; [|exact E4]. unfold SEGMENT_GROUP_CHAIN.
    exact (first_seq _ _ _ _ _ F1 (first_seq _ _ _ _ _ F2 (first_seq _ _ _ _ _ F3 F4))).
Qed.

(** ** Parsing *)

Lemma skip_ws_spec s : exists a, s = a ++ skip_ws s /\ Forall layout a.
Proof.
  induction s as [|c s (a & E & F)]; [exists []; auto|]. cbn. destruct (is_ws c) eqn:W; [|exists []; auto].
  exists (c :: a). split; [cbn; now f_equal|]. constructor; [now apply is_ws_layout|exact F].
Qed.
Lemma skip_ws_app a s : Forall layout a -> skip_ws (a ++ s) = skip_ws s.
Proof. induction 1 as [|c a H F IH]; [reflexivity|]. cbn. apply is_ws_layout in H. now rewrite H. Qed.
Lemma skip_ws_all a : Forall layout a -> skip_ws a = [].
Proof. intros F. rewrite <- (app_nil_r a). now rewrite skip_ws_app. Qed.
Lemma skip_ws_tree w s : tree_text w -> skip_ws (w ++ s) = w ++ s.
Proof. intros (v & -> & _). reflexivity. Qed.

Lemma lark_parse_spec t w :
  lark_parse t = Ok w <-> tree_text w /\ exists a b, t = a ++ w ++ b /\ Forall layout a /\ Forall layout b.
Proof.
  unfold lark_parse, re_match. fold (first SEGMENT_GROUP_CHAIN (start (skip_ws t))). split.
  - destruct (first SEGMENT_GROUP_CHAIN (start (skip_ws t))) as [st|] eqn:E; [|discriminate].
    destruct (skip_ws (st_rest st)) as [|c r] eqn:B; [|discriminate]. intros [= <-].
    assert (I : In st (runs SEGMENT_GROUP_CHAIN (start (skip_ws t)))).
    { unfold first in E. destruct (runs SEGMENT_GROUP_CHAIN (start (skip_ws t))); [discriminate|]. injection E as ->. now left. }
    destruct (runs_lang _ _ _ pure_chain I) as (w & R & L). cbn in R. apply lang_tree in L.
    destruct (runs_advance _ _ _ I) as (w' & R' & P). cbn in R', P.
    assert (w' = w) by (rewrite R in R'; now apply app_inv_tail in R'). subst w'.
    rewrite R, P. cbn [Nat.add]. rewrite firstn_app, Nat.sub_diag, firstn_all. cbn [firstn]. rewrite app_nil_r. split; [exact L|].
    destruct (skip_ws_spec t) as (a & Ea & Fa). destruct (skip_ws_spec (st_rest st)) as (b & Eb & Fb). rewrite B, app_nil_r in Eb.
    exists a, (st_rest st). split; [now rewrite <- R|]. split; [exact Fa|]. now rewrite Eb.
  - intros (T & a & b & -> & Fa & Fb). rewrite (skip_ws_app a _ Fa), (skip_ws_tree w b T).
    destruct (first_chain (start (w ++ b)) w b eq_refl T Fb) as (m & E & R). rewrite E, R, (skip_ws_all b Fb). f_equal.
    assert (I : In m (runs SEGMENT_GROUP_CHAIN (start (w ++ b)))).
    { unfold first in E. destruct (runs SEGMENT_GROUP_CHAIN (start (w ++ b))); [discriminate|]. injection E as ->. now left. }
    destruct (runs_advance _ _ _ I) as (w' & R' & P). cbn in R', P. rewrite R in R'. apply app_inv_tail in R'. subst w'.
    rewrite P. cbn [Nat.add]. rewrite firstn_app, Nat.sub_diag, firstn_all. cbn [firstn]. apply app_nil_r.
Qed.
Lemma lark_parse_raise t e : lark_parse t = Raise e -> e = LarkError.
Proof.
  unfold lark_parse. destruct (re_match SEGMENT_GROUP_CHAIN (skip_ws t)) as [st|]; [|congruence].
  destruct (skip_ws (st_rest st)); congruence.
Qed.
