(** Lemmas about the qualifiers nested in the attributes of a MIG. *)
From Coq Require Import Ascii String List NArith ZArith Bool Lia Arith.
From Verif Require Import PyBase PyStr PyRe M_Components M_Navigation M_Xml M_MigXml S_Text L_Base L_Re L_Str L_Validators L_FlatAhb L_ValuePool L_Caps S_MigXml.
Import ListNotations.
Local Open Scope list_scope.

(** ** the language of a pattern that does not look around *)
Definition lang (r : re) (L : pystr -> Prop) : Prop := forall pos s s', acc r pos s s' <-> exists w, L w /\ s = w ++ s'.
Definition followed_by (A B : pystr -> Prop) (w : pystr) : Prop := exists x y, A x /\ B y /\ w = x ++ y.

Lemma lang_lit w : lang (RLit w) (eq w).
Proof. intros pos s s'. rewrite acc_lit. split; [intros ->; eauto|intros (x & <- & ->); reflexivity]. Qed.
Lemma lang_word p : lang (RPlus (RChar p)) (word p).
Proof.
  intros pos s s'. unfold RPlus. rewrite acc_plus_char. split.
  - intros (w & -> & N & F). exists w. split; [|reflexivity]. split; [exact N|now apply all_forallb].
  - intros (w & [N F] & ->). exists w. split; [reflexivity|]. split; [exact N|now apply all_forallb].
Qed.
Lemma lang_seq a b A B : lang a A -> lang b B -> lang (RSeq a b) (followed_by A B).
Proof.
  intros Ha Hb pos s s'. rewrite acc_seq. split.
  - intros (m & X & Y). apply Ha in X as (x & Hx & ->). apply Hb in Y as (y & Hy & ->). exists (x ++ y).
    split; [exists x, y; auto|now rewrite app_assoc].
  - intros (w & (x & y & Hx & Hy & ->) & ->). rewrite <- app_assoc. exists (y ++ s'). split; [apply Ha; eauto|apply Hb; eauto].
Qed.
Lemma lang_alt a b A B : lang a A -> lang b B -> lang (RAlt a b) (fun w => A w \/ B w).
Proof.
  intros Ha Hb pos s s'. rewrite acc_alt, (Ha pos s s'), (Hb pos s s'). split.
  - intros [(w & H & E)|(w & H & E)]; eauto.
  - intros (w & [H|H] & E); eauto.
Qed.
Lemma lang_opt a A : lang a A -> lang (ROpt a) (fun w => w = [] \/ A w).
Proof.
  intros Ha pos s s'. rewrite acc_opt, (Ha pos s s'). split.
  - intros [(w & H & E)| ->]; [eauto|exists []; auto].
  - intros (w & [-> |H] & E); [right; now rewrite E|eauto].
Qed.
Lemma lang_cap n a A : lang a A -> lang (RCap n a) A.
Proof. intros Ha pos s s'. rewrite acc_cap. apply Ha. Qed.
Lemma lang_weaken a A B : lang a A -> (forall w, A w <-> B w) -> lang a B.
Proof. intros Ha E pos s s'. rewrite (Ha pos s s'). split; intros (w & H & X); exists w; (split; [apply E, H|exact X]). Qed.
Lemma lang_star g a A : lang a A -> (forall w, A w -> w <> []) -> lang (RStar g a) (fun w => exists ws, Forall A ws /\ w = concat ws).
Proof.
  intros Ha N pos s s'. cbn [acc]. split.
  - intros H. induction H as [pos s|pos s s' s'' H L _ (w & (ws & F & ->) & ->)].
    + exists []. split; [exists []; auto|reflexivity].
    + apply Ha in H as (x & Hx & ->). exists (x ++ concat ws). split; [exists (x :: ws); auto|now rewrite app_assoc].
  - intros (w & (ws & F & ->) & ->). revert pos. induction F as [|x ws Hx F IH]; intros pos; cbn [concat].
    + constructor.
    + rewrite <- app_assoc. apply (star_step _ _ _ (concat ws ++ s')).
      * apply Ha. eauto.
      * rewrite (app_length x). specialize (N x Hx). destruct x; [congruence|cbn [List.length]; lia].
      * apply IH.
Qed.
Lemma lang_plus a A : lang a A -> (forall w, A w -> w <> []) -> lang (RPlus a) (fun w => exists ws, ws <> [] /\ Forall A ws /\ w = concat ws).
Proof.
  intros Ha N. unfold RPlus. eapply lang_weaken; [apply lang_seq; [exact Ha|apply lang_star; [exact Ha|exact N]]|].
  intros w. split.
  - intros (x & y & Hx & (ws & F & ->) & ->). exists (x :: ws). split; [discriminate|auto].
  - intros ([|x ws] & Hn & F & ->); [congruence|]. inversion F; subst. exists x, (concat ws). eauto.
Qed.

(** ** the pieces *)
Lemma lang_place : lang re_place place.
Proof.
  unfold re_place. eapply lang_weaken.
  - apply lang_alt; [apply lang_word|]. apply lang_seq; [apply lang_lit|]. apply lang_seq; [apply lang_word|].
    apply lang_seq; [apply lang_lit|]. apply lang_seq; [apply lang_word|apply lang_lit].
  - intros w. unfold place, number, followed_by. split.
    + intros [H|(? & ? & <- & (a & ? & Ha & (? & ? & <- & (b & ? & Hb & <- & ->) & ->) & ->) & ->)]; [auto|right; eauto].
    + intros [H|(a & b & Ha & Hb & ->)]; [auto|right]. eexists. eexists. split; [reflexivity|]. split; [|reflexivity].
      exists a. eexists. split; [exact Ha|]. split; [|reflexivity]. eexists. eexists. split; [reflexivity|]. split; [|reflexivity].
      exists b. eexists. split; [exact Hb|]. split; reflexivity.
Qed.
Definition re_head : re :=
  RSeq (RCap 1 (RPlus (RChar is_AZ))) (RSeq (RLit (u ":")) (RSeq re_number (RSeq (RLit (u ":")) (RSeq re_place (RLit (u "[")))))).
Definition head_text (w : pystr) : Prop :=
  exists code n m, word is_AZ code /\ number n /\ place m /\ w = code ++ u ":" ++ n ++ u ":" ++ m ++ u "[".
Lemma lang_head : lang re_head head_text.
Proof.
  unfold re_head. eapply lang_weaken.
  - apply lang_seq; [apply lang_cap, lang_word|]. apply lang_seq; [apply lang_lit|]. apply lang_seq; [apply lang_word|].
    apply lang_seq; [apply lang_lit|]. apply lang_seq; [apply lang_place|apply lang_lit].
  - intros w. unfold followed_by, head_text. split.
    + intros (c & ? & Hc & (? & ? & <- & (n & ? & Hn & (? & ? & <- & (m & ? & Hm & <- & ->) & ->) & ->) & ->) & ->). exists c, n, m. auto.
    + intros (c & n & m & Hc & Hn & Hm & ->). exists c. eexists. split; [exact Hc|]. split; [|reflexivity].
      eexists. eexists. split; [reflexivity|]. split; [|reflexivity]. exists n. eexists. split; [exact Hn|]. split; [|reflexivity].
      eexists. eexists. split; [reflexivity|]. split; [|reflexivity]. exists m. eexists. split; [exact Hm|]. split; reflexivity.
Qed.
Definition re_path : re :=
  RSeq (RPlus (RSeq (RPlus (RChar is_word)) (RLit (u ":")))) (RSeq (RPlus (RChar is_word)) (ROpt (RLit (u ":")))).
Lemma word_nonempty p w : word p w -> w <> [].
Proof. intros [H _]. exact H. Qed.
Lemma lang_path : lang re_path colon_path.
Proof.
  unfold re_path. eapply lang_weaken.
  - apply lang_seq; [apply lang_plus; [apply lang_seq; [apply lang_word|apply lang_lit]|]|apply lang_seq; [apply lang_word|apply lang_opt, lang_lit]].
    intros w (x & y & [Hx _] & <- & ->). destruct x; [congruence|discriminate].
  - intros w. unfold followed_by, colon_path. split.
    + intros (? & ? & (ws & Nw & F & ->) & (x & y & Hx & Hy & ->) & ->).
      assert (K : exists vs, vs <> [] /\ Forall (word is_word) vs /\ concat ws = flat_map (fun x => x ++ u ":") vs).
      { clear -Nw F. assert (K : exists vs, (ws <> [] -> vs <> []) /\ Forall (word is_word) vs /\ concat ws = flat_map (fun x => x ++ u ":") vs).
        { clear Nw. induction F as [|w ws (a & b & Ha & <- & ->) F (vs & _ & Fv & E)].
          - exists []. auto.
          - exists (a :: vs). split; [discriminate|]. split; [auto|]. cbn [concat flat_map]. now rewrite E. }
        destruct K as (vs & Hv & Fv & E). exists vs. auto. }
      destruct K as (vs & Nv & Fv & ->). exists vs, x, y. split; [exact Nv|]. split; [exact Fv|]. split; [exact Hx|]. split; [|reflexivity]. destruct Hy as [-> |<-]; auto.
    + intros (ws & w0 & e & Nw & F & Hw & He & ->). exists (flat_map (fun x => x ++ u ":") ws). eexists.
      split; [|split; [|reflexivity]].
      * exists (map (fun x => x ++ u ":") ws). split; [destruct ws; [congruence|discriminate]|]. split.
        -- apply Forall_map. eapply Forall_impl; [|exact F]. intros a Ha. exists a, (u ":"). auto.
        -- now rewrite flat_map_concat_map.
      * exists w0, e. intuition.
Qed.
Definition re_item : re :=
  RSeq (ROpt (RSeq (RPlus (RChar is_AZ)) (RLit (u ":")))) (RSeq re_number (RSeq (RLit (u ":")) (RSeq re_number (RSeq (RLit (u "=")) (RPlus (RChar is_AZd)))))).
Lemma lang_item : lang re_nested_item (fun w => exists x y, (exists q, item x q) /\ (y = [] \/ y = u "|") /\ w = x ++ y).
Proof.
  unfold re_nested_item. eapply lang_weaken.
  - apply lang_seq; [apply lang_opt, lang_seq; [apply lang_word|apply lang_lit]|]. apply lang_seq; [apply lang_word|]. apply lang_seq; [apply lang_lit|].
    apply lang_seq; [apply lang_word|]. apply lang_seq; [apply lang_lit|]. apply lang_seq; [apply lang_word|apply lang_opt, lang_lit].
  - intros w. unfold followed_by, item. split.
    + intros (p & ? & Hp & (a & ? & Ha & (? & ? & <- & (b & ? & Hb & (? & ? & <- & (q & y & Hq & Hy & ->) & ->) & ->) & ->) & ->) & ->).
      exists (p ++ a ++ u ":" ++ b ++ u "=" ++ q), y. split; [|split; [intuition|rewrite <- !app_assoc; reflexivity]].
      exists q, p, a, b. split; [|auto]. destruct Hp as [-> |(c & ? & Hc & <- & ->)]; [auto|right; eauto].
    + intros (x & y & (q & p & a & b & Hp & Ha & Hb & Hq & ->) & Hy & ->). exists p. eexists. split; [|split; [|rewrite <- !app_assoc; reflexivity]].
      { destruct Hp as [-> |(c & Hc & ->)]; [auto|right]. exists c, (u ":"). auto. }
      exists a. eexists. split; [exact Ha|]. split; [|reflexivity]. eexists. eexists. split; [reflexivity|]. split; [|reflexivity].
      exists b. eexists. split; [exact Hb|]. split; [|reflexivity]. eexists. eexists. split; [reflexivity|]. split; [|reflexivity].
      exists q, y. split; [exact Hq|]. split; [|reflexivity]. destruct Hy as [-> | ->]; auto.
Qed.
Lemma item_nonempty x q : item x q -> x <> [].
Proof. intros (p & a & b & Hp & [Ha _] & Hb & Hq & ->). destruct p; [|discriminate]. destruct a; [congruence|discriminate]. Qed.
Lemma lang_items : lang (RPlus re_nested_item) loose_items.
Proof.
  eapply lang_weaken; [apply lang_plus; [apply lang_item|]|].
  - intros w (x & y & (q & Hx) & _ & ->). apply item_nonempty in Hx. destruct x; [congruence|discriminate].
  - intros w. unfold loose_items. split.
    + intros (ws & N & F & ->).
      assert (K : exists items : list (pystr * pystr), (ws <> [] -> items <> []) /\ Forall (fun x => (exists q, item (fst x) q) /\ (snd x = [] \/ snd x = u "|")) items
          /\ concat ws = flat_map (fun x => fst x ++ snd x) items).
      { clear N. induction F as [|w ws (x & y & Hx & Hy & ->) F (items & _ & Fi & E)].
        - exists []. auto.
        - exists ((x, y) :: items). split; [discriminate|]. split; [auto|]. cbn [concat flat_map fst snd]. now rewrite E. }
      destruct K as (items & Hi & Fi & E). exists items. auto.
    + intros (items & N & F & ->). exists (map (fun x => fst x ++ snd x) items). split; [destruct items; [congruence|discriminate]|]. split.
      * apply Forall_map. eapply Forall_impl; [|exact F]. intros [x y] [Hx Hy]. exists x, y. auto.
      * now rewrite flat_map_concat_map.
Qed.

(** ** what is in the brackets is unique *)
Lemma class_out p c : p c = false -> forall w, word p w -> ~ In c w.
Proof. intros Hp w [_ H]. exact (not_in_all p w c H Hp). Qed.
Ltac no_char := let K := fresh "K" in intros K; repeat (apply in_app_or in K as [K|K]);
  try (vm_compute in K; intuition discriminate); revert K; eapply class_out; try eassumption; vm_compute; reflexivity.
Ltac same := match goal with N : ?c <> ?d, H : _ = ?c |- _ => exfalso; apply N; symmetry; exact H end.
Lemma place_out c m : is_decimal c = false -> c <> ch "(" -> c <> ch "," -> c <> ch ")" -> place m -> ~ In c m.
Proof.
  intros D L C R [H|(a & b & Ha & Hb & ->)] K; [exact (class_out _ c D _ H K)|].
  apply in_app_or in K as [[K|[]]|K]; [same|]. apply in_app_or in K as [K|K]; [exact (class_out _ c D _ Ha K)|].
  apply in_app_or in K as [[K|[]]|K]; [same|]. apply in_app_or in K as [K|K]; [exact (class_out _ c D _ Hb K)|].
  destruct K as [K|[]]. same.
Qed.
Lemma head_out c code n m : is_AZ c = false -> is_decimal c = false -> c <> ch ":" -> c <> ch "(" -> c <> ch "," -> c <> ch ")" ->
  word is_AZ code -> number n -> place m -> ~ In c (code ++ u ":" ++ n ++ u ":" ++ m).
Proof.
  intros A D C L K R Hc Hn Hm H. apply in_app_or in H as [H|H]; [exact (class_out _ c A _ Hc H)|].
  apply in_app_or in H as [[H|[]]|H]; [same|]. apply in_app_or in H as [H|H]; [exact (class_out _ c D _ Hn H)|].
  apply in_app_or in H as [[H|[]]|H]; [same|]. revert H. now apply place_out.
Qed.
Lemma bracketed_unique s i i' : bracketed s i -> bracketed s i' -> ~ In (ch "]") i -> ~ In (ch "]") i' -> i = i'.
Proof.
  intros (c & n & m & t & Hc & Hn & Hm & Ht & ->) (c' & n' & m' & t' & Hc' & Hn' & Hm' & Ht' & E) N N'.
  assert (O1 : ~ In (ch "[") (c ++ u ":" ++ n ++ u ":" ++ m)) by (apply head_out; auto; vm_compute; (reflexivity || discriminate)).
  assert (O2 : ~ In (ch "[") (c' ++ u ":" ++ n' ++ u ":" ++ m')) by (apply head_out; auto; vm_compute; (reflexivity || discriminate)).
  assert (S1 : forall c n m i t, c ++ u ":" ++ n ++ u ":" ++ m ++ u "[" ++ i ++ u "]" ++ t = (c ++ u ":" ++ n ++ u ":" ++ m) ++ ch "[" :: (i ++ ch "]" :: t))
    by (intros; rewrite <- !app_assoc; reflexivity).
  rewrite !S1 in E. apply split_first in E as [_ E]; [|exact O1|exact O2]. apply split_first in E as [E _]; assumption.
Qed.

Lemma colon_path_out c p : is_word c = false -> c <> ch ":" -> colon_path p -> ~ In c p.
Proof.
  intros W C (ws & w & e & _ & F & Hw & He & ->) H. apply in_app_or in H as [H|H].
  - apply in_flat_map in H as (x & Hx & H). rewrite Forall_forall in F. apply F in Hx. apply in_app_or in H as [H|[H|[]]]; [|same].
    exact (class_out _ c W _ Hx H).
  - apply in_app_or in H as [H|H]; [exact (class_out _ c W _ Hw H)|]. destruct He as [-> | ->]; [destruct H|]. destruct H as [H|[]]. same.
Qed.
Lemma qualifier_out c q : is_AZ c = false -> is_decimal c = false -> qualifier_text q -> ~ In c q.
Proof. intros A D H. apply (class_out (fun c => is_AZ c || is_decimal c)); [now rewrite A, D|exact H]. Qed.
Lemma one_inner_out c path q : is_word c = false -> c <> ch ":" -> c <> ch "=" -> is_AZ c = false -> is_decimal c = false ->
  colon_path path -> qualifier_text q -> ~ In c (path ++ u "=" ++ q).
Proof.
  intros W C E A D Hp Hq H. apply in_app_or in H as [H|H]; [revert H; now apply colon_path_out|].
  apply in_app_or in H as [[H|[]]|H]; [same|]. revert H. now apply qualifier_out.
Qed.
Lemma split_equals a q a' q' : ~ In (ch "=") a -> ~ In (ch "=") a' -> a ++ u "=" ++ q = a' ++ u "=" ++ q' -> q = q'.
Proof. intros N N' E. change (a ++ ch "=" :: q = a' ++ ch "=" :: q') in E. apply split_first in E as [_ E]; assumption. Qed.
Lemma one_qualifier_unique s q q' : one_qualifier s q -> one_qualifier s q' -> q = q'.
Proof.
  intros (p & Hp & Hq & B) (p' & Hp' & Hq' & B').
  assert (E : p ++ u "=" ++ q = p' ++ u "=" ++ q').
  { eapply bracketed_unique; [exact B|exact B'| |]; apply one_inner_out; auto; vm_compute; (reflexivity || discriminate). }
  eapply split_equals; [| |exact E]; (apply colon_path_out; [vm_compute; reflexivity|vm_compute; discriminate|assumption]).
Qed.
(** an item is something without "=", "=" and the qualifier *)
Lemma item_equals x q : item x q -> exists a, x = a ++ u "=" ++ q /\ ~ In (ch "=") a /\ qualifier_text q.
Proof.
  intros (p & a & b & Hp & Ha & Hb & Hq & ->). exists (p ++ a ++ u ":" ++ b). rewrite <- !app_assoc. split; [reflexivity|]. split; [|exact Hq].
  intros H. apply in_app_or in H as [H|H].
  - destruct Hp as [-> |(c & Hc & ->)]; [destruct H|]. apply in_app_or in H as [H|[H|[]]]; [|vm_compute in H; discriminate].
    revert H. apply (class_out is_AZ); [vm_compute; reflexivity|exact Hc].
  - apply in_app_or in H as [H|H]; [revert H; apply (class_out is_decimal); [vm_compute; reflexivity|exact Ha]|].
    apply in_app_or in H as [[H|[]]|H]; [vm_compute in H; discriminate|]. revert H. apply (class_out is_decimal); [vm_compute; reflexivity|exact Hb].
Qed.
Lemma item_out c x q : is_AZ c = false -> is_decimal c = false -> c <> ch ":" -> c <> ch "=" -> item x q -> ~ In c x.
Proof.
  intros A D C E (p & a & b & Hp & Ha & Hb & Hq & ->) H. apply in_app_or in H as [H|H].
  - destruct Hp as [-> |(w & Hc & ->)]; [destruct H|]. apply in_app_or in H as [H|[H|[]]]; [|same]. exact (class_out _ c A _ Hc H).
  - apply in_app_or in H as [H|H]; [exact (class_out _ c D _ Ha H)|]. apply in_app_or in H as [[H|[]]|H]; [same|].
    apply in_app_or in H as [H|H]; [exact (class_out _ c D _ Hb H)|]. apply in_app_or in H as [[H|[]]|H]; [same|]. revert H. now apply qualifier_out.
Qed.
Lemma loose_out i : loose_items i -> ~ In (ch "]") i.
Proof.
  intros (items & _ & F & ->) H. apply in_flat_map in H as (x & Hx & H). rewrite Forall_forall in F. apply F in Hx as ((q & Hq) & Hs).
  apply in_app_or in H as [H|H].
  - revert H. eapply item_out; try exact Hq; vm_compute; (reflexivity || discriminate).
  - destruct x as [x y]; cbn [fst snd] in *. destruct Hs as [-> | ->]; [destruct H|]. destruct H as [H|[]]. vm_compute in H. discriminate.
Qed.
Lemma loose_unique s i i' : loose_reference s i -> loose_reference s i' -> i = i'.
Proof. intros [L B] [L' B']. eapply bracketed_unique; eauto using loose_out. Qed.

(** ** matching *)
Definition re_single' : re :=
  RSeq (RSeq re_head (RSeq re_path (RLit (u "=")))) (RSeq (RCap 2 (RPlus (RChar is_AZd))) (RSeq (RLit (u "]")) REol)).
Definition re_multi' : re := RSeq re_head (RSeq (RCap 2 (RPlus re_nested_item)) (RSeq (RLit (u "]")) REol)).
Lemma runs_seq' a b st : runs (RSeq a b) st = flat_map (runs b) (runs a st).
Proof. reflexivity. Qed.
Lemma seq_ext a b b' st : (forall st, runs b st = runs b' st) -> runs (RSeq a b) st = runs (RSeq a b') st.
Proof. intros H. rewrite !runs_seq'. apply flat_map_ext. exact H. Qed.
Lemma single_runs s : runs re_single_qualifier (start s) = runs re_single' (start s).
Proof.
  transitivity (runs (RSeq re_head (RSeq re_path (RSeq (RLit (u "=")) (RSeq (RCap 2 (RPlus (RChar is_AZd))) (RSeq (RLit (u "]")) REol))))) (start s)).
  - unfold re_single_qualifier. rewrite runs_seq'. change (runs RBol (start s)) with [start s]. cbn [flat_map]. rewrite app_nil_r.
    unfold re_head. symmetry. do 5 (rewrite <- runs_assoc; apply seq_ext; intros ?).
    apply seq_ext; intros ?. unfold re_path. rewrite <- runs_assoc. apply seq_ext; intros ?. rewrite <- runs_assoc. reflexivity.
  - unfold re_single'. symmetry. rewrite <- runs_assoc. apply seq_ext; intros ?. now rewrite <- runs_assoc.
Qed.
Lemma multi_runs s : runs re_multiple_qualifiers (start s) = runs re_multi' (start s).
Proof.
  unfold re_multi', re_head. symmetry. do 5 (rewrite <- runs_assoc; apply seq_ext; intros ?). reflexivity.
Qed.
Lemma single_in s st : In st (runs re_single_qualifier (start s)) -> exists q, one_qualifier s q /\ group 2 st = Some q.
Proof.
  intros H.
  rewrite single_runs in H. apply seq_captured in H as (m & w & r & A & B & C & G); [|reflexivity|reflexivity]. cbn [start st_pos st_rest] in A.
  apply (lang_seq _ _ _ _ lang_head (lang_seq _ _ _ _ lang_path (lang_lit _))) in A.
  destruct A as (? & (h & ? & (code & n & pl & Hc & Hn & Hp & ->) & (path & ? & Hpath & <- & ->) & ->) & E).
  apply lang_word in B as (w' & Hw & Ew). apply app_inv_tail in Ew as <-.
  rewrite acc_seq in C. destruct C as (m' & C1 & C2). apply acc_lit in C1 as ->. apply acc_eol in C2 as [_ C2].
  exists w. split; [|exact G]. exists path. split; [exact Hpath|]. split; [exact Hw|]. exists code, n, pl, m'.
  split; [exact Hc|]. split; [exact Hn|]. split; [exact Hp|]. split; [exact C2|]. rewrite E, <- !app_assoc. reflexivity.
Qed.
Lemma single_matches s q : one_qualifier s q -> exists st, re_match re_single_qualifier s = Some st /\ group 2 st = Some q.
Proof.
  intros H. destruct (re_match re_single_qualifier s) as [st|] eqn:E.
  - exists st. split; [reflexivity|]. apply re_match_in, single_in in E as (q' & H' & G). now rewrite (one_qualifier_unique _ _ _ H H').
  - exfalso. destruct H as (path & Hpath & Hq & (code & n & m & t & Hc & Hn & Hm & Ht & ->)).
    unfold re_match in E. rewrite single_runs in E. refine (re_match_none re_single' _ E t _).
    assert (A : acc (RSeq (RSeq re_head (RSeq re_path (RLit (u "=")))) (RSeq (RCap 2 (RPlus (RChar is_AZd))) (RSeq (RLit (u "]")) REol))) 0
       (code ++ u ":" ++ n ++ u ":" ++ m ++ u "[" ++ (path ++ u "=" ++ q) ++ u "]" ++ t) t).
    { rewrite acc_seq. exists (q ++ u "]" ++ t). split.
      - apply (lang_seq _ _ _ _ lang_head (lang_seq _ _ _ _ lang_path (lang_lit _))).
        exists ((code ++ u ":" ++ n ++ u ":" ++ m ++ u "[") ++ path ++ u "="). split; [|rewrite <- !app_assoc; reflexivity].
        eexists. eexists. split; [exists code, n, m; auto|]. split; [|reflexivity]. exists path, (u "="). auto.
      - rewrite acc_seq. exists (u "]" ++ t). split; [apply acc_cap, lang_word; exists q; auto|].
        rewrite acc_seq. exists t. split; [now apply acc_lit|]. apply acc_eol. auto. }
    exact A.
Qed.
Lemma multi_in s st : In st (runs re_multiple_qualifiers (start s)) -> exists i, loose_reference s i /\ group 2 st = Some i.
Proof.
  intros H. rewrite multi_runs in H. apply seq_captured in H as (m & w & r & A & B & C & G); [|reflexivity|reflexivity]. cbn [start st_pos st_rest] in A.
  apply lang_head in A as (? & (code & n & pl & Hc & Hn & Hp & ->) & E).
  apply lang_items in B as (w' & Hw & Ew). apply app_inv_tail in Ew as <-.
  rewrite acc_seq in C. destruct C as (m' & C1 & C2). apply acc_lit in C1 as ->. apply acc_eol in C2 as [_ C2].
  exists w. split; [|exact G]. split; [exact Hw|]. exists code, n, pl, m'.
  split; [exact Hc|]. split; [exact Hn|]. split; [exact Hp|]. split; [exact C2|]. rewrite E, <- !app_assoc. reflexivity.
Qed.
Lemma multi_matches s i : loose_reference s i -> exists st, re_match re_multiple_qualifiers s = Some st /\ group 2 st = Some i.
Proof.
  intros H. destruct (re_match re_multiple_qualifiers s) as [st|] eqn:E.
  - exists st. split; [reflexivity|]. apply re_match_in, multi_in in E as (q' & H' & G). now rewrite (loose_unique _ _ _ H H').
  - exfalso. destruct H as (Hi & (code & n & m & t & Hc & Hn & Hm & Ht & ->)).
    unfold re_match in E. rewrite multi_runs in E. refine (re_match_none re_multi' _ E t _).
    unfold re_multi'. rewrite acc_seq. exists (i ++ u "]" ++ t). split.
    + apply lang_head. exists (code ++ u ":" ++ n ++ u ":" ++ m ++ u "["). split; [exists code, n, m; auto|rewrite <- !app_assoc; reflexivity].
    + rewrite acc_seq. exists (u "]" ++ t). split; [apply acc_cap, lang_items; exists i; auto|].
      rewrite acc_seq. exists t. split; [now apply acc_lit|]. apply acc_eol. auto.
Qed.

(** ** splitting *)
Lemma split_on_none sep s : ~ In sep s -> split_on sep s = [s].
Proof.
  induction s as [|c s IH]; intros H; cbn [split_on]; [reflexivity|].
  destruct (N.eqb_spec c sep) as [-> |N]; [exfalso; apply H; now left|]. rewrite IH by (intros K; apply H; now right). reflexivity.
Qed.
Lemma split_on_cons sep a s : ~ In sep a -> split_on sep (a ++ sep :: s) = a :: split_on sep s.
Proof.
  induction a as [|c a IH]; intros H; cbn [split_on app].
  - now rewrite N.eqb_refl.
  - destruct (N.eqb_spec c sep) as [-> |N]; [exfalso; apply H; now left|]. rewrite IH by (intros K; apply H; now right). reflexivity.
Qed.
Lemma split_on_nonempty sep s : split_on sep s <> [].
Proof. destruct s as [|c s]; cbn [split_on]; [discriminate|]. destruct (N.eqb c sep); [discriminate|]. now destruct (split_on sep s). Qed.
Lemma split_on_unique sep s ps : parts_of sep s ps -> split_on sep s = ps.
Proof.
  intros (N & -> & F). induction F as [|x ps Hx F IH]; [exfalso; apply N; reflexivity|]. destruct ps as [|y ps]; cbn [joined].
  - now apply split_on_none.
  - etransitivity; [exact (split_on_cons sep x (joined [sep] (y :: ps)) Hx)|]. f_equal. apply IH. discriminate.
Qed.
Lemma split_on_parts sep s : parts_of sep s (split_on sep s).
Proof.
  induction s as [|c s IH]; cbn [split_on].
  - split; [discriminate|]. split; [reflexivity|]. repeat constructor. intros [].
  - destruct IH as (N & E & F). destruct (N.eqb_spec c sep) as [-> |Nc].
    + split; [discriminate|]. split; [|constructor; [intros []|exact F]]. cbn [joined]. destruct (split_on sep s); [congruence|]. cbn [app]. now rewrite <- E.
    + destruct (split_on sep s) as [|w ws]; [congruence|]. inversion F as [|? ? Hw Fw]; subst. split; [discriminate|]. split.
      * destruct ws; cbn [joined] in *; [reflexivity|reflexivity].
      * constructor; [|exact Fw]. intros [K|K]; [congruence|]. now apply Hw.
Qed.
Lemma second_split piece q : second (split_on (ch "=") piece) = Ok q <-> behind_equals piece q.
Proof.
  destruct (split_on_parts (ch "=") piece) as (N & E & F).
  destruct (split_on (ch "=") piece) as [|a [|b r]] eqn:S; cbn [second].
  - congruence.
  - split; [discriminate|]. intros (a' & rest & E' & _). exfalso. cbn in E. subst a. inversion F as [|? ? Ha _]; subst. apply Ha.
    apply in_or_app. right. now left.
  - inversion F as [|? ? Ha F']; subst. inversion F' as [|? ? Hb Fr]; subst. split.
    + intros [= <-]. destruct r as [|c r].
      * exists a, []. cbn [joined]. rewrite app_nil_r. repeat split; auto.
      * exists a, (u "=" ++ joined [ch "="] (c :: r)). repeat split; auto. right. eauto.
    + intros (a' & rest & E' & Ha' & Hq & Hr).
      assert (J : joined [ch "="] (a :: b :: r) = a ++ ch "=" :: joined [ch "="] (b :: r)) by reflexivity.
      rewrite J in E'. change (u "=" ++ q ++ rest) with (ch "=" :: q ++ rest) in E'. apply split_first in E' as [<- E']; [|exact Ha|exact Ha'].
      f_equal. destruct Hr as [-> |(r' & ->)].
      * rewrite app_nil_r in E'. destruct r as [|c r]; [exact E'|]. exfalso. apply Hq. rewrite <- E'. cbn [joined]. apply in_or_app. right. now left.
      * destruct r as [|c r].
        -- exfalso. apply Hb. cbn [joined] in E'. rewrite E'. apply in_or_app. right. now left.
        -- assert (J2 : joined [ch "="] (b :: c :: r) = b ++ ch "=" :: joined [ch "="] (c :: r)) by reflexivity. rewrite J2 in E'.
           change (q ++ u "=" ++ r') with (q ++ ch "=" :: r') in E'. apply split_first in E' as [<- _]; auto.
Qed.
Lemma second_raise {A} (l : list A) e : second l = Raise e -> e = IndexError.
Proof. destruct l as [|a [|b r]]; cbn; congruence. Qed.
Lemma second_split_raise piece : second (split_on (ch "=") piece) = Raise IndexError <-> ~ In (ch "=") piece.
Proof.
  split.
  - intros H K. apply in_split in K as (a & b & ->).
    destruct (split_on_parts (ch "=") (a ++ ch "=" :: b)) as (N & E & F). destruct (split_on (ch "=") (a ++ ch "=" :: b)) as [|x [|y r]]; [congruence| |discriminate].
    cbn in E. inversion F as [|? ? Hx _]; subst. apply Hx. apply in_or_app. right. now left.
  - intros H. now rewrite split_on_none.
Qed.
Lemma mapM_forall2 {A B} (f : A -> result B) l l' : mapM f l = Ok l' <-> Forall2 (fun a b => f a = Ok b) l l'.
Proof.
  split.
  - revert l'; induction l as [|a l IH]; intros l'; cbn [mapM].
    + intros [= <-]. constructor.
    + intros H. apply bind_ok in H as (b & Hb & H). apply bind_ok in H as (bs & Hbs & H). injection H as <-. constructor; auto.
  - intros H. induction H as [|a b l l' Hab H IH]; cbn [mapM]; [reflexivity|]. now rewrite Hab, IH.
Qed.
Lemma mapM_raise {A B} (f : A -> result B) l e : mapM f l = Raise e -> exists a, In a l /\ f a = Raise e.
Proof.
  induction l as [|a l IH]; cbn [mapM]; [discriminate|]. destruct (f a) as [b|e'] eqn:E; cbn.
  - destruct (mapM f l) as [bs|e'']; cbn; [discriminate|]. intros [= ->]. destruct (IH eq_refl) as (x & Hx & Ex). eauto.
  - intros [= ->]. eauto.
Qed.
Lemma mapM_total {A B} (f : A -> result B) l : (forall a, In a l -> exists b, f a = Ok b) -> exists bs, mapM f l = Ok bs.
Proof.
  induction l as [|a l IH]; intros H; cbn [mapM]; [eauto|]. destruct (H a (or_introl eq_refl)) as (b & ->). destruct IH as (bs & ->); [intros; apply H; now right|].
  cbn. eauto.
Qed.

(** in a loose reference only the text behind the last separator can be empty *)
Lemma split_on_app sep a s : ~ In sep a -> exists h t, split_on sep s = h :: t /\ split_on sep (a ++ s) = (a ++ h) :: t.
Proof.
  induction a as [|c a IH]; intros H; cbn [split_on app].
  - destruct (split_on sep s) as [|h t] eqn:E; [now apply split_on_nonempty in E|]. eauto.
  - destruct (N.eqb_spec c sep) as [-> |N]; [exfalso; apply H; now left|].
    destruct IH as (h & t & E1 & E2); [intros K; apply H; now right|]. rewrite E2. eauto.
Qed.
Lemma last_snoc {A} (l : list A) x y : l ++ [x] = l ++ [y] -> x = y.
Proof. intros H. apply app_inv_head in H. congruence. Qed.
Lemma loose_pieces items : Forall (fun x : pystr * pystr => (exists q, item (fst x) q) /\ (snd x = [] \/ snd x = u "|")) items ->
  forall piece, In piece (split_on (ch "|") (flat_map (fun x => fst x ++ snd x) items)) ->
  In (ch "=") piece \/ (piece = [] /\ (items = [] \/ exists r, flat_map (fun x => fst x ++ snd x) items = r ++ u "|")).
Proof.
  intros F. induction F as [|[x y] items [(q & Hx) Hy] F IH]; intros piece Hp; cbn [flat_map fst snd] in *.
  - destruct Hp as [<-|[]]. auto.
  - assert (Nx : ~ In (ch "|") x) by (eapply item_out; try exact Hx; vm_compute; (reflexivity || discriminate)).
    assert (Ex : In (ch "=") x).
    { apply item_equals in Hx as (a & -> & _). apply in_or_app. right. now left. }
    destruct Hy as [-> | ->].
    + rewrite app_nil_r in *. destruct (split_on_app (ch "|") x (flat_map (fun x => fst x ++ snd x) items) Nx) as (h & t & E1 & E2).
      rewrite E2 in Hp. destruct Hp as [<-|Hp]; [left; apply in_or_app; auto|].
      destruct (IH piece) as [K|(-> & [-> |(r & K)])]; [rewrite E1; now right|auto| |].
      * cbn in E1. injection E1 as <- <-. destruct Hp.
      * right. split; [reflexivity|]. right. rewrite K. exists (x ++ r). now rewrite <- app_assoc.
    + change ((x ++ u "|") ++ flat_map (fun x0 => fst x0 ++ snd x0) items) with ((x ++ [ch "|"]) ++ flat_map (fun x0 => fst x0 ++ snd x0) items) in *.
      rewrite <- app_assoc in *. cbn [app] in *. rewrite split_on_cons in Hp by exact Nx. destruct Hp as [<-|Hp]; [auto|].
      destruct (IH piece Hp) as [K|(-> & [-> |(r & K)])]; [auto| |]; right; (split; [reflexivity|]); right.
      * exists x. reflexivity.
      * exists (x ++ ch "|" :: r). rewrite K, <- app_assoc. reflexivity.
Qed.
Lemma split_on_last sep s : exists l, split_on sep (s ++ [sep]) = l ++ [[]].
Proof.
  induction s as [|c s (l & IH)]; cbn [split_on app].
  - rewrite N.eqb_refl. exists [[]]. reflexivity.
  - rewrite IH. destruct (N.eqb c sep).
    + exists ([] :: l). reflexivity.
    + destruct l as [|w l]; cbn [app]; [|exists ((c :: w) :: l); reflexivity].
      exfalso. assert (K : List.length (split_on sep (s ++ [sep])) >= 2); [|rewrite IH in K; cbn in K; lia].
      clear. induction s as [|c s IH]; cbn [app split_on]; [rewrite N.eqb_refl; cbn; lia|]. destruct (N.eqb c sep); [cbn; lia|].
      destruct (split_on sep (s ++ [sep])); cbn in *; lia.
Qed.
Lemma loose_mapM i : loose_items i ->
  let r := mapM (fun e => second (split_on (ch "=") e)) (split_on (ch "|") i) in
  ((exists j, i = j ++ u "|") -> r = Raise IndexError) /\ ((~ exists j, i = j ++ u "|") -> exists qs, r = Ok qs).
Proof.
  intros (items & N & F & ->) r. split.
  - intros (j & E). destruct (split_on_last (ch "|") j) as (l & El). subst r. rewrite E. change (j ++ u "|") with (j ++ [ch "|"]). rewrite El.
    destruct (mapM (fun e => second (split_on (ch "=") e)) (l ++ [[]])) as [qs|e] eqn:M.
    + apply mapM_forall2 in M. apply Forall2_app_inv_l in M as (q1 & q2 & _ & M & _). inversion M as [|? ? ? ? K]; subst. discriminate K.
    + apply mapM_raise in M as (p & _ & M). now rewrite (second_raise _ _ M).
  - intros E. apply mapM_total. intros p Hp. destruct (second (split_on (ch "=") p)) as [q|e] eqn:S; [eauto|exfalso].
    rewrite (second_raise _ _ S) in S. apply second_split_raise in S.
    destruct (loose_pieces items F p Hp) as [K|(-> & [K|K])]; [contradiction|contradiction|]. contradiction.
Qed.

(** ** the function *)
Lemma attr_carries e k v : attr k e = Some v <-> carries e k v.
Proof.
  unfold attr, carries. generalize (el_attrib e). induction l as [|[k' v'] l IH]; cbn [dict_get].
  - split; [discriminate|]. intros ([|] & ? & E & _); discriminate.
  - destruct (str_eqb_spec k k') as [-> |N].
    + split.
      * intros [= ->]. exists [], l. split; [reflexivity|intros []].
      * intros ([|[k2 v2] b] & a & E & H).
        -- cbn in E. congruence.
        -- injection E as <- <- E. exfalso. apply H. now left.
    + rewrite IH. split.
      * intros (b & a & -> & H). exists ((k', v') :: b), a. split; [reflexivity|]. intros [K|K]; [cbn in K; congruence|contradiction].
      * intros ([|[k2 v2] b] & a & E & H).
        -- injection E as -> -> _. congruence.
        -- injection E as <- <- E. exists b, a. split; [exact E|]. intros K. apply H. now right.
Qed.
Lemma attr_lacks e k : attr k e = None <-> lacks e k.
Proof.
  unfold attr, lacks. induction (el_attrib e) as [|[k' v'] l IH]; cbn [dict_get map fst].
  - split; [intros _ []|reflexivity].
  - destruct (str_eqb_spec k k') as [-> |N].
    + split; [discriminate|]. intros H. exfalso. apply H. now left.
    + rewrite IH. split; [intros H [K|K]; [congruence|contradiction]|intros H K; apply H; now right].
Qed.

(** the result for an attribute value *)
Definition nested (body : pystr) : result (option (list pystr)) :=
  match re_match re_single_qualifier body with
  | Some m => Ok (Some [match group 2 m with Some q => q | None => [] end])
  | None =>
      match re_match re_multiple_qualifiers body with
      | Some m =>
          let* l := mapM (fun expression => second (split_on (ch "=") expression))
             (split_on (ch "|") (match group 2 m with Some i => i | None => [] end)) in
          Ok (Some l)
      | None => Ok None
      end
  end.
Lemma get_nested_eq k e : get_nested_qualifiers k e = match attr k e with Some s => nested s | None => Ok None end.
Proof. reflexivity. Qed.
Lemma nested_one s q : one_qualifier s q -> nested s = Ok (Some [q]).
Proof. intros H. unfold nested. destruct (single_matches s q H) as (st & -> & ->). reflexivity. Qed.
Lemma nested_loose s i : loose_reference s i -> (forall q, ~ one_qualifier s q) ->
  nested s = (let* l := mapM (fun expression => second (split_on (ch "=") expression)) (split_on (ch "|") i) in Ok (Some l)).
Proof.
  intros H N. unfold nested. destruct (re_match re_single_qualifier s) as [st|] eqn:E.
  - apply re_match_in, single_in in E as (q & K & _). now apply N in K.
  - destruct (multi_matches s i H) as (st & -> & ->). reflexivity.
Qed.
Lemma nested_other s : (forall q, ~ one_qualifier s q) -> (forall i, ~ loose_reference s i) -> nested s = Ok None.
Proof.
  intros N M. unfold nested. destruct (re_match re_single_qualifier s) as [st|] eqn:E.
  - apply re_match_in, single_in in E as (q & K & _). now apply N in K.
  - destruct (re_match re_multiple_qualifiers s) as [st|] eqn:E'; [|reflexivity]. apply re_match_in, multi_in in E' as (i & K & _). now apply M in K.
Qed.
(** every string has one of the three shapes *)
Lemma nested_cases s : (exists q, one_qualifier s q) \/ ((forall q, ~ one_qualifier s q) /\ ((exists i, loose_reference s i) \/ forall i, ~ loose_reference s i)).
Proof.
  destruct (re_match re_single_qualifier s) as [st|] eqn:E.
  - apply re_match_in, single_in in E as (q & K & _). eauto.
  - right. split.
    + intros q K. apply single_matches in K as (st & K & _). congruence.
    + destruct (re_match re_multiple_qualifiers s) as [st|] eqn:E'.
      * apply re_match_in, multi_in in E' as (i & K & _). eauto.
      * right. intros i K. apply multi_matches in K as (st & K & _). congruence.
Qed.

(** well separated items *)
Lemma joined_loose items qs : items <> [] -> Forall2 item items qs -> loose_items (joined (u "|") items).
Proof.
  intros N F. revert N. induction F as [|x q items qs Hx F IH]; intros N; [congruence|]. destruct items as [|y items].
  - exists [(x, [])]. split; [discriminate|]. split; [repeat constructor; cbn; eauto|]. cbn. now rewrite !app_nil_r.
  - destruct IH as (l & Nl & Fl & E); [discriminate|]. exists ((x, u "|") :: l). split; [discriminate|]. split.
    + constructor; [cbn; eauto|exact Fl].
    + cbn [joined flat_map fst snd]. rewrite <- app_assoc. now rewrite <- E.
Qed.
Lemma items_behind items qs : Forall2 item items qs -> Forall2 behind_equals items qs.
Proof.
  intros F. induction F as [|x q items qs Hx F IH]; [constructor|]. constructor; [|exact IH].
  apply item_equals in Hx as (a & -> & Ha & Hq). exists a, []. rewrite app_nil_r. repeat split; auto.
  apply qualifier_out; [vm_compute; reflexivity|vm_compute; reflexivity|exact Hq].
Qed.
Lemma items_parts items qs : items <> [] -> Forall2 item items qs -> parts_of (ch "|") (joined (u "|") items) items.
Proof.
  intros N F. split; [exact N|]. split; [reflexivity|]. clear N. induction F as [|x q items qs Hx F IH]; constructor; [|exact IH].
  eapply item_out; try exact Hx; vm_compute; (reflexivity || discriminate).
Qed.
Lemma many_one s qs q : many_qualifiers s qs -> one_qualifier s q -> qs = [q].
Proof.
  intros (items & N & F & B) (path & Hp & Hq & B').
  assert (E : joined (u "|") items = path ++ u "=" ++ q).
  { eapply bracketed_unique; [exact B|exact B'|apply loose_out; eapply joined_loose; eauto|].
    apply one_inner_out; auto; vm_compute; (reflexivity || discriminate). }
  assert (NP : ~ In (ch "|") (path ++ u "=" ++ q)) by (apply one_inner_out; auto; vm_compute; (reflexivity || discriminate)).
  destruct F as [|x q' items qs Hx F]; [congruence|]. destruct F as [|y q'' items qs Hy F].
  - cbn [joined] in E. apply item_equals in Hx as (a & -> & Ha & _). f_equal. eapply split_equals; [exact Ha| |exact E].
    apply colon_path_out; [vm_compute; reflexivity|vm_compute; discriminate|exact Hp].
  - exfalso. apply NP. rewrite <- E. cbn [joined]. apply in_or_app. right. apply in_or_app. left. now left.
Qed.
Lemma nested_many s qs : many_qualifiers s qs -> nested s = Ok (Some qs).
Proof.
  intros H. destruct (nested_cases s) as [(q & Hq)|(N & _)].
  - rewrite (nested_one s q Hq), (many_one s qs q H Hq). reflexivity.
  - destruct H as (items & Ni & F & B). rewrite (nested_loose s (joined (u "|") items)); [|split; [eapply joined_loose; eauto|exact B]|exact N].
    rewrite (split_on_unique _ _ items (items_parts items qs Ni F)).
    assert (M : mapM (fun expression => second (split_on (ch "=") expression)) items = Ok qs).
    { apply mapM_forall2. apply items_behind in F. clear -F. induction F; constructor; [now apply second_split|assumption]. }
    now rewrite M.
Qed.
