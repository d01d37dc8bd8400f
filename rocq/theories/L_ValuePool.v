(** Lemmas about qualifiers and value pools. *)
From Coq Require Import Ascii String List NArith ZArith Bool Lia Arith.
From Verif Require Import PyBase PyStr PyRe M_Components M_Ahb S_Text S_FlatAhb S_ValuePool L_Base L_Str L_Re L_Validators L_FlatAhb.
Import ListNotations.
Local Open Scope list_scope.

Lemma match_simple s : matches re_simple_qualifier s = true <-> starts_with_capital_or_digit s.
Proof.
  unfold re_simple_qualifier. rewrite matches_acc. unfold starts_with_capital_or_digit, capital_or_digit. split.
  - intros (s' & H). apply acc_alt in H as [H|H].
    + rewrite acc_bol_seq in H. apply acc_cap, acc_plus_char in H as (w & -> & Hn & F).
      destruct w as [|c w]; [congruence|]. exists c, (w ++ s'). split; [reflexivity|]. cbn in F. now apply andb_true_iff in F.
    + apply acc_seq in H as (m & H & _). apply acc_cap, acc_seq in H as (k & H & _).
      apply acc_plus_char in H as (w & -> & Hn & F). destruct w as [|c w]; [congruence|].
      exists c, (w ++ k). split; [reflexivity|]. cbn in F. apply andb_true_iff in F as [F _]. now rewrite F, orb_true_r.
  - intros (c & r & -> & Hc). exists r. apply acc_alt. left. apply acc_bol_seq, acc_cap, acc_plus_char.
    exists [c]. cbn. rewrite Hc. repeat split; congruence.
Qed.

Lemma acc_not a pos s s' : acc (RNot a) pos s s' <-> s' = s /\ ~ exists m, acc a pos s m.
Proof. reflexivity. Qed.

Lemma match_gabi s : ~ starts_with_capital_or_digit s -> (matches re_gabi_qualifier s = true <-> dash_qualifier s).
Proof.
  intros NS. unfold re_gabi_qualifier. rewrite matches_acc. unfold dash_qualifier. split.
  - intros (s' & H). rewrite acc_bol_seq in H. apply acc_seq in H as (m & H & Hm). apply acc_not in H as [-> _].
    apply acc_seq in Hm as (k & H & Hk). apply acc_opt in H as [H| ->].
    { exfalso. apply acc_cap, acc_lit in H as ->. apply NS. exists (ch "G"), (u "ABi" ++ k). split; [reflexivity|]. vm_compute. reflexivity. }
    apply acc_seq in Hk as (j & H & Hj). apply acc_plus_char in H as (w & -> & Hn & F).
    destruct w as [|c w]; [congruence|]. cbn [forallb] in F. apply andb_true_iff in F as [Hc F].
    destruct (is_AZ c || is_decimal c) eqn:Hc'.
    { exfalso. apply NS. exists c, (w ++ j). split; [reflexivity|exact Hc']. }
    cbn [orb] in Hc. apply N.eqb_eq in Hc as ->.
    apply acc_seq in Hj as (i & H & He). apply acc_eol in He as [-> Hi].
    apply acc_opt in H as [H| ->].
    + apply acc_cap, acc_seq in H as (h & H & Hh). apply acc_lit in H as ->.
      apply acc_seq in Hh as (g & H & Hg). apply acc_lit in Hg as ->. apply acc_cap, acc_alt in H as [H|H]; apply acc_lit in H as ->.
      * exists w, (u "RLMoT"), i. split; [cbn; now rewrite <- ?app_assoc|]. split; [now apply all_forallb|]. auto.
      * exists w, (u "RLMmT"), i. split; [cbn; now rewrite <- ?app_assoc|]. split; [now apply all_forallb|]. auto.
    + exists w, [], j. split; [reflexivity|]. split; [now apply all_forallb|]. auto.
  - intros (w & t & n & -> & F & Ht & Hn). apply all_forallb in F. exists n. apply acc_bol_seq, acc_seq.
    exists (chr_dash :: w ++ t ++ n). split.
    { apply acc_not. split; [reflexivity|]. intros (m & H). apply acc_lit in H. discriminate. }
    apply acc_seq. exists (chr_dash :: w ++ t ++ n). split; [apply acc_opt; now right|].
    apply acc_seq. exists (t ++ n). split.
    { apply acc_plus_char. exists (chr_dash :: w). split; [reflexivity|]. split; [discriminate|]. cbn [forallb].
      change (N.eqb chr_dash chr_dash) with true. rewrite orb_true_r. exact F. }
    apply acc_seq. exists n. split.
    + apply acc_opt. destruct Ht as [-> |[-> | ->]]; [now right|left|left];
        (apply acc_cap, acc_seq; eexists; split; [apply acc_lit; rewrite <- ?app_assoc; reflexivity|]).
      * apply acc_seq. exists (u "T" ++ n). split; [apply acc_cap, acc_alt; left; apply acc_lit; reflexivity|apply acc_lit; reflexivity].
      * apply acc_seq. exists (u "T" ++ n). split; [apply acc_cap, acc_alt; right; apply acc_lit; reflexivity|apply acc_lit; reflexivity].
    + apply acc_eol. auto.
Qed.

Lemma check_qualifier_ok v : check_is_edifact_qualifier v = Ok tt <-> exists s, v = Some s /\ accepted_qualifier s.
Proof.
  unfold check_is_edifact_qualifier, accepted_qualifier. rewrite bind_ok. split.
  - intros ([] & H & K). apply check_not_blank_ok in H as (s & -> & Hb). exists s. split; [reflexivity|]. split; [exact Hb|].
    destruct (matches re_simple_qualifier s) eqn:E; [left; now apply match_simple|].
    assert (NS : ~ starts_with_capital_or_digit s) by (rewrite <- match_simple; congruence).
    destruct (matches re_gabi_qualifier s) eqn:E2; [|discriminate]. right. now apply match_gabi.
  - intros (s & -> & Hb & H). exists tt. split; [apply check_not_blank_ok; eauto|].
    destruct (matches re_simple_qualifier s) eqn:E; [reflexivity|].
    assert (NS : ~ starts_with_capital_or_digit s) by (rewrite <- match_simple; congruence).
    destruct H as [H|H]; [contradiction|]. apply (match_gabi s NS) in H. now rewrite H.
Qed.
Lemma check_qualifier_raise v e : check_is_edifact_qualifier v = Raise e -> e = ValueError.
Proof.
  unfold check_is_edifact_qualifier. destruct (check_not_blank v) as [[]|e'] eqn:E; cbn [bind].
  - destruct v as [s|]; [|discriminate]. destruct (matches _ s); [discriminate|]. destruct (matches _ s); [discriminate|congruence].
  - apply check_not_blank_raise in E as ->. congruence.
Qed.

(** ** dictionaries *)
Lemma dict_get_In {V} k (d : list (pystr * V)) v : dict_get k d = Some v -> In (k, v) d.
Proof.
  induction d as [|[k' v'] d IH]; cbn; [discriminate|]. destruct (str_eqb_spec k k') as [-> |E]; [intros [= <-]; now left|auto].
Qed.
Lemma dict_get_None {V} k (d : list (pystr * V)) : dict_get k d = None <-> ~ In k (map fst d).
Proof.
  induction d as [|[k' v'] d IH]; cbn; [tauto|]. destruct (str_eqb_spec k k') as [-> |E]; [intuition congruence|].
  rewrite IH. intuition congruence.
Qed.
Lemma dict_set_keys_old {V} k (v : V) d : In k (map fst d) -> map fst (dict_set k v d) = map fst d.
Proof.
  induction d as [|[k' v'] d IH]; cbn; [intros []|]. intros H. destruct (str_eqb_spec k k') as [-> |E]; cbn; [reflexivity|].
  f_equal. apply IH. destruct H; [congruence|assumption].
Qed.
Lemma dict_set_new {V} k (v : V) d : ~ In k (map fst d) -> dict_set k v d = d ++ [(k, v)].
Proof.
  induction d as [|[k' v'] d IH]; cbn; [reflexivity|]. intros H. destruct (str_eqb_spec k k') as [-> |E]; [tauto|].
  f_equal. apply IH. tauto.
Qed.
Lemma dict_get_set {V} k (v : V) d k' : dict_get k' (dict_set k v d) = if str_eqb k' k then Some v else dict_get k' d.
Proof.
  induction d as [|[a b] d IH]; cbn; [reflexivity|]. destruct (str_eqb_spec k a) as [-> |E]; cbn.
  - destruct (str_eqb k' a); reflexivity.
  - rewrite IH. destruct (str_eqb_spec k' a) as [-> |E']; [|reflexivity]. destruct (str_eqb_spec a k); [congruence|reflexivity].
Qed.

(** ** the dict qualifier -> last entry *)
Definition build (ps : list (pystr * nat)) : list (pystr * nat) :=
  fold_left (fun d qi => dict_set (fst qi) (snd qi) d) ps [].
Lemma build_snoc ps q i : build (ps ++ [(q, i)]) = dict_set q i (build ps).
Proof. unfold build. now rewrite fold_left_app. Qed.
Lemma build_keys ps : first_occurrences (map fst ps) (map fst (build ps)).
Proof.
  induction ps as [|[q i] ps IH] using rev_ind; [apply first_occurrences_nil|].
  rewrite build_snoc, map_app. cbn [map fst].
  destruct (in_dec str_dec q (map fst (build ps))) as [H|H].
  - rewrite dict_set_keys_old by exact H. apply first_occurrences_old; [exact IH|]. now apply IH.
  - rewrite dict_set_new by exact H. rewrite map_app. apply first_occurrences_new; [exact IH|]. intros K. apply H. now apply IH.
Qed.
Lemma build_get ps q : dict_get q (build ps) = match find (fun p => str_eqb q (fst p)) (rev ps) with Some p => Some (snd p) | None => None end.
Proof.
  induction ps as [|[k i] ps IH] using rev_ind; [reflexivity|].
  rewrite build_snoc, dict_get_set, rev_app_distr. cbn [rev app find fst]. destruct (str_eqb q k); [reflexivity|exact IH].
Qed.
Lemma dict_get_NoDup {V} (d : list (pystr * V)) k v : NoDup (map fst d) -> (In (k, v) d <-> dict_get k d = Some v).
Proof.
  intros ND. split; [|apply dict_get_In]. induction d as [|[k' v'] d IH]; [intros []|]. cbn in *. inversion ND; subst.
  intros [[= -> ->]|H]; [now rewrite str_eqb_refl|]. destruct (str_eqb_spec k k') as [-> |E]; [|auto].
  exfalso. apply H1. change k' with (fst (k', v)). now apply in_map.
Qed.

Lemma find_split {A} (f : A -> bool) l x : find f l = Some x ->
  exists l1 l2, l = l1 ++ x :: l2 /\ f x = true /\ forall y, In y l1 -> f y = false.
Proof.
  induction l as [|y l IH]; cbn; [discriminate|]. destruct (f y) eqn:E.
  - intros [= <-]. exists [], l. repeat split; [exact E|intros y0 []].
  - intros H. destruct (IH H) as (l1 & l2 & -> & Hx & Hn). exists (y :: l1), l2. repeat split; [exact Hx|].
    intros z [<-|Hz]; auto.
Qed.

Definition indexed (pool : list ValuePoolEntry) : list (pystr * nat) := combine (map ve_qualifier pool) (seq 0 (List.length pool)).
Lemma indexed_from pool s q i :
  In (q, i) (combine (map ve_qualifier pool) (seq s (List.length pool)))
  <-> s <= i /\ exists e, nth_error pool (i - s) = Some e /\ ve_qualifier e = q.
Proof.
  revert s; induction pool as [|e pool IH]; intros s; cbn [map List.length seq combine In].
  - split; [intros []|]. intros (_ & e & H & _). destruct (i - s); discriminate.
  - rewrite IH. split.
    + intros [[= <- <-]|(H & e' & He & Hq)].
      * split; [lia|]. exists e. rewrite Nat.sub_diag. auto.
      * split; [lia|]. exists e'. replace (i - s) with (S (i - S s)) by lia. auto.
    + intros (H & e' & He & Hq). destruct (Nat.eq_dec i s) as [-> |Hi].
      * left. rewrite Nat.sub_diag in He. cbn in He. congruence.
      * right. split; [lia|]. exists e'. replace (i - s) with (S (i - S s)) in He by lia. auto.
Qed.
Lemma in_indexed pool q i : In (q, i) (indexed pool) <-> exists e, nth_error pool i = Some e /\ ve_qualifier e = q.
Proof. unfold indexed. rewrite indexed_from, Nat.sub_0_r. split; [intros [_ H]; exact H|]. intros H. split; [lia|exact H]. Qed.
Lemma indexed_fst pool : map fst (indexed pool) = map ve_qualifier pool.
Proof.
  unfold indexed. generalize 0. induction pool as [|e pool IH]; intros s; cbn; [reflexivity|]. f_equal. apply IH.
Qed.
Lemma indexed_sorted pool l1 p l2 p' l3 : indexed pool = l1 ++ p :: l2 ++ p' :: l3 -> snd p < snd p'.
Proof.
  unfold indexed. generalize 0. revert l1. induction pool as [|e pool IH]; intros l1 s H; cbn in H; [destruct l1; discriminate|].
  destruct l1 as [|x l1]; [|injection H as _ H; eapply IH; exact H].
  injection H as <- H. cbn [snd].
  assert (K : In p' (combine (map ve_qualifier pool) (seq (S s) (List.length pool)))) by (rewrite H; apply in_or_app; right; now left).
  destruct p' as [q i]. apply indexed_from in K as [K _]. cbn. lia.
Qed.

(** [build (indexed pool)] holds the last position of each qualifier *)
Lemma entries_by_qualifier_spec pool q i :
  In (q, i) (entries_by_qualifier pool)
  <-> exists e, nth_error pool i = Some e /\ ve_qualifier e = q /\ last_of_its_qualifier pool i.
Proof.
  change (entries_by_qualifier pool) with (build (indexed pool)).
  assert (ND : NoDup (map fst (build (indexed pool)))) by apply build_keys.
  rewrite dict_get_NoDup, build_get by exact ND. split.
  - destruct (find _ _) as [[q' i']|] eqn:F; [|discriminate]. intros [= <-]. cbn [snd] in *.
    apply find_split in F as (l1 & l2 & E & Hq & Hn). cbn in Hq. apply str_eqb_eq in Hq as <-.
    apply (f_equal (@rev _)) in E. rewrite rev_involutive, rev_app_distr in E. cbn [rev] in E. rewrite <- app_assoc in E. cbn in E.
    assert (Hin : In (q, i') (indexed pool)) by (rewrite E; apply in_or_app; right; now left).
    apply in_indexed in Hin as (e & He & Hq). exists e. repeat split; try assumption.
    intros e0 j e' He0 Hj He' Eq. assert (e0 = e) as -> by congruence.
    assert (Hin' : In (q, j) (indexed pool)) by (apply in_indexed; exists e'; split; [exact He'|congruence]).
    rewrite E in Hin'. apply in_app_or in Hin' as [Hin'|[Hin'|Hin']].
    + apply in_split in Hin' as (a & b & E'). rewrite E' in E. rewrite <- app_assoc in E. cbn in E.
      apply indexed_sorted in E. cbn in E. lia.
    + injection Hin' as ->. lia.
    + apply in_rev in Hin'. specialize (Hn _ Hin'). cbn in Hn. rewrite str_eqb_refl in Hn. discriminate.
  - intros (e & He & Hq & HL). destruct (find _ _) as [[q' i']|] eqn:F.
    + apply find_split in F as (l1 & l2 & E & Hq' & Hn). cbn in Hq'. apply str_eqb_eq in Hq' as <-. cbn. f_equal.
      apply (f_equal (@rev _)) in E. rewrite rev_involutive, rev_app_distr in E. cbn [rev] in E. rewrite <- app_assoc in E. cbn in E.
      assert (Hin : In (q, i) (indexed pool)) by (apply in_indexed; eauto).
      assert (Hin' : In (q, i') (indexed pool)) by (rewrite E; apply in_or_app; right; now left).
      apply in_indexed in Hin' as (e' & He' & Hq').
      rewrite E in Hin. apply in_app_or in Hin as [Hin|[Hin|Hin]].
      * apply in_split in Hin as (a & b & E'). rewrite E' in E. rewrite <- app_assoc in E. cbn in E.
        apply indexed_sorted in E. cbn in E. exfalso. apply (HL e i' e' He E He'). congruence.
      * injection Hin as ->. reflexivity.
      * apply in_rev in Hin. specialize (Hn _ Hin). cbn in Hn. rewrite str_eqb_refl in Hn. discriminate.
    + exfalso. assert (Hin : In (q, i) (rev (indexed pool))) by (apply -> in_rev; apply in_indexed; eauto).
      apply (find_none _ _ F) in Hin. cbn in Hin. rewrite str_eqb_refl in Hin. discriminate.
Qed.
Lemma entries_by_qualifier_keys pool : first_occurrences (map ve_qualifier pool) (map fst (entries_by_qualifier pool)).
Proof. change (entries_by_qualifier pool) with (build (indexed pool)). rewrite <- indexed_fst. apply build_keys. Qed.

(** ** the loop *)
Definition ren (m : list (pystr * option pystr)) (mg : option (pystr -> pystr -> pystr)) (e : ValuePoolEntry) : ValuePoolEntry :=
  match dict_get (ve_qualifier e) m with
  | Some (Some q') => mkEntry q' (new_meaning mg e) (ve_expression e)
  | _ => e
  end.
Definition half (mg : option (pystr -> pystr -> pystr)) (e : ValuePoolEntry) : ValuePoolEntry :=
  mkEntry (ve_qualifier e) (new_meaning mg e) (ve_expression e).

Lemma replace_one_spec m mg q i pool e :
  nth_error pool i = Some e -> ve_qualifier e = q ->
  (valid_image (fun q => dict_get q m) q -> replace_one m mg q i pool = (list_set i (ren m mg e) pool, None))
  /\ (~ valid_image (fun q => dict_get q m) q -> replace_one m mg q i pool = (list_set i (half mg e) pool, Some ValueError)).
Proof.
  intros He Hq. unfold replace_one, valid_image, ren. rewrite Hq. destruct (dict_get q m) as [v|] eqn:D.
  - rewrite He.
    assert (E1 : forall x, mkEntry x (ve_meaning (match mg with None => e | Some f => mkEntry (ve_qualifier e) (f (ve_meaning e) q) (ve_expression e) end))
              (ve_expression (match mg with None => e | Some f => mkEntry (ve_qualifier e) (f (ve_meaning e) q) (ve_expression e) end))
              = mkEntry x (new_meaning mg e) (ve_expression e)).
    { intros x. unfold new_meaning. rewrite Hq. destruct mg; reflexivity. }
    assert (E2 : match mg with None => e | Some f => mkEntry (ve_qualifier e) (f (ve_meaning e) q) (ve_expression e) end = half mg e).
    { unfold half, new_meaning. rewrite Hq. destruct mg; [reflexivity|]. rewrite <- Hq. destruct e; reflexivity. }
    rewrite E2 in *. destruct v as [q'|].
    + split.
      * intros A. assert (check_is_edifact_qualifier (Some q') = Ok tt) as -> by (apply check_qualifier_ok; eauto).
        f_equal.
      * intros A. destruct (check_is_edifact_qualifier (Some q')) as [[]|x] eqn:C.
        -- apply check_qualifier_ok in C as (s & [= <-] & C). contradiction.
        -- apply check_qualifier_raise in C as ->. reflexivity.
    + split; [intros []|]. intros _. reflexivity.
  - split; [|intros H; exfalso; now apply H]. intros _. f_equal.
    clear -He. revert i He. induction pool as [|x pool IH]; intros [|i]; cbn; try discriminate.
    + intros [= ->]. reflexivity.
    + intros H. f_equal. auto.
Qed.

Lemma valid_image_dec m q : {valid_image (fun q => dict_get q m) q} + {~ valid_image (fun q => dict_get q m) q}.
Proof.
  unfold valid_image. destruct (dict_get q m) as [[q'|]|]; [|right; tauto|left; exact I].
  destruct (check_is_edifact_qualifier (Some q')) as [[]|e] eqn:E.
  - left. apply check_qualifier_ok in E as (s & [= <-] & H). exact H.
  - right. intros H. assert (check_is_edifact_qualifier (Some q') = Ok tt) by (apply check_qualifier_ok; eauto). congruence.
Qed.

Lemma list_set_nth_same {A} i (x : A) l : i < List.length l -> nth_error (list_set i x l) i = Some x.
Proof. revert i; induction l as [|y l IH]; intros [|i] H; cbn in *; try lia; [reflexivity|apply IH; lia]. Qed.
Lemma list_set_nth_other {A} i j (x : A) l : i <> j -> nth_error (list_set i x l) j = nth_error l j.
Proof. revert i j; induction l as [|y l IH]; intros [|i] [|j] H; cbn; try congruence. apply IH. congruence. Qed.

(** the state while the loop runs: the entries in [done] have been replaced *)
Lemma replace_loop_spec m mg pool : forall todo done cur pool' x,
  NoDup (map snd (done ++ todo)) ->
  (forall q i, In (q, i) (done ++ todo) -> exists e, nth_error pool i = Some e /\ ve_qualifier e = q) ->
  List.length cur = List.length pool ->
  (forall i e, nth_error pool i = Some e ->
     nth_error cur i = Some (if in_dec Nat.eq_dec i (map snd done) then ren m mg e else e)) ->
  replace_loop m mg todo cur = (pool', x) ->
  List.length pool' = List.length pool
  /\ match x with
     | None => (forall q, In q (map fst todo) -> valid_image (fun q => dict_get q m) q)
               /\ forall i e, nth_error pool i = Some e ->
                  nth_error pool' i = Some (if in_dec Nat.eq_dec i (map snd (done ++ todo)) then ren m mg e else e)
     | Some ex => ex = ValueError /\ exists t1 q k t2, todo = t1 ++ (q, k) :: t2
               /\ (forall q, In q (map fst t1) -> valid_image (fun q => dict_get q m) q)
               /\ ~ valid_image (fun q => dict_get q m) q
               /\ forall i e, nth_error pool i = Some e ->
                  nth_error pool' i = Some (if in_dec Nat.eq_dec i (map snd (done ++ t1)) then ren m mg e
                                            else if Nat.eq_dec i k then half mg e else e)
     end.
Proof.
  induction todo as [|[q k] todo IH]; intros done cur pool' x ND E L C; cbn [replace_loop].
  - intros [= <- <-]. split; [exact L|]. split; [intros q []|]. rewrite app_nil_r. exact C.
  - destruct (E q k) as (e & He & Hq); [apply in_or_app; right; now left|].
    assert (Hk : ~ In k (map snd done)).
    { rewrite map_app in ND. cbn in ND. apply NoDup_remove_2 in ND. intros H. apply ND, in_or_app. now left. }
    assert (Hc : nth_error cur k = Some e).
    { rewrite (C k e He). destruct (in_dec Nat.eq_dec k (map snd done)); [contradiction|reflexivity]. }
    assert (Lk : k < List.length cur) by (apply nth_error_Some; congruence).
    destruct (replace_one_spec m mg q k cur e Hc Hq) as [V NV].
    destruct (valid_image_dec m q) as [Hv|Hv].
    + rewrite (V Hv). intros H.
      assert (D : done ++ (q, k) :: todo = (done ++ [(q, k)]) ++ todo) by now rewrite <- app_assoc.
      rewrite D in ND, E.
      assert (L' : List.length (list_set k (ren m mg e) cur) = List.length pool) by now rewrite list_set_length.
      specialize (IH (done ++ [(q, k)]) (list_set k (ren m mg e) cur) pool' x ND E L').
      assert (C' : forall i e0, nth_error pool i = Some e0 ->
        nth_error (list_set k (ren m mg e) cur) i = Some (if in_dec Nat.eq_dec i (map snd (done ++ [(q, k)])) then ren m mg e0 else e0)).
      { intros i e0 He0. destruct (in_dec Nat.eq_dec i (map snd (done ++ [(q, k)]))) as [Hi|Hi]; rewrite map_app, in_app_iff in Hi; cbn in Hi.
        - destruct (Nat.eq_dec i k) as [-> |Hik].
          + rewrite list_set_nth_same by exact Lk. congruence.
          + rewrite list_set_nth_other by congruence. rewrite (C i e0 He0).
            destruct (in_dec Nat.eq_dec i (map snd done)); [reflexivity|]. exfalso. intuition.
        - rewrite list_set_nth_other by intuition. rewrite (C i e0 He0).
          destruct (in_dec Nat.eq_dec i (map snd done)); [exfalso; intuition|reflexivity]. }
      specialize (IH C' H). destruct IH as [IL IX]. split; [exact IL|]. rewrite D. destruct x as [ex|].
      * destruct IX as (Hex & t1 & q' & k' & t2 & -> & Hv1 & Hnv & Hp). split; [exact Hex|].
        exists ((q, k) :: t1), q', k', t2. split; [reflexivity|]. split; [intros q0 [<-|H0]; auto|]. split; [exact Hnv|].
        rewrite <- app_assoc in Hp. exact Hp.
      * destruct IX as [Hv1 Hp]. split; [intros q0 [<-|H0]; auto|exact Hp].
    + rewrite (NV Hv). intros [= <- <-]. split; [now rewrite list_set_length|]. split; [reflexivity|].
      exists [], q, k, todo. split; [reflexivity|]. split; [intros q0 []|]. split; [exact Hv|].
      rewrite app_nil_r. intros i e0 He0. destruct (in_dec Nat.eq_dec i (map snd done)) as [Hi|Hi].
      * assert (i <> k) by (intros ->; contradiction). rewrite list_set_nth_other by congruence. rewrite (C i e0 He0).
        destruct (in_dec Nat.eq_dec i (map snd done)); [reflexivity|contradiction].
      * destruct (Nat.eq_dec i k) as [-> |Hik].
        -- rewrite list_set_nth_same by exact Lk. congruence.
        -- rewrite list_set_nth_other by congruence. rewrite (C i e0 He0).
           destruct (in_dec Nat.eq_dec i (map snd done)); [contradiction|reflexivity].
Qed.

Lemma NoDup_map_fst_snd pool : NoDup (map snd (entries_by_qualifier pool)).
Proof.
  assert (ND : NoDup (map fst (entries_by_qualifier pool))) by apply entries_by_qualifier_keys.
  assert (F : forall q i, In (q, i) (entries_by_qualifier pool) -> exists e, nth_error pool i = Some e /\ ve_qualifier e = q).
  { intros q i H. apply entries_by_qualifier_spec in H as (e & H1 & H2 & _). eauto. }
  revert ND F. generalize (entries_by_qualifier pool). induction l as [|[q i] l IH]; cbn; intros ND F; [constructor|].
  inversion ND as [|? ? Hn ND']; subst. constructor.
  - intros H. apply in_map_iff in H as ([q' i'] & E & H). cbn in E. subst i'. apply Hn.
    destruct (F q i (or_introl eq_refl)) as (e & He & Hq). destruct (F q' i (or_intror H)) as (e' & He' & Hq').
    assert (q' = q) as -> by congruence. change q with (fst (q, i)). now apply in_map.
  - apply IH; [exact ND'|]. intros q' i' H. apply F. now right.
Qed.

Lemma replace_value_pool_spec m mg p p' x :
  replace_value_pool m mg p = (p', x) ->
  vp_discriminator p' = vp_discriminator p /\ vp_id p' = vp_id p /\ vp_input p' = vp_input p /\ vp_type p' = vp_type p
  /\ List.length (vp_pool p') = List.length (vp_pool p)
  /\ match x with
     | None => (forall e, In e (vp_pool p) -> valid_image (fun q => dict_get q m) (ve_qualifier e))
               /\ forall i e, nth_error (vp_pool p) i = Some e -> exists e', nth_error (vp_pool p') i = Some e'
                  /\ (last_of_its_qualifier (vp_pool p) i -> renamed (fun q => dict_get q m) mg e e')
                  /\ (~ last_of_its_qualifier (vp_pool p) i -> e' = e)
     | Some ex => ex = ValueError /\ exists t1 q t2, first_occurrences (map ve_qualifier (vp_pool p)) (t1 ++ q :: t2)
               /\ (forall q, In q t1 -> valid_image (fun q => dict_get q m) q)
               /\ ~ valid_image (fun q => dict_get q m) q
               /\ forall i e, nth_error (vp_pool p) i = Some e -> exists e', nth_error (vp_pool p') i = Some e'
                  /\ (last_of_its_qualifier (vp_pool p) i ->
                      (In (ve_qualifier e) t1 -> renamed (fun q => dict_get q m) mg e e')
                      /\ (ve_qualifier e = q -> e' = mkEntry q (new_meaning mg e) (ve_expression e))
                      /\ (In (ve_qualifier e) t2 -> e' = e))
                  /\ (~ last_of_its_qualifier (vp_pool p) i -> e' = e)
     end.
Proof.
  unfold replace_value_pool. destruct (replace_loop m mg (entries_by_qualifier (vp_pool p)) (vp_pool p)) as [pool' x'] eqn:R.
  intros [= <- <-]. cbn [vp_discriminator vp_id vp_input vp_type vp_pool].
  assert (F : forall q i, In (q, i) (entries_by_qualifier (vp_pool p)) -> exists e, nth_error (vp_pool p) i = Some e /\ ve_qualifier e = q).
  { intros q i H. apply entries_by_qualifier_spec in H as (e & H1 & H2 & _). eauto. }
  pose proof (replace_loop_spec m mg (vp_pool p) (entries_by_qualifier (vp_pool p)) [] (vp_pool p) pool' x'
                (NoDup_map_fst_snd (vp_pool p)) F eq_refl) as S.
  specialize (S (fun i e H => H) R). destruct S as [SL SX]. repeat (split; [reflexivity|]). split; [exact SL|].
  assert (RN : forall e, valid_image (fun q => dict_get q m) (ve_qualifier e) -> renamed (fun q => dict_get q m) mg e (ren m mg e)).
  { intros e. unfold valid_image, renamed, ren. destruct (dict_get (ve_qualifier e) m) as [[q'|]|]; [reflexivity|intros []|reflexivity]. }
  assert (IL : forall i e, nth_error (vp_pool p) i = Some e -> (In i (map snd (entries_by_qualifier (vp_pool p))) <-> last_of_its_qualifier (vp_pool p) i)).
  { intros i e He. rewrite in_map_iff. split.
    - intros ([q k] & <- & H). apply entries_by_qualifier_spec in H as (e' & _ & _ & H). exact H.
    - intros H. exists (ve_qualifier e, i). split; [reflexivity|]. apply entries_by_qualifier_spec. eauto. }
  destruct x' as [ex|].
  - destruct SX as (-> & t1 & q & k & t2 & E & V & NV & P). split; [reflexivity|].
    pose proof (entries_by_qualifier_keys (vp_pool p)) as FO. rewrite E, map_app in FO. cbn [map fst] in FO.
    exists (map fst t1), q, (map fst t2). split; [exact FO|]. split; [exact V|]. split; [exact NV|].
    destruct FO as [NDk _].
    intros i e He. eexists. split; [exact (P i e He)|]. cbn [app].
    assert (T1 : last_of_its_qualifier (vp_pool p) i -> (In i (map snd t1) <-> In (ve_qualifier e) (map fst t1))).
    { intros HL. split; intros H; apply in_map_iff in H as ([q' k'] & Ek & H); cbn [snd fst] in Ek.
      - destruct (F q' k') as (e' & He' & Hq'); [rewrite E; apply in_or_app; now left|].
        subst k'. assert (e' = e) by congruence. subst e'. rewrite Hq'. change q' with (fst (q', i)). now apply in_map.
      - assert (H' : In (q', k') (entries_by_qualifier (vp_pool p))) by (rewrite E; apply in_or_app; now left).
        apply entries_by_qualifier_spec in H' as (e' & He' & Hq' & HL').
        assert (k' = i) as <-; [|change k' with (snd (q', k')); now apply in_map].
        destruct (Nat.lt_trichotomy k' i) as [Hlt|[-> |Hlt]]; [|reflexivity|].
        + exfalso. apply (HL' e' i e He' Hlt He). congruence.
        + exfalso. apply (HL e k' e' He Hlt He'). congruence. }
    assert (Tk : last_of_its_qualifier (vp_pool p) k /\ exists e', nth_error (vp_pool p) k = Some e' /\ ve_qualifier e' = q).
    { assert (H' : In (q, k) (entries_by_qualifier (vp_pool p))) by (rewrite E; apply in_or_app; right; now left).
      apply entries_by_qualifier_spec in H' as (e' & He' & Hq' & HL'). eauto. }
    destruct Tk as (HLk & ek & Hek & Hqk).
    split.
    + intros HL. specialize (T1 HL). split; [|split].
      * intros Hin. destruct (in_dec Nat.eq_dec i (map snd t1)) as [_|Hni]; [apply RN; auto|]. exfalso. apply Hni. now apply T1.
      * intros Hq. destruct (in_dec Nat.eq_dec i (map snd t1)) as [Hi|Hni].
        -- exfalso. apply T1 in Hi. apply NoDup_remove_2 in NDk. apply NDk, in_or_app. left. congruence.
        -- destruct (Nat.eq_dec i k) as [-> |Hik].
           ++ unfold half. assert (e = ek) as -> by congruence. now rewrite Hqk.
           ++ exfalso. destruct (Nat.lt_trichotomy k i) as [Hlt|[-> |Hlt]]; [|congruence|].
              ** apply (HLk ek i e Hek Hlt He). congruence.
              ** apply (HL e k ek He Hlt Hek). congruence.
      * intros Hin. destruct (in_dec Nat.eq_dec i (map snd t1)) as [Hi|Hni].
        -- exfalso. apply T1 in Hi. revert NDk Hi Hin. generalize (map fst t1) (map fst t2) (ve_qualifier e). clear.
           induction l as [|x l IH]; cbn; intros l0 q' ND Hi Hin; [destruct Hi|]. inversion ND; subst. destruct Hi as [-> |Hi]; [|eauto].
           apply H1. apply in_or_app. right. now right.
        -- destruct (Nat.eq_dec i k) as [-> |Hik]; [|reflexivity]. exfalso.
           assert (e = ek) as -> by congruence. apply NoDup_remove_2 in NDk. apply NDk, in_or_app. right. congruence.
    + intros HL. assert (Hall : ~ In i (map snd (entries_by_qualifier (vp_pool p)))) by (rewrite (IL i e He); exact HL).
      rewrite E, map_app in Hall. cbn [map snd] in Hall. rewrite in_app_iff in Hall. cbn [In] in Hall.
      destruct (in_dec Nat.eq_dec i (map snd t1)); [tauto|]. destruct (Nat.eq_dec i k); [exfalso; apply Hall; right; left; congruence|reflexivity].
  - destruct SX as [V P]. split.
    + intros e He. apply V. apply entries_by_qualifier_keys. now apply in_map.
    + intros i e He. eexists. split; [exact (P i e He)|]. cbn [app].
      pose proof (IL i e He) as ILi. destruct (in_dec Nat.eq_dec i (map snd (entries_by_qualifier (vp_pool p)))) as [Hi|Hi].
      * split; [|intros HL; exfalso; tauto]. intros _. apply RN. apply V. apply entries_by_qualifier_keys. apply in_map. eapply nth_error_In; eassumption.
      * split; [intros HL; exfalso; tauto|reflexivity].
Qed.

Lemma replace_value_pool_valid m mg p :
  (forall e, In e (vp_pool p) -> valid_image (fun q => dict_get q m) (ve_qualifier e)) -> snd (replace_value_pool m mg p) = None.
Proof.
  intros V. destruct (replace_value_pool m mg p) as [p' x] eqn:R. cbn.
  apply replace_value_pool_spec in R as (_ & _ & _ & _ & _ & R). destruct x as [ex|]; [|reflexivity].
  destruct R as (_ & t1 & q & t2 & FO & _ & NV & _). exfalso. apply NV.
  assert (In q (map ve_qualifier (vp_pool p))) as Hq by (apply FO, in_or_app; right; now left).
  apply in_map_iff in Hq as (e & <- & He). auto.
Qed.
Lemma NoDup_last pool i : NoDup (map ve_qualifier pool) -> last_of_its_qualifier pool i.
Proof.
  intros ND e j e' He Hj He' E.
  assert (H : i = j); [|lia]. apply (proj1 (NoDup_nth_error _) ND).
  - rewrite map_length. apply nth_error_Some. congruence.
  - rewrite (map_nth_error ve_qualifier _ _ He), (map_nth_error ve_qualifier _ _ He'). congruence.
Qed.

(** ** iterators *)
Lemma subsequence_cons_inv {A} (x : A) a b : subsequence (x :: a) b -> subsequence a b.
Proof.
  intros H. remember (x :: a) as c eqn:E. revert x a E. induction H as [l|y a' b H IH|y a' b H IH]; intros x a E.
  - discriminate.
  - injection E as -> ->. now constructor.
  - constructor. eapply IH; exact E.
Qed.
Lemma iter_in_spec q it : let (found, rest) := iter_in q it in
  (found = true -> exists l, it = l ++ q :: rest /\ ~ In q l) /\ (found = false -> ~ In q it /\ rest = []).
Proof.
  induction it as [|x it IH]; cbn; [split; [discriminate|auto]|].
  destruct (str_eqb_spec q x) as [-> |E].
  - split; [|discriminate]. intros _. exists []. auto.
  - destruct (iter_in q it) as [found rest]. destruct IH as [H1 H2]. split.
    + intros H. destruct (H1 H) as (l & -> & Hl). exists (x :: l). split; [reflexivity|]. intros [K|K]; [congruence|contradiction].
    + intros H. destruct (H2 H) as [K ->]. split; [|reflexivity]. intros [L|L]; [congruence|contradiction].
Qed.
Lemma subset_of_iterator_spec pool it :
  subset_of_iterator_go pool it = true <-> subsequence (map ve_qualifier pool) it.
Proof.
  revert it; induction pool as [|e pool IH]; intros it; cbn [subset_of_iterator_go map].
  - split; [constructor|reflexivity].
  - pose proof (iter_in_spec (ve_qualifier e) it) as I. destruct (iter_in (ve_qualifier e) it) as [found rest].
    destruct I as [H1 H2]. destruct found.
    + destruct (H1 eq_refl) as (l & -> & Hl). rewrite IH. split.
      * intros H. clear -H. induction l as [|x l IHl]; cbn; now constructor.
      * intros H. clear -H Hl. induction l as [|x l IHl]; cbn in H.
        -- inversion H as [|? ? ? K|? ? ? K]; subst; [exact K|now apply subsequence_cons_inv in K].
        -- inversion H as [|? ? ? K|? ? ? K]; subst; [exfalso; apply Hl; now left|]. apply IHl; [|exact K]. intros Q. apply Hl. now right.
    + destruct (H2 eq_refl) as [Hn _]. split; [discriminate|]. intros H. exfalso. apply Hn. clear -H.
      remember (ve_qualifier e :: map ve_qualifier pool) as c eqn:E. revert E. induction H as [l|y a b H IH|y a b H IH]; intros E.
      * discriminate.
      * injection E as -> _. now left.
      * right. auto.
Qed.
