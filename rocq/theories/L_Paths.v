(** Lemmas about EDIFACT stacks and JSON paths. *)
From Coq Require Import Ascii String List NArith ZArith Bool Lia Arith.
From Verif Require Import PyBase PyStr PyRe M_Components S_Text S_Paths L_Base L_Str L_Re.
Import ListNotations.
Local Open Scope list_scope.

(** ** numbers *)
Lemma is_decimal_ascii d : (d < 10)%N -> is_decimal (48 + d)%N = true.
Proof.
  intros H. assert (C : (d = 0 \/ d = 1 \/ d = 2 \/ d = 3 \/ d = 4 \/ d = 5 \/ d = 6 \/ d = 7 \/ d = 8 \/ d = 9)%N) by lia.
  repeat (destruct C as [-> |C]; [vm_compute; reflexivity|]). subst. vm_compute. reflexivity.
Qed.
Lemma digit_value_ascii d : (d < 10)%N -> digit_value (48 + d)%N = d.
Proof.
  intros H. assert (C : (d = 0 \/ d = 1 \/ d = 2 \/ d = 3 \/ d = 4 \/ d = 5 \/ d = 6 \/ d = 7 \/ d = 8 \/ d = 9)%N) by lia.
  repeat (destruct C as [-> |C]; [vm_compute; reflexivity|]). subst. vm_compute. reflexivity.
Qed.
Definition push (acc : N) (c : char) : N := (acc * 10 + digit_value c)%N.
Lemma digits_go_value fuel : forall n acc, (n < 10 ^ N.of_nat fuel)%N -> fold_left push (digits_go fuel n acc) 0%N = fold_left push acc n.
Proof.
  induction fuel as [|f IH]; intros n acc H; cbn [digits_go].
  - cbn in H. assert (n = 0)%N as -> by lia. reflexivity.
  - assert (M : (n mod 10 < 10)%N) by (apply N.mod_lt; discriminate).
    assert (D : n = (10 * (n / 10) + n mod 10)%N) by (apply N.div_mod; discriminate).
    destruct (N.eqb_spec (n / 10) 0) as [E|E].
    + cbn [fold_left]. f_equal. unfold push. rewrite digit_value_ascii by exact M. lia.
    + rewrite IH.
      * cbn [fold_left]. f_equal. unfold push. rewrite digit_value_ascii by exact M. lia.
      * rewrite Nat2N.inj_succ, N.pow_succ_r' in H. apply N.div_lt_upper_bound; [discriminate|exact H].
Qed.
Lemma digits_go_decimal fuel : forall n acc, forallb is_decimal acc = true -> forallb is_decimal (digits_go fuel n acc) = true.
Proof.
  induction fuel as [|f IH]; intros n acc H; cbn [digits_go]; [exact H|].
  assert (M : (n mod 10 < 10)%N) by (apply N.mod_lt; discriminate).
  assert (H' : forallb is_decimal ((48 + n mod 10)%N :: acc) = true) by (cbn [forallb]; now rewrite is_decimal_ascii).
  destruct (N.eqb (n / 10) 0); [exact H'|now apply IH].
Qed.
Lemma digits_go_nonempty fuel : forall n acc, acc <> [] \/ fuel <> 0 -> digits_go fuel n acc <> [].
Proof.
  induction fuel as [|f IH]; intros n acc H; cbn [digits_go]; [destruct H; congruence|].
  destruct (N.eqb (n / 10) 0); [discriminate|]. apply IH. left. discriminate.
Qed.
Lemma size_bound n : (n < 10 ^ N.of_nat (S (N.size_nat n)))%N.
Proof.
  assert (H : (n < 2 ^ N.of_nat (N.size_nat n))%N).
  { destruct n as [|p]; [reflexivity|]. cbn [N.size_nat].
    induction p as [p IH|p IH|]; cbn [Pos.size_nat]; rewrite ?Nat2N.inj_succ, ?N.pow_succ_r'; [| |reflexivity]; lia. }
  rewrite Nat2N.inj_succ. eapply N.lt_le_trans; [exact H|].
  transitivity (10 ^ N.of_nat (N.size_nat n))%N; [apply N.pow_le_mono_l; lia|apply N.pow_le_mono_r; lia].
Qed.
Lemma int_of_str n : int_of_digits (str_of_N n) = n.
Proof. unfold int_of_digits, str_of_N. change (fold_left push (digits_go (S (N.size_nat n)) n []) 0%N = n). rewrite digits_go_value; [reflexivity|apply size_bound]. Qed.
Lemma str_of_N_decimal n : forallb is_decimal (str_of_N n) = true.
Proof. now apply digits_go_decimal. Qed.
Lemma str_of_N_nonempty n : str_of_N n <> [].
Proof. apply digits_go_nonempty. right. discriminate. Qed.
Lemma str_of_Z_nonneg i : (0 <= i)%Z -> str_of_Z i = str_of_N (Z.to_N i).
Proof. destruct i; [reflexivity|reflexivity|lia]. Qed.
Lemma str_of_N_inj a b : str_of_N a = str_of_N b -> a = b.
Proof. intros H. rewrite <- (int_of_str a), <- (int_of_str b). now rewrite H. Qed.

(** ** exact runs *)
Lemma runs_lit_hit w pos r caps : runs (RLit w) (mkst pos (w ++ r) caps) = [mkst (pos + List.length w) r caps].
Proof.
  revert pos; induction w as [|c w IH]; intros pos; cbn [RLit runs app].
  - cbn. now rewrite Nat.add_0_r.
  - cbn [st_rest st_pos st_caps]. rewrite N.eqb_refl. cbn [flat_map]. rewrite IH, app_nil_r. cbn [List.length]. now rewrite Nat.add_succ_r.
Qed.
Lemma runs_lit_miss w pos s caps : startswith s w = false -> runs (RLit w) (mkst pos s caps) = [].
Proof.
  revert pos s; induction w as [|c w IH]; intros pos s H; [destruct s; discriminate|].
  cbn [RLit runs st_rest]. destruct s as [|d s]; [reflexivity|]. cbn [startswith] in H. rewrite (N.eqb_sym c d). destruct (N.eqb d c); [|reflexivity].
  cbn [flat_map st_pos st_caps]. rewrite app_nil_r. now apply IH.
Qed.

Definition stops (p : char -> bool) (r : pystr) : Prop := match r with [] => True | c :: _ => p c = false end.
(** the states after consuming 0, 1, .. |w| characters *)
Fixpoint states (pos : nat) (w r : pystr) (caps : list (nat * pystr)) : list rst :=
  mkst pos (w ++ r) caps :: match w with [] => [] | _ :: w' => states (S pos) w' r caps end.
Lemma star_lazy p w r : stops p r -> forallb p w = true -> forall fuel pos caps, List.length w <= fuel ->
  star_runs false (runs (RChar p)) fuel (mkst pos (w ++ r) caps) = states pos w r caps.
Proof.
  intros St. induction w as [|c w IH]; intros F fuel pos caps L.
  - destruct fuel as [|f]; [reflexivity|]. cbn [star_runs runs st_rest app states]. destruct r as [|c r]; [reflexivity|]. cbn in St. now rewrite St.
  - cbn [forallb] in F. apply andb_true_iff in F as [Hc F]. destruct fuel as [|f]; [cbn in L; lia|].
    cbn [star_runs runs st_rest app states]. rewrite Hc. cbn [flat_map st_pos st_caps].
    assert (E : (pos <? S pos) = true) by (apply Nat.ltb_lt; lia). rewrite E. rewrite app_nil_r. f_equal. apply IH; [exact F|cbn in L; lia].
Qed.
Lemma star_greedy p w r : stops p r -> forallb p w = true -> forall fuel pos caps, List.length w <= fuel ->
  star_runs true (runs (RChar p)) fuel (mkst pos (w ++ r) caps) = rev (states pos w r caps).
Proof.
  intros St. induction w as [|c w IH]; intros F fuel pos caps L.
  - destruct fuel as [|f]; [reflexivity|]. cbn [star_runs runs st_rest app states]. destruct r as [|c r]; [reflexivity|]. cbn in St. now rewrite St.
  - cbn [forallb] in F. apply andb_true_iff in F as [Hc F]. destruct fuel as [|f]; [cbn in L; lia|].
    cbn [star_runs runs st_rest app states rev]. rewrite Hc. cbn [flat_map st_pos st_caps].
    assert (E : (pos <? S pos) = true) by (apply Nat.ltb_lt; lia). rewrite E. rewrite app_nil_r. f_equal. apply IH; [exact F|cbn in L; lia].
Qed.
Lemma flat_map_rev_single {A B} (f : A -> list B) l : List.length (flat_map f l) <= 1 -> flat_map f (rev l) = flat_map f l.
Proof.
  induction l as [|x l IH]; cbn; [reflexivity|]. rewrite app_length. intros H. rewrite flat_map_app. cbn. rewrite app_nil_r, IH by lia.
  destruct (f x) as [|y [|z l']]; cbn in H; [now rewrite app_nil_r| |lia]. destruct (flat_map f l); [reflexivity|cbn in H; lia].
Qed.
Lemma flat_map_map {A B C} (f : B -> list C) (g : A -> B) l : flat_map f (map g l) = flat_map (fun x => f (g x)) l.
Proof. induction l as [|x l IH]; cbn; [reflexivity|now rewrite IH]. Qed.
(** after a run of class characters a continuation that only matches behind the whole run *)
Lemma flat_map_states (k : rst -> list rst) pos w r caps :
  (forall w1 c w2, w = w1 ++ c :: w2 -> k (mkst (pos + List.length w1) (c :: w2 ++ r) caps) = []) ->
  flat_map k (states pos w r caps) = k (mkst (pos + List.length w) r caps).
Proof.
  revert pos; induction w as [|c w IH]; intros pos H; cbn [states flat_map app List.length].
  - now rewrite app_nil_r, Nat.add_0_r.
  - pose proof (H [] c w eq_refl) as H0. cbn in H0. rewrite Nat.add_0_r in H0. rewrite H0. cbn [app]. rewrite IH; [now rewrite Nat.add_succ_r|].
    intros w1 d w2 ->. specialize (H (c :: w1) d w2 eq_refl). cbn in H. rewrite Nat.add_succ_r in H. exact H.
Qed.
Lemma runs_seq a b st : runs (RSeq a b) st = flat_map (runs b) (runs a st).
Proof. reflexivity. Qed.
Lemma runs_cap n a st : runs (RCap n a) st =
  map (fun st' => mkst (st_pos st') (st_rest st') ((n, firstn (st_pos st' - st_pos st) (st_rest st)) :: st_caps st')) (runs a st).
Proof. reflexivity. Qed.

Lemma run_greedy_captured n p w r pos caps (k : rst -> list rst) :
  w <> [] -> forallb p w = true -> stops p r ->
  (forall w1 c w2 caps', w1 <> [] -> w = w1 ++ c :: w2 -> k (mkst (pos + List.length w1) (c :: w2 ++ r) caps') = []) ->
  (forall st, List.length (k st) <= 1) ->
  flat_map k (runs (RCap n (RPlus (RChar p))) (mkst pos (w ++ r) caps)) = k (mkst (pos + List.length w) r ((n, w) :: caps)).
Proof.
  intros Hn F St K K1. destruct w as [|c w]; [congruence|]. cbn [forallb] in F. apply andb_true_iff in F as [Hc F].
  rewrite runs_cap. unfold RPlus. rewrite runs_seq. cbn [runs st_rest app st_pos st_caps]. rewrite Hc. cbn [flat_map]. rewrite app_nil_r.
  rewrite (star_greedy p w r St F) by (cbn; rewrite app_length; lia). rewrite flat_map_map.
  assert (E0 : flat_map (fun x => k (mkst (st_pos x) (st_rest x) ((n, firstn (st_pos x - pos) (c :: w ++ r)) :: st_caps x))) (states (S pos) w r caps)
     = k (mkst (pos + List.length (c :: w)) r ((n, c :: w) :: caps))).
  { rewrite (flat_map_states _ (S pos) w r caps).
    - cbn [st_pos st_rest st_caps]. replace (S pos + List.length w - pos) with (List.length (c :: w)) by (cbn [List.length]; lia).
      change (c :: w ++ r) with ((c :: w) ++ r). rewrite firstn_app, Nat.sub_diag, firstn_all, firstn_O, app_nil_r. cbn [List.length]. now rewrite Nat.add_succ_r.
    - intros w1 d w2 E. cbn [st_pos st_rest st_caps].
      replace (S pos + List.length w1) with (pos + List.length (c :: w1)) by (cbn [List.length]; lia).
      apply (K (c :: w1) d w2); [discriminate|cbn; now rewrite E]. }
  rewrite flat_map_rev_single; rewrite E0; [reflexivity|apply K1].
Qed.

(** ** one level *)
Definition re_index : re := RSeq (RLit [chr_lbracket]) (RSeq (RCap 2 (RPlus (RChar is_decimal))) (RLit [chr_rbracket])).
Definition prefix_of_level (n : pystr) : pystr := [chr_lbracket; chr_quote] ++ n ++ [chr_quote; chr_rbracket].

Lemma not_bracket_name n : ~ In chr_lbracket n -> ~ In chr_rbracket n -> forallb not_bracket n = true.
Proof.
  intros H K. apply forallb_forall. intros c Hc. unfold not_bracket. apply andb_true_iff. split; apply negb_true_iff; apply N.eqb_neq; intros ->; contradiction.
Qed.
Lemma run_level pos n rest : plain_name n ->
  runs re_level (mkst pos (prefix_of_level n ++ rest) [])
  = runs (ROpt re_index) (mkst (pos + List.length (prefix_of_level n)) rest [(1, n)]).
Proof.
  intros (Hn & Hl & Hr). unfold re_level, prefix_of_level. rewrite <- !app_assoc. rewrite runs_seq, runs_lit_hit. cbn [flat_map]. rewrite app_nil_r.
  rewrite runs_seq.
  set (tail := RSeq (RLit [chr_quote; chr_rbracket]) _).
  assert (F : forallb not_bracket n = true) by now apply not_bracket_name.
  assert (Miss : forall w1 c w2 p caps, w1 <> [] -> n = w1 ++ c :: w2 -> runs tail (mkst p (c :: w2 ++ [chr_quote; chr_rbracket] ++ rest) caps) = []).
  { intros w1 c w2 p caps _ E. unfold tail. rewrite runs_seq, runs_lit_miss; [reflexivity|].
    cbn [startswith]. destruct (N.eqb c chr_quote); [|reflexivity]. cbn [andb].
    destruct w2 as [|d w2]; cbn [app startswith]; [reflexivity|]. destruct (N.eqb_spec d chr_rbracket) as [-> |]; [|reflexivity].
    exfalso. apply Hr. rewrite E. apply in_or_app. right. right. now left. }
  set (k := runs tail) in *.
  destruct n as [|c n]; [congruence|].
  (* split off: the class run is name ++ quote *)
  assert (F' : forallb not_bracket ((c :: n) ++ [chr_quote]) = true) by (rewrite forallb_app, F; reflexivity).
  rewrite runs_cap. unfold RPlusLazy. rewrite runs_seq. cbn [runs st_rest app st_pos st_caps].
  cbn [forallb] in F. apply andb_true_iff in F as [Hc F]. rewrite Hc. cbn [flat_map]. rewrite app_nil_r.
  replace (n ++ chr_quote :: chr_rbracket :: rest) with ((n ++ [chr_quote]) ++ chr_rbracket :: rest) by now rewrite <- app_assoc.
  rewrite (star_lazy not_bracket (n ++ [chr_quote]) (chr_rbracket :: rest)); [|reflexivity| |].
  2:{ rewrite forallb_app, F. reflexivity. }
  2:{ cbn. rewrite !app_length. cbn. lia. }
  rewrite flat_map_map.
  (* states of n ++ [quote]: those inside n miss, the one behind n hits, the one behind the quote misses *)
  assert (G : forall m pos0 caps0 (f : rst -> list rst),
     (forall w1 d w2, m = w1 ++ d :: w2 -> f (mkst (pos0 + List.length w1) (d :: w2 ++ chr_quote :: chr_rbracket :: rest) caps0) = []) ->
     f (mkst (pos0 + S (List.length m)) (chr_rbracket :: rest) caps0) = [] ->
     flat_map f (states pos0 (m ++ [chr_quote]) (chr_rbracket :: rest) caps0)
     = f (mkst (pos0 + List.length m) (chr_quote :: chr_rbracket :: rest) caps0)).
  { induction m as [|d m IH]; intros pos0 caps0 f H1 H2.
    - cbn in *. rewrite !Nat.add_0_r, Nat.add_1_r in *. rewrite H2, !app_nil_r. reflexivity.
    - cbn [app states flat_map List.length]. pose proof (H1 [] d m eq_refl) as H0. cbn in H0. rewrite Nat.add_0_r in H0.
      rewrite <- app_assoc. cbn [app]. rewrite H0. cbn [app]. rewrite IH.
      + now rewrite Nat.add_succ_r.
      + intros w1 x w2 ->. specialize (H1 (d :: w1) x w2 eq_refl). cbn in H1. rewrite Nat.add_succ_r in H1. exact H1.
      + cbn in H2. rewrite Nat.add_succ_r in H2. exact H2. }
  rewrite G.
  - cbn [st_pos st_rest st_caps]. unfold k, tail. rewrite runs_seq.
    change (chr_quote :: chr_rbracket :: rest) with ([chr_quote; chr_rbracket] ++ rest). rewrite runs_lit_hit. cbn [flat_map]. rewrite app_nil_r.
    f_equal. f_equal.
    + cbn [List.length]. rewrite !app_length. cbn. lia.
    + do 2 f_equal. replace (S (pos + List.length [chr_lbracket; chr_quote]) + List.length n - (pos + List.length [chr_lbracket; chr_quote])) with (List.length (c :: n)) by (cbn [List.length]; lia).
      replace (c :: (n ++ [chr_quote]) ++ chr_rbracket :: rest) with ((c :: n) ++ [chr_quote; chr_rbracket] ++ rest) by (cbn; now rewrite <- app_assoc).
      now rewrite firstn_app, Nat.sub_diag, firstn_all, firstn_O, app_nil_r.
  - intros w1 d w2 E. cbn [st_pos st_rest st_caps]. apply (Miss (c :: w1) d w2); [discriminate|cbn; now rewrite E].
  - cbn [st_pos st_rest st_caps]. unfold k, tail. rewrite runs_seq, runs_lit_miss; [reflexivity|]. reflexivity.
Qed.

Lemma run_index pos caps digits rest : digits <> [] -> forallb is_decimal digits = true ->
  runs re_index (mkst pos ([chr_lbracket] ++ digits ++ [chr_rbracket] ++ rest) caps)
  = [mkst (pos + (List.length digits + 2)) rest ((2, digits) :: caps)].
Proof.
  intros Hn F. unfold re_index. rewrite runs_seq, runs_lit_hit. cbn [flat_map]. rewrite app_nil_r. rewrite runs_seq.
  assert (ND : is_decimal chr_rbracket = false) by (vm_compute; reflexivity).
  rewrite (run_greedy_captured 2 is_decimal digits ([chr_rbracket] ++ rest)); [|exact Hn|exact F|exact ND| |].
  - rewrite runs_lit_hit. f_equal. f_equal. cbn. lia.
  - intros w1 c w2 caps' _ E. apply runs_lit_miss. cbn [startswith]. destruct (N.eqb_spec c chr_rbracket) as [-> |]; [|reflexivity].
    rewrite E, forallb_app in F. cbn [forallb] in F. rewrite ND in F. cbn in F. rewrite andb_false_r in F. discriminate.
  - intros [p s cs]. destruct (startswith s [chr_rbracket]) eqn:E.
    + destruct s as [|c s]; [discriminate|]. cbn [startswith] in E. apply andb_true_iff in E as [E _]. apply N.eqb_eq in E as ->.
      change (chr_rbracket :: s) with ([chr_rbracket] ++ s). rewrite runs_lit_hit. cbn. lia.
    + rewrite runs_lit_miss by exact E. cbn. lia.
Qed.
Lemma run_no_index pos caps rest : rest = [] \/ (exists r, rest = chr_lbracket :: chr_quote :: r) -> runs re_index (mkst pos rest caps) = [].
Proof.
  intros [-> |(r & ->)]; [reflexivity|]. unfold re_index. rewrite runs_seq.
  change (chr_lbracket :: chr_quote :: r) with ([chr_lbracket] ++ chr_quote :: r). rewrite runs_lit_hit. cbn [flat_map]. rewrite app_nil_r.
  assert (ND : is_decimal chr_quote = false) by (vm_compute; reflexivity).
  rewrite runs_seq, runs_cap. unfold RPlus. rewrite runs_seq. cbn [runs st_rest]. now rewrite ND.
Qed.

(** ** finditer *)
Lemma finditer_skip r w s : forall pos, finditer_go r pos (List.length w) (w ++ s) = finditer_go r (pos + List.length w) 0 s.
Proof.
  induction w as [|c w IH]; intros pos; cbn [List.length app].
  - now rewrite Nat.add_0_r.
  - cbn [finditer_go]. rewrite IH. now rewrite Nat.add_succ_r.
Qed.
Lemma finditer_hit r w s pos st : w <> [] -> hd_error (runs r (mkst pos (w ++ s) [])) = Some st -> st_pos st = pos + List.length w ->
  finditer_go r pos 0 (w ++ s) = st :: finditer_go r (pos + List.length w) 0 s.
Proof.
  intros Hn H P. destruct w as [|c w]; [congruence|]. cbn [app finditer_go]. cbn [app] in H. rewrite H. f_equal.
  replace (st_pos st - pos - 1) with (List.length w) by (rewrite P; cbn; lia). rewrite finditer_skip. cbn [List.length]. now rewrite Nat.add_succ_r.
Qed.

Lemma level_to_json_path_eq l : readable_level l ->
  level_to_json_path l = prefix_of_level (lv_name l) ++
    match lv_index (explicit_level l) with Some i => [chr_lbracket] ++ str_of_N (Z.to_N i) ++ [chr_rbracket] | None => [] end.
Proof.
  intros [_ Hi]. unfold level_to_json_path, prefix_of_level, explicit_level.
  change (u "[""") with [chr_lbracket; chr_quote]. change (u """]") with [chr_quote; chr_rbracket].
  change (u "[") with [chr_lbracket]. change (u "]") with [chr_rbracket]. rewrite <- !app_assoc.
  destruct (lv_index l) as [i|] eqn:E; cbn [lv_index].
  - rewrite (str_of_Z_nonneg i (Hi i eq_refl)). reflexivity.
  - destruct (lv_groupable l); cbn [lv_index]; [reflexivity|]. rewrite E. reflexivity.
Qed.
Lemma explicit_readable l : readable_level l -> readable_level (explicit_level l).
Proof.
  intros [H Hi]. unfold readable_level, explicit_level. destruct (lv_index l) as [i|] eqn:E; cbn [lv_name lv_index].
  - split; [exact H|exact Hi].
  - destruct (lv_groupable l); cbn [lv_name lv_index]; (split; [exact H|]); [intros i [= <-]; lia|congruence].
Qed.
Lemma explicit_name l : lv_name (explicit_level l) = lv_name l.
Proof. unfold explicit_level. destruct (lv_index l), (lv_groupable l); reflexivity. Qed.
Lemma explicit_index l i : lv_index (explicit_level l) = Some i -> explicit_level l = mkLevel (lv_name l) true (Some i).
Proof.
  unfold explicit_level. destruct (lv_index l) as [j|] eqn:E; cbn; [congruence|]. destruct (lv_groupable l); cbn; congruence.
Qed.
Lemma explicit_twice l : explicit_level (explicit_level l) = explicit_level l.
Proof.
  unfold explicit_level. destruct (lv_index l) as [i|] eqn:E; [reflexivity|]. destruct (lv_groupable l) eqn:G; [reflexivity|]. now rewrite E, G.
Qed.
Lemma to_json_path_explicit s : to_json_path (explicit s) = to_json_path s.
Proof.
  unfold to_json_path, explicit. f_equal. induction s as [|l s IH]; cbn [map flat_map]; [reflexivity|]. rewrite IH. f_equal.
  unfold level_to_json_path. rewrite explicit_name. unfold explicit_level.
  destruct (lv_index l) as [i|] eqn:E; [reflexivity|]. destruct (lv_groupable l) eqn:G; cbn [lv_index lv_groupable]; [reflexivity|]. now rewrite E, G.
Qed.

Lemma level_starts l : exists r, level_to_json_path l = chr_lbracket :: chr_quote :: r.
Proof. unfold level_to_json_path. change (u "[""") with [chr_lbracket; chr_quote]. eexists. reflexivity. Qed.
Lemma levels_start s : flat_map level_to_json_path s = [] \/ exists r, flat_map level_to_json_path s = chr_lbracket :: chr_quote :: r.
Proof.
  destruct s as [|l s]; [now left|right]. cbn [flat_map]. destruct (level_starts l) as (r & ->). eexists. reflexivity.
Qed.

Lemma parse_levels s : readable s -> forall pos,
  map level_of_match (finditer_go re_level pos 0 (flat_map level_to_json_path s)) = explicit s.
Proof.
  induction 1 as [|l s Hl Hs IH]; intros pos; cbn [flat_map explicit map]; [reflexivity|].
  pose proof (level_to_json_path_eq l Hl) as E.
  assert (W : level_to_json_path l <> []) by (destruct (level_starts l) as (r & ->); discriminate).
  destruct Hl as [Hn Hi].
  assert (K : exists st, hd_error (runs re_level (mkst pos (level_to_json_path l ++ flat_map level_to_json_path s) [])) = Some st
     /\ st_pos st = pos + List.length (level_to_json_path l) /\ level_of_match st = explicit_level l).
  { rewrite E. rewrite <- app_assoc. rewrite run_level by exact Hn. unfold ROpt. cbn [runs].
    pose proof (explicit_readable l (conj Hn Hi)) as [_ Hi'].
    pose proof (explicit_name l) as En.
    destruct (lv_index (explicit_level l)) as [i|] eqn:Ei.
    - rewrite <- !app_assoc. change (runs (RSeq (RLit [chr_lbracket]) (RSeq (RCap 2 (RPlus (RChar is_decimal))) (RLit [chr_rbracket])))) with (runs re_index).
      change (match runs re_index _ ++ [_] with [] => None | x :: _ => Some x end) with (hd_error (runs re_index
         (mkst (pos + List.length (prefix_of_level (lv_name l))) ([chr_lbracket] ++ str_of_N (Z.to_N i) ++ [chr_rbracket] ++ flat_map level_to_json_path s) [(1, lv_name l)])
          ++ [mkst (pos + List.length (prefix_of_level (lv_name l))) ([chr_lbracket] ++ str_of_N (Z.to_N i) ++ [chr_rbracket] ++ flat_map level_to_json_path s) [(1, lv_name l)]])).
      fold re_index. rewrite run_index by (apply str_of_N_nonempty || apply str_of_N_decimal). cbn [app hd_error].
      eexists. split; [reflexivity|]. cbn [st_pos]. split; [rewrite !app_length; cbn [List.length]; rewrite ?app_length; cbn [List.length]; lia|].
      unfold level_of_match. cbn [group st_caps find fst Nat.eqb]. unfold group. cbn [st_caps find fst Nat.eqb].
      rewrite int_of_str, Z2N.id by now apply Hi'.
      symmetry. now apply explicit_index.
    - fold re_index. rewrite run_no_index by apply levels_start. cbn [app hd_error].
      eexists. split; [reflexivity|]. cbn [st_pos]. split; [rewrite app_nil_r; reflexivity|].
      unfold level_of_match, group. cbn [st_caps find fst Nat.eqb].
      unfold explicit_level in *. destruct (lv_index l) as [j|] eqn:Ej; [discriminate|]. destruct (lv_groupable l) eqn:Eg; [discriminate|].
      destruct l; cbn in *. congruence. }
  destruct K as (st & H & P & M). rewrite (finditer_hit re_level _ _ pos st W H P). cbn [map]. rewrite M. f_equal. apply IH.
Qed.
Lemma round_trip s : readable s -> from_json_path (to_json_path s) = explicit s.
Proof.
  intros H. unfold from_json_path, to_json_path, finditer. change (u "$") with [ch "$"]. cbn [app finditer_go].
  assert (M : runs re_level (mkst 0 (ch "$" :: flat_map level_to_json_path s) []) = []).
  { unfold re_level. rewrite runs_seq, runs_lit_miss; reflexivity. }
  rewrite M. cbn [hd_error]. now apply parse_levels.
Qed.

(** ** whatever is parsed is readable *)
Lemma in_star_char g p fuel : forall st st', In st' (star_runs g (runs (RChar p)) fuel st) ->
  exists w, st_rest st = w ++ st_rest st' /\ st_pos st' = st_pos st + List.length w /\ forallb p w = true /\ st_caps st' = st_caps st.
Proof.
  induction fuel as [|f IH]; intros st st' H; cbn [star_runs] in H.
  - destruct H as [<-|[]]. exists []. cbn. repeat split. lia.
  - assert (K : st' = st \/ In st' (flat_map (fun st' => if st_pos st <? st_pos st' then star_runs g (runs (RChar p)) f st' else []) (runs (RChar p) st))).
    { destruct g; [apply in_app_or in H as [H|[<-|[]]]; auto|destruct H as [<-|H]; auto]. }
    destruct K as [-> |K]; [exists []; cbn; repeat split; lia|]. apply in_flat_map in K as (m & Hm & K).
    cbn [runs] in Hm. destruct (st_rest st) as [|c t] eqn:E; [destruct Hm|]. destruct (p c) eqn:Hc; [|destruct Hm]. destruct Hm as [<-|[]].
    cbn [st_pos] in K. destruct (st_pos st <? S (st_pos st)); [|destruct K]. apply IH in K as (w & E' & P & F & C). cbn in *.
    exists (c :: w). cbn. rewrite Hc, F, E', P, C. repeat split. lia.
Qed.
Lemma firstn_exact {A} (w r : list A) : firstn (List.length w) (w ++ r) = w.
Proof. induction w as [|x w IH]; cbn; [reflexivity|now rewrite IH]. Qed.
Lemma in_plus_cap g n p st st' : In st' (runs (RCap n (RSeq (RChar p) (RStar g (RChar p)))) st) ->
  exists w, w <> [] /\ st_rest st = w ++ st_rest st' /\ forallb p w = true /\ st_caps st' = (n, w) :: st_caps st.
Proof.
  rewrite runs_cap, runs_seq. intros H. apply in_map_iff in H as (m & <- & H). apply in_flat_map in H as (m0 & H0 & H).
  cbn [runs] in H0. destruct (st_rest st) as [|c t] eqn:E; [destruct H0|]. destruct (p c) eqn:Hc; [|destruct H0]. destruct H0 as [<-|[]].
  cbn [runs st_rest] in H. apply in_star_char in H as (w & E' & P & F & C). cbn in *.
  exists (c :: w). split; [discriminate|]. split; [now rewrite E'|]. split; [cbn; now rewrite Hc, F|].
  rewrite C, P, E'. do 2 f_equal. replace (S (st_pos st + List.length w) - st_pos st) with (List.length (c :: w)) by (cbn [List.length]; lia).
  exact (firstn_exact (c :: w) (st_rest m)).
Qed.
Lemma in_lit w : forall st st', In st' (runs (RLit w) st) -> st_caps st' = st_caps st.
Proof.
  induction w as [|c w IH]; intros st st' H; cbn [RLit] in H.
  - destruct H as [<-|[]]. reflexivity.
  - rewrite runs_seq in H. apply in_flat_map in H as (m & Hm & H). apply IH in H. rewrite H.
    cbn [runs] in Hm. destruct (st_rest st); [destruct Hm|]. destruct (N.eqb c c0); [|destruct Hm]. destruct Hm as [<-|[]]. reflexivity.
Qed.
Lemma in_level st st' : st_caps st = [] -> In st' (runs re_level st) ->
  exists n, plain_name n /\ (st_caps st' = [(1, n)] \/ exists d, st_caps st' = [(2, d); (1, n)]).
Proof.
  intros C0 H. unfold re_level in H. rewrite runs_seq in H. apply in_flat_map in H as (m1 & H1 & H). apply in_lit in H1.
  rewrite runs_seq in H. apply in_flat_map in H as (m2 & H2 & H). apply in_plus_cap in H2 as (n & Hn & _ & F & C2).
  rewrite runs_seq in H. apply in_flat_map in H as (m3 & H3 & H). apply in_lit in H3.
  exists n. rewrite C0 in H1. rewrite H1 in C2. rewrite C2 in H3. split.
  - split; [exact Hn|]. rewrite forallb_forall in F.
    split; intros K; specialize (F _ K); vm_compute in F; discriminate.
  - unfold ROpt in H. cbn [runs] in H. apply in_app_or in H as [H|[<-|[]]]; [|left; exact H3].
    right. fold re_index in H. change (In st' (runs re_index m3)) in H. unfold re_index in H.
    rewrite runs_seq in H. apply in_flat_map in H as (m4 & H4 & H). apply in_lit in H4.
    rewrite runs_seq in H. apply in_flat_map in H as (m5 & H5 & H). apply in_plus_cap in H5 as (d & _ & _ & _ & C5).
    apply in_lit in H. exists d. rewrite H, C5, H4, H3. reflexivity.
Qed.
Lemma finditer_in r : forall s pos skip st, In st (finditer_go r pos skip s) -> exists p s', hd_error (runs r (mkst p s' [])) = Some st.
Proof.
  induction s as [|c s IH]; intros pos skip st H; cbn [finditer_go] in H; [destruct H|].
  destruct skip as [|k]; [|eapply IH; exact H]. destruct (hd_error (runs r (mkst pos (c :: s) []))) as [st0|] eqn:E; [|eapply IH; exact H].
  destruct H as [<-|H]; [eauto|eapply IH; exact H].
Qed.
Lemma parsed_readable p : Forall (fun l => readable_level l /\ explicit_level l = l) (from_json_path p).
Proof.
  apply Forall_forall. intros l H. unfold from_json_path in H. apply in_map_iff in H as (st & <- & H).
  apply finditer_in in H as (pos & s & H).
  assert (Hin : In st (runs re_level (mkst pos s []))) by (destruct (runs re_level (mkst pos s [])); [discriminate|]; injection H as ->; now left).
  apply in_level in Hin as (n & Hn & C); [|reflexivity]. unfold level_of_match, group.
  destruct C as [C|(d & C)]; rewrite C; cbn [find fst Nat.eqb].
  - split; [|reflexivity]. split; [exact Hn|]. cbn. congruence.
  - split; [|reflexivity]. split; [exact Hn|]. cbn. intros i [= <-]. lia.
Qed.
