(** Lemmas: merging lines, runs of lines, and the tree of groups behind the references. *)
From Coq Require Import Ascii String List NArith ZArith Bool Lia Arith.
From Verif Require Import PyBase PyStr PyRe M_Components M_Ahb M_Sgh M_Navigation M_Matching
  S_Prefix S_Text S_ValuePool S_Navigation S_Matching L_Base L_Prefix L_Str L_Validators L_ValuePool L_Navigation.
Import ListNotations.
Local Open Scope list_scope.

Lemma NoDup_app_intro_snoc {A} (l : list A) a : NoDup l -> ~ In a l -> NoDup (l ++ [a]).
Proof.
  induction 1 as [|x l Hx N IH]; intros H; cbn; [repeat constructor; intros []|]. constructor.
  - rewrite in_app_iff. intros [K|[-> |[]]]; [auto|]. apply H. now left.
  - apply IH. intros K. apply H. now right.
Qed.
Lemma rev_case {A} (l : list A) : l = [] \/ exists b a, l = b ++ [a].
Proof. destruct l as [|x l]; [now left|right]. destruct (@exists_last _ (x :: l)) as (b & a & E); [discriminate|]. eauto. Qed.

(** ** merge_lines_with_same_data_element *)
Lemma distinct_keys_fold lines : forall acc, NoDup acc ->
  let s := fold_left (fun s l => if ostr_in (al_element l) s then s else s ++ [al_element l]) lines acc in
  NoDup s /\ forall d, In d s <-> In d acc \/ exists l, In l lines /\ al_element l = d.
Proof.
  induction lines as [|l lines IH]; intros acc N; cbn [fold_left].
  - split; [exact N|]. intros d. split; [auto|]. intros [H|(l & [] & _)]; exact H.
  - destruct (ostr_in (al_element l) acc) eqn:E.
    + destruct (IH acc N) as [N' H]. split; [exact N'|]. intros d. rewrite H. split.
      * intros [K|(x & K & K')]; [auto|right; exists x; split; [now right|exact K']].
      * intros [K|(x & [-> |K] & K')]; [auto| |right; eauto]. left. subst d. now apply ostr_in_In.
    + assert (N2 : NoDup (acc ++ [al_element l])).
      { apply NoDup_app_intro_snoc; [exact N|]. intros K. apply ostr_in_In in K. congruence. }
      destruct (IH _ N2) as [N' H]. split; [exact N'|]. intros d. rewrite H, in_app_iff. split.
      * intros [[K|[K|[]]]|(x & K & K')]; [auto| |]; right; [exists l; split; [now left|exact K]|exists x; split; [now right|exact K']].
      * intros [K|(x & [-> |K] & K')]; [auto| |right; eauto]. left. right. now left.
Qed.
Lemma distinct_one lines : List.length (distinct_data_element_keys lines) = 1 <-> exists d, share_one_data_element lines d.
Proof.
  unfold distinct_data_element_keys. destruct (distinct_keys_fold lines [] (NoDup_nil _)) as [N H]. cbv zeta in *.
  set (s := fold_left _ lines []) in *. clearbody s. unfold share_one_data_element. split.
  - destruct s as [|d [|d' s]]; try discriminate. intros _. exists d. split.
    + intros ->. destruct (proj1 (H d) (or_introl eq_refl)) as [[]|(l & [] & _)].
    + intros l Hl. assert (K : In (al_element l) [d]) by (apply H; right; eauto). destruct K as [<-|[]]. reflexivity.
  - intros (d & Hne & Hd). assert (K : forall x, In x s -> x = d).
    { intros x Hx. apply H in Hx as [[]|(l & Hl & <-)]. auto. }
    destruct lines as [|l lines]; [congruence|]. assert (Kd : In d s) by (apply H; right; exists l; split; [now left|apply Hd; now left]).
    destruct s as [|a [|b s]]; [destruct Kd|reflexivity|]. exfalso. inversion N as [|? ? Na _]; subst. apply Na.
    rewrite (K a (or_introl eq_refl)), (K b (or_intror (or_introl eq_refl))). now left.
Qed.

Lemma json_path_not_blank s : ~ blank (to_json_path s).
Proof. intros H. unfold blank, all, to_json_path in H. apply Forall_app in H as [H _]. inversion H as [|? ? K _]. vm_compute in K. discriminate. Qed.
Lemma check_data_element_ok d id i : (forall s, d = Some s -> ~ blank s) ->
  check_data_element d id = Ok i <-> id = Some i /\ n_digits 4 i.
Proof.
  intros Hd. unfold check_data_element. assert (E : check_optional (fun s => check_not_blank (Some s)) d = Ok tt).
  { apply check_optional_ok. intros a Ha. apply check_not_blank_ok. eauto. }
  rewrite E. cbn [bind]. destruct id as [x|]; cbn [check_is_str bind].
  - rewrite bind_ok. split.
    + intros ([] & H & K). injection K as ->. apply check_re_ok, full_digits in H. auto.
    + intros [[= ->] H]. exists tt. split; [now apply check_re_ok, full_digits|reflexivity].
  - split; [discriminate|intros [K _]; discriminate].
Qed.
Lemma check_is_str_ok e x : check_is_str e = Ok x <-> e = Some x.
Proof. destruct e; cbn; split; congruence. Qed.
Lemma new_entry_ok q m e x : new_ValuePoolEntry q (Some m) e = Ok x
  <-> q = Some (ve_qualifier x) /\ accepted_qualifier (ve_qualifier x) /\ ve_meaning x = m /\ e = Some (ve_expression x) /\ ~ blank (ve_expression x).
Proof.
  unfold new_ValuePoolEntry. split.
  - intros H. apply bind_ok in H as ([] & H1 & H). apply check_qualifier_ok in H1 as (s & -> & A). cbn [check_is_str bind] in H.
    apply bind_ok in H as ([] & H2 & H). apply check_not_blank_ok in H2 as (t & -> & B). cbn [check_is_str bind] in H. injection H as <-. cbn. auto.
  - destruct x as [q' m' e']. cbn [ve_qualifier ve_meaning ve_expression]. intros (-> & A & <- & -> & B).
    assert (check_is_edifact_qualifier (Some q') = Ok tt) as -> by (apply check_qualifier_ok; eauto). cbn [bind check_is_str].
    assert (check_not_blank (Some e') = Ok tt) as -> by (apply check_not_blank_ok; eauto). reflexivity.
Qed.
Lemma value_pool_entries_ok lines es : value_pool_entries lines = Ok es <-> Forall2 entry_of_line (filter has_expression lines) es.
Proof.
  revert es; induction lines as [|l lines IH]; intros es; cbn [value_pool_entries filter].
  - split; [intros [= <-]; constructor|intros H; inversion H; reflexivity].
  - unfold has_expression at 1. destruct (otruthy (al_expression l)); cbn [negb]; [|apply IH].
    split.
    + destruct (al_name l) as [n|] eqn:En; [|discriminate]. intros H. apply bind_ok in H as (e & H1 & H). apply bind_ok in H as (r & H2 & H). injection H as <-.
      apply new_entry_ok in H1 as (A1 & A2 & A3 & A4 & A5). constructor; [|now apply IH]. split; [exact A1|]. split; [exact A2|]. split; [exists n; split; [exact En|]; rewrite A3; apply strip_spec|]. auto.
    + intros H. inversion H as [|? e ? r (A1 & A2 & (n & En & A3) & A4 & A5) F]; subst. rewrite En.
      apply stripped_unique in A3. assert (new_ValuePoolEntry (al_entry l) (Some (strip n)) (al_expression l) = Ok e) as -> by (apply new_entry_ok; auto). cbn [bind].
      apply IH in F. rewrite F. reflexivity.
Qed.

(** ** itertools.groupby *)
Lemma remove_qualifier_eq a b : remove_qualifier a = remove_qualifier b <-> same_place a b.
Proof.
  unfold remove_qualifier, same_place. split; [intros [= -> -> ->]; auto|intros (-> & -> & ->); reflexivity].
Qed.
Definition rq (x : AhbLine * Location) : Location := remove_qualifier (snd x).
Definition run_key (r : Run) : Location := match r with x :: _ => rq x | [] => mkLocation false [] None None None end.
Lemma groupby_spec (l : Run) : let runs := map snd (groupby rq l) in
  groupby rq l = map (fun r => (run_key r, r)) runs
  /\ concat runs = l
  /\ (forall r, In r runs -> r <> [] /\ forall x, In x r -> rq x = run_key r)
  /\ (forall before r x y r' after, runs = before ++ (r ++ [x]) :: (y :: r') :: after -> rq x <> rq y).
Proof.
  induction l as [|x l IH]; cbv zeta.
  - cbn. split; [reflexivity|]. split; [reflexivity|]. split; [intros r []|]. intros [|? ?]; discriminate.
  - cbn [groupby]. destruct (groupby rq l) as [|[k items] rest] eqn:E.
    + cbn in IH. destruct IH as (_ & <- & _ & _). cbn [map snd concat app run_key]. split; [reflexivity|]. split; [reflexivity|]. split.
      * intros r [<-|[]]. split; [discriminate|]. intros y [<-|[]]. reflexivity.
      * intros [|b before] r x' y r' after H; [discriminate|]. injection H as _ H. destruct before; discriminate.
    + cbv zeta in IH. cbn [map snd] in IH. destruct IH as (M & C & R & S). cbn [map] in M. injection M as Hk M.
      destruct (R items (or_introl eq_refl)) as [Hne Hin]. destruct items as [|i0 items]; [congruence|]. cbn [run_key] in *. subst k.
      destruct (location_eqb (rq x) (rq i0)) eqn:Q.
      * apply location_eqb_eq in Q. cbn [map snd]. split; [|split; [|split]].
        -- cbn [map run_key]. now rewrite <- M.
        -- cbn [concat app] in *. now rewrite C.
        -- intros r [<-|Hr]; [|apply R; now right]. split; [discriminate|]. cbn [run_key]. intros y [<-|Hy]; [reflexivity|]. rewrite Q. now apply Hin.
        -- intros before r x' y r' after H. destruct before as [|b before].
           ++ injection H as H1 H2. destruct r as [|r0 r]; [injection H1 as <- H1; discriminate|]. injection H1 as <- H1.
              apply (S [] r x' y r' after). cbn [app]. congruence.
           ++ injection H as <- H2. apply (S ((i0 :: items) :: before) r x' y r' after). cbn [app]. congruence.
      * apply location_eqb_neq in Q. cbn [map snd]. split; [|split; [|split]].
        -- cbn [map run_key]. now rewrite <- M.
        -- cbn [concat app] in *. now rewrite C.
        -- intros r [<-|Hr]; [|apply R; exact Hr]. split; [discriminate|]. intros y [<-|[]]; reflexivity.
        -- intros before r x' y r' after H. destruct before as [|b before].
           ++ injection H as H1 H2 H3 H4. destruct r as [|r0 r]; [injection H1 as <-; subst; exact Q|]. injection H1 as _ H1. destruct r; discriminate.
           ++ injection H as <- H2. apply (S before r x' y r' after). exact H2.
Qed.
Lemma groupby_runs (l : Run) : maximal_runs l (map snd (groupby rq l)).
Proof.
  destruct (groupby_spec l) as (_ & C & R & S). cbv zeta in *. split; [exact C|]. split.
  - intros r Hr. destruct (R r Hr) as [Hne H]. split; [exact Hne|]. intros x y Hx Hy. apply remove_qualifier_eq. fold (rq x). fold (rq y). now rewrite (H x Hx), (H y Hy).
  - intros before r x y r' after H K. apply (S before r x y r' after H). unfold rq. now apply remove_qualifier_eq.
Qed.
Lemma place_key r : r <> [] -> match r with [(_, p)] => p | _ => run_key r end = place r.
Proof. destruct r as [|[l p] [|y r]]; intros H; [congruence|reflexivity|reflexivity]. Qed.

(** ** sections *)
Definition add_run (s : list Run * list (Run * list Run)) (r : Run) : list Run * list (Run * list Run) :=
  let (els, secs) := s in
  if counts_as_segment r then (els, secs ++ [(r, [])])
  else if counts_as_element r then
    match rev secs with
    | [] => (els ++ [r], [])
    | (q, es) :: before => (els, rev before ++ [(q, es ++ [r])])
    end
  else s.
Lemma sections_snoc runs r : sections (runs ++ [r]) = add_run (sections runs) r.
Proof.
  induction runs as [|q runs IH]; cbn [app].
  - cbn [sections add_run]. destruct (counts_as_segment r); [reflexivity|]. destruct (counts_as_element r); reflexivity.
  - cbn [sections]. rewrite IH. destruct (sections runs) as [els secs]. unfold add_run.
    destruct (counts_as_segment r) eqn:E1; [|destruct (counts_as_element r) eqn:E2].
    + destruct (counts_as_segment q); [reflexivity|]. destruct (counts_as_element q); reflexivity.
    + destruct (@rev_case _ secs) as [-> |(before & [x es] & ->)].
      * cbn [rev]. destruct (counts_as_segment q); [reflexivity|]. destruct (counts_as_element q); reflexivity.
      * rewrite rev_app_distr. cbn [rev app]. rewrite rev_involutive.
        destruct (counts_as_segment q); [|destruct (counts_as_element q); cbn [rev]; rewrite ?rev_app_distr; cbn [rev app]; rewrite ?rev_involutive; reflexivity].
        cbn [rev]. rewrite rev_app_distr. cbn [rev app]. rewrite rev_app_distr, rev_involutive. reflexivity.
    + destruct (counts_as_segment q); [reflexivity|]. destruct (counts_as_element q); reflexivity.
Qed.

Lemma merge_pool first rest d stack e :
  share_one_data_element (first :: rest) d -> al_entry first <> None ->
  (merge_lines_with_same_data_element (first :: rest) stack = Ok e <->
   exists id entries, d = Some id /\ n_digits 4 id
     /\ e = DPool (mkPool (option_map to_json_path stack) id None (Some VALUE_POOL) entries)
     /\ Forall2 entry_of_line (filter has_expression (first :: rest)) entries).
Proof.
  intros Hd He. pose proof Hd as Hd'. assert (Hx : exists x, share_one_data_element (first :: rest) x) by eauto. apply distinct_one in Hx.
  unfold merge_lines_with_same_data_element. rewrite Hx, Nat.eqb_refl. cbn [check bind].
  destruct (al_entry first) as [q|]; [|congruence]. cbn [is_some].
  assert (Ed : al_element first = d) by (apply Hd; now left). rewrite Ed. unfold new_ValuePool.
  assert (Nb : forall s, option_map to_json_path stack = Some s -> ~ blank s) by (destruct stack; intros s Hs; [injection Hs as <-; apply json_path_not_blank|discriminate]).
  split.
  - intros H. apply bind_ok in H as (p & Hp & H). apply bind_ok in Hp as (i & Hi & Hp). injection Hp as <-. apply bind_ok in H as (es & Hes & H). injection H as <-.
    apply (check_data_element_ok _ _ _ Nb) in Hi as [-> Hi]. exists i, es. split; [reflexivity|]. split; [exact Hi|]. split; [reflexivity|]. now apply value_pool_entries_ok.
  - intros (id & es & -> & Hi & -> & F). apply value_pool_entries_ok in F.
    assert (check_data_element (option_map to_json_path stack) (Some id) = Ok id) as -> by (apply (check_data_element_ok _ _ _ Nb); auto). cbn [bind]. rewrite F. reflexivity.
Qed.
Lemma merge_free first rest d stack e :
  share_one_data_element (first :: rest) d -> al_entry first = None ->
  (merge_lines_with_same_data_element (first :: rest) stack = Ok e <->
   exists id expression type, d = Some id /\ n_digits 4 id /\ al_expression first = Some expression /\ ~ blank expression
     /\ (type = DATETIME /\ al_segment first = Some (u "DTM") \/ type = TEXT /\ al_segment first <> Some (u "DTM"))
     /\ e = DFree (mkFreeText (option_map to_json_path stack) id None (Some type) expression)).
Proof.
  intros Hd He. assert (Hx : exists x, share_one_data_element (first :: rest) x) by eauto. apply distinct_one in Hx.
  unfold merge_lines_with_same_data_element. rewrite Hx, Nat.eqb_refl. cbn [check bind]. rewrite He. cbn [is_some].
  assert (Ed : al_element first = d) by (apply Hd; now left). rewrite Ed. unfold new_FreeText.
  assert (Nb : forall s, option_map to_json_path stack = Some s -> ~ blank s) by (destruct stack; intros s Hs; [injection Hs as <-; apply json_path_not_blank|discriminate]).
  assert (T : match derive_data_type_from_segment_code (al_segment first) with Some t => t = DATETIME /\ al_segment first = Some (u "DTM") | None => al_segment first <> Some (u "DTM") end).
  { unfold derive_data_type_from_segment_code. destruct (al_segment first) as [s|]; [|discriminate]. destruct (str_in s [u "DTM"]) eqn:E.
    - apply str_in_In in E as [<-|[]]. auto.
    - intros [= ->]. assert (K : str_in (u "DTM") [u "DTM"] = true) by (apply str_in_In; now left). congruence. }
  split.
  - intros H. apply bind_ok in H as (p & Hp & H). apply bind_ok in Hp as (i & Hi & Hp). apply bind_ok in Hp as (x & Hxp & Hp). apply bind_ok in Hp as ([] & Hb & Hp). injection Hp as <-.
    apply (check_data_element_ok _ _ _ Nb) in Hi as [-> Hi]. apply check_is_str_ok in Hxp. apply check_not_blank_ok in Hb as (y & [= <-] & Hb).
    destruct (derive_data_type_from_segment_code (al_segment first)) as [t|]; injection H as <-.
    + destruct T as [-> T]. exists i, x, DATETIME. auto 10.
    + exists i, x, TEXT. auto 10.
  - intros (id & x & t & -> & Hi & Hxp & Hb & Ht & ->).
    assert (check_data_element (option_map to_json_path stack) (Some id) = Ok id) as -> by (apply (check_data_element_ok _ _ _ Nb); auto). cbn [bind].
    rewrite Hxp. cbn [check_is_str bind]. assert (check_not_blank (Some x) = Ok tt) as -> by (apply check_not_blank_ok; eauto). cbn [bind].
    destruct (derive_data_type_from_segment_code (al_segment first)) as [t'|].
    + destruct T as [-> T]. destruct Ht as [[-> _]|[_ Ht]]; [reflexivity|contradiction].
    + destruct Ht as [[_ Ht]|[-> _]]; [contradiction|reflexivity].
Qed.
Lemma merge_ok lines stack e :
  merge_lines_with_same_data_element lines stack = Ok e <-> element_of_lines lines (option_map to_json_path stack) e.
Proof.
  split.
  - intros H.
    assert (X : exists d, share_one_data_element lines d).
    { unfold merge_lines_with_same_data_element in H. apply bind_ok in H as (x & C & _). apply check_ok in C. apply Nat.eqb_eq in C. now apply distinct_one. }
    destruct X as (d & X). destruct lines as [|first rest]; [destruct X as [X _]; congruence|].
    destruct (al_entry first) as [v|] eqn:V.
    + apply (merge_pool first rest d stack e X) in H; [|congruence]. destruct H as (id & es & -> & I & -> & F).
      exists first, rest, id. split; [reflexivity|]. split; [exact X|]. split; [exact I|]. left. split; [congruence|]. exists es. auto.
    + apply (merge_free first rest d stack e X V) in H. destruct H as (id & x & t & -> & I & E & B & T & ->).
      exists first, rest, id. split; [reflexivity|]. split; [exact X|]. split; [exact I|]. right. split; [exact V|]. exists x, t. auto.
  - intros (first & rest & id & -> & X & I & [(V & es & -> & F)|(V & x & t & -> & E & B & T)]).
    + apply (merge_pool first rest _ stack _ X V). exists id, es. auto.
    + apply (merge_free first rest _ stack _ X V). exists id, x, t. auto 10.
Qed.
