(** Lemmas about segment group hierarchies. *)
From Coq Require Import List NArith ZArith Bool Lia Arith Sorted.
From Verif Require Import PyBase PyStr PyRe M_Components M_Ahb M_Sgh M_Navigation
  S_Prefix S_Text S_Sgh L_Base L_Prefix L_Validators.
Import ListNotations.

(** ** positions *)
Lemma node_at_app h p q : node_at h (p ++ q) = match node_at h p with Some n => node_at n q | None => None end.
Proof.
  revert h; induction p as [|i p IH]; intros h; cbn [app node_at]; [reflexivity|].
  destruct (nth_error _ i); [apply IH|reflexivity].
Qed.

Lemma node_at_cons k o subs i p c :
  nth_error subs i = Some c -> node_at (mkSgh k o (Some subs)) (i :: p) = node_at c p.
Proof. intros H. cbn. now rewrite H. Qed.

(** all positions of a hierarchy in document order *)
Section PositionsOfList.
  Variable f : Sgh -> list (list nat).
  Fixpoint positions_of_list (i : nat) (l : list Sgh) : list (list nat) :=
    match l with
    | [] => []
    | c :: r => map (cons i) (f c) ++ positions_of_list (S i) r
    end.
End PositionsOfList.
Fixpoint positions (h : Sgh) : list (list nat) :=
  match h with
  | mkSgh _ _ subs => [] :: match subs with Some l => positions_of_list positions 0 l | None => [] end
  end.

Lemma in_positions_of_list f i l p :
  In p (positions_of_list f i l) <-> exists j q c, p = (i + j) :: q /\ nth_error l j = Some c /\ In q (f c).
Proof.
  revert i; induction l as [|c l IH]; intros i; cbn [positions_of_list].
  - split; [intros []|intros (j & q & c & _ & H & _); destruct j; discriminate].
  - rewrite in_app_iff, in_map_iff, IH. split.
    + intros [(q & <- & Hq)|(j & q & d & -> & Hj & Hq)].
      * exists 0, q, c. repeat split; [f_equal; lia|exact Hq].
      * exists (S j), q, d. repeat split; [f_equal; lia|exact Hj|exact Hq].
    + intros ([|j] & q & d & -> & Hj & Hq).
      * left. exists q. injection Hj as ->. split; [f_equal; lia|exact Hq].
      * right. exists j, q, d. repeat split; [f_equal; lia|exact Hj|exact Hq].
Qed.

Lemma in_positions h : forall p, In p (positions h) <-> node_at h p <> None.
Proof.
  induction h as [k o subs IH] using sgh_ind'. intros p. cbn [positions].
  destruct p as [|i p].
  - split; [discriminate|]. intros _. now left.
  - assert (E : In (i :: p) ([] :: match subs with Some l => positions_of_list positions 0 l | None => [] end)
             <-> In (i :: p) (positions_of_list positions 0 (olist subs))).
    { destruct subs; cbn [olist positions_of_list]; cbn; intuition congruence. }
    rewrite E, in_positions_of_list. cbn [node_at sgh_subs]. split.
    + intros (j & q & c & [= -> ->] & Hj & Hq). cbn. rewrite Hj.
      rewrite Forall_forall in IH. apply IH; [eapply nth_error_In; eassumption|exact Hq].
    + intros H. destruct (nth_error (olist subs) i) as [c|] eqn:Hc; [|congruence].
      exists i, p, c. repeat split; [exact Hc|].
      rewrite Forall_forall in IH. apply IH; [eapply nth_error_In; eassumption|exact H].
Qed.

Lemma before_trans p q r : before p q -> before q r -> before p r.
Proof.
  revert q r; induction p as [|i p IH]; intros [|j q] [|k r]; cbn; try tauto.
  intros [H|[-> H]] [K|[-> K]]; [left; lia|left; lia|left; lia|].
  right. split; [reflexivity|]. eapply IH; eauto.
Qed.
Lemma before_irrefl p : ~ before p p.
Proof. induction p as [|i p IH]; cbn; [tauto|]. intros [H|[_ H]]; [lia|auto]. Qed.

Lemma sorted_app {A} (R : A -> A -> Prop) l1 l2 :
  StronglySorted R l1 -> StronglySorted R l2 -> (forall a b, In a l1 -> In b l2 -> R a b) ->
  StronglySorted R (l1 ++ l2).
Proof.
  induction 1 as [|a l1 H1 IH Ha]; intros H2 H; [exact H2|]. cbn. constructor.
  - apply IH; [exact H2|]. intros x y Hx Hy. apply H; [now right|exact Hy].
  - apply Forall_app. split; [exact Ha|]. apply Forall_forall. intros y Hy. apply H; [now left|exact Hy].
Qed.
Lemma sorted_map_cons i l : StronglySorted before l -> StronglySorted before (map (cons i) l).
Proof.
  induction 1 as [|p l H IH Hp]; cbn; constructor; [exact IH|].
  apply Forall_forall. intros q Hq. apply in_map_iff in Hq as (r & <- & Hr).
  rewrite Forall_forall in Hp. right. auto.
Qed.
Lemma positions_sorted h : StronglySorted before (positions h).
Proof.
  induction h as [k o subs IH] using sgh_ind'. cbn [positions].
  assert (K : forall i l, Forall (fun h => StronglySorted before (positions h)) l ->
              StronglySorted before (positions_of_list positions i l)).
  { intros i l H. revert i. induction H as [|c l Hc Hl IHl]; intros i; cbn [positions_of_list]; [constructor|].
    apply sorted_app; [now apply sorted_map_cons|apply IHl|].
    intros a b Ha Hb. apply in_map_iff in Ha as (q & <- & _).
    apply in_positions_of_list in Hb as (j & q' & d & -> & _). left. lia. }
  constructor.
  - destruct subs as [l|]; [apply K, IH|constructor].
  - apply Forall_forall. intros q Hq. destruct subs as [l|]; [|destruct Hq].
    apply in_positions_of_list in Hq as (j & q' & d & -> & _). exact I.
Qed.

Definition label (n : Sgh) : option pystr * pystr := (sgh_key n, sgh_opening n).
Lemma flattened_positions h :
  Forall2 (fun p l => exists n, node_at h p = Some n /\ label n = l) (positions h) (flattened h).
Proof.
  induction h as [k o subs IH] using sgh_ind'. cbn [positions flattened].
  constructor; [eexists; split; reflexivity|].
  destruct subs as [l|]; [|constructor]. cbn [olist] in IH.
  assert (K : forall l' i, Forall (fun h => Forall2 (fun p l => exists n, node_at h p = Some n /\ label n = l)
                                      (positions h) (flattened h)) l' ->
              (forall j c, nth_error l' j = Some c -> nth_error l (i + j) = Some c) ->
              Forall2 (fun p lb => exists n, node_at (mkSgh k o (Some l)) p = Some n /\ label n = lb)
                (positions_of_list positions i l') (flat_map flattened l')).
  { intros l' i H. revert i. induction H as [|c l' Hc Hl IHl]; intros i Hi; cbn [positions_of_list flat_map]; [constructor|].
    apply Forall2_app.
    - specialize (Hi 0 c eq_refl). rewrite Nat.add_0_r in Hi.
      induction Hc as [|p lb ps lbs (n & Hn & Hlb) Hps IHps]; cbn [map]; constructor; [|exact IHps].
      exists n. split; [|exact Hlb]. cbn [node_at sgh_subs olist]. now rewrite Hi.
    - apply IHl. intros j d Hj. replace (S i + j) with (i + S j) by lia. now apply Hi. }
  apply (K l 0); [exact IH|]. intros j c Hj. exact Hj.
Qed.

Lemma in_flattened h lb : In lb (flattened h) <-> exists p n, node_at h p = Some n /\ label n = lb.
Proof.
  pose proof (flattened_positions h) as F. split.
  - intros Hin. clear -F Hin. induction F as [|p l ps ls (n & Hn & Hl) F IH]; [destruct Hin|].
    destruct Hin as [<-|Hin]; [eauto|auto].
  - intros (p & n & Hn & Hl).
    assert (Hp : In p (positions h)) by (apply in_positions; congruence).
    clear -F Hp Hn Hl. induction F as [|q l ps ls (m & Hm & Hl') F IH]; [destruct Hp|].
    destruct Hp as [->|Hp]; [left; congruence|right; auto].
Qed.
Lemma in_flattened_key h k : In k (map fst (flattened h)) <-> exists n, occurs_in n h /\ sgh_key n = k.
Proof.
  rewrite in_map_iff. split.
  - intros (lb & <- & H). apply in_flattened in H as (p & n & Hn & <-). exists n. split; [now exists p|reflexivity].
  - intros (n & (p & Hp) & <-). exists (label n). split; [reflexivity|]. apply in_flattened. eauto.
Qed.

(** ** below *)
Lemma below_iff_child d h : below d h <-> exists c, In c (olist (sgh_subs h)) /\ occurs_in d c.
Proof.
  split.
  - intros ([|i p] & Hn & H); [congruence|]. cbn in H.
    destruct (nth_error (olist (sgh_subs h)) i) as [c|] eqn:E; [|discriminate].
    exists c. split; [eapply nth_error_In; eassumption|now exists p].
  - intros (c & Hc & (p & Hp)). apply In_nth_error in Hc as (i & Hi).
    exists (i :: p). split; [discriminate|]. cbn. now rewrite Hi.
Qed.
Lemma occurs_in_iff n h : occurs_in n h <-> n = h \/ below n h.
Proof.
  split.
  - intros ([|i p] & H); [left; cbn in H; congruence|]. right. exists (i :: p). split; [discriminate|exact H].
  - intros [->|(p & _ & H)]; [now exists []|now exists p].
Qed.
Lemma occurs_in_trans a b c : occurs_in a b -> occurs_in b c -> occurs_in a c.
Proof. intros (p & Hp) (q & Hq). exists (q ++ p). rewrite node_at_app, Hq. exact Hp. Qed.
Lemma below_occurs a b c : below a b -> occurs_in b c -> below a c.
Proof.
  intros (p & Hn & Hp) (q & Hq). exists (q ++ p). split; [|rewrite node_at_app, Hq; exact Hp].
  destruct q; [exact Hn|discriminate].
Qed.

Lemma is_hierarchically_below_spec h k :
  is_hierarchically_below h k = true <-> exists d, below d h /\ sgh_key d = k.
Proof.
  induction h as [k' o subs IH] using sgh_ind'. destruct subs as [l|]; cbn [is_hierarchically_below].
  - rewrite existsb_exists. cbn [olist] in IH. rewrite Forall_forall in IH. split.
    + intros (c & Hc & H). destruct (ostr_eqb_spec (sgh_key c) k) as [E|E].
      * exists c. split; [|exact E]. apply below_iff_child. exists c. split; [exact Hc|now exists []].
      * apply IH in H as (d & Hd & Hk); [|exact Hc]. exists d. split; [|exact Hk].
        apply below_iff_child. exists c. split; [exact Hc|]. apply occurs_in_iff. auto.
    + intros (d & Hd & Hk). apply below_iff_child in Hd as (c & Hc & Ho). cbn in Hc. exists c. split; [exact Hc|].
      destruct (ostr_eqb_spec (sgh_key c) k) as [E|E]; [reflexivity|].
      apply occurs_in_iff in Ho as [->|Hb]; [congruence|]. apply IH; eauto.
  - split; [discriminate|]. intros (d & Hd & _). apply below_iff_child in Hd as (c & [] & _).
Qed.

Lemma sg_is_hierarchically_below_spec h x y :
  sg_is_hierarchically_below h x y = true
  <-> x <> y /\ exists a d, occurs_in a h /\ sgh_key a = y /\ below d a /\ sgh_key d = x.
Proof.
  induction h as [k o subs IH] using sgh_ind'. cbn [sg_is_hierarchically_below].
  destruct (ostr_eqb_spec x y) as [E|E]; [split; [discriminate|intros [? _]; congruence]|].
  destruct (ostr_eqb (sgh_key (mkSgh k o subs)) y && ostr_in x (map fst (flattened (mkSgh k o subs)))) eqn:R.
  - apply andb_true_iff in R as [R1 R2]. apply ostr_eqb_eq in R1. apply ostr_in_In, in_flattened_key in R2 as (d & Hd & Hk).
    split; [|reflexivity]. intros _. split; [exact E|]. exists (mkSgh k o subs), d.
    repeat split; try assumption; [now exists []|]. apply occurs_in_iff in Hd as [->|Hd]; [congruence|exact Hd].
  - assert (Q : (exists a d, occurs_in a (mkSgh k o subs) /\ sgh_key a = y /\ below d a /\ sgh_key d = x)
             <-> exists c, In c (olist subs) /\ exists a d, occurs_in a c /\ sgh_key a = y /\ below d a /\ sgh_key d = x).
    { split.
      - intros (a & d & Ha & Hy & Hd & Hx). apply occurs_in_iff in Ha as [->|Ha].
        + exfalso. apply andb_false_iff in R as [R|R].
          * apply ostr_eqb_neq in R. congruence.
          * apply ostr_in_nIn in R. apply R, in_flattened_key. exists d. split; [apply occurs_in_iff; auto|exact Hx].
        + apply below_iff_child in Ha as (c & Hc & Ha). exists c. split; [exact Hc|]. eauto 8.
      - intros (c & Hc & a & d & Ha & Hy & Hd & Hx). exists a, d. repeat split; try assumption.
        apply occurs_in_iff. right. apply below_iff_child. exists c. auto. }
    rewrite Q. rewrite Forall_forall in IH. destruct subs as [l|]; cbn [olist] in *.
    + rewrite existsb_exists. split.
      * intros (c & Hc & H). apply IH in H as [_ H]; [|exact Hc]. split; [exact E|]. eauto.
      * intros (_ & c & Hc & H). exists c. split; [exact Hc|]. apply IH; auto.
    + split; [discriminate|]. intros (_ & c & [] & _).
Qed.

(** ** distinct keys *)
Lemma node_at_below_pos h p q n m :
  distinct_keys h -> node_at h p = Some n -> node_at h q = Some m -> sgh_key n = sgh_key m -> n = m.
Proof. intros D Hp Hq E. specialize (D _ _ _ _ Hp Hq E). congruence. Qed.

Lemma below_order_transitive h x y z :
  distinct_keys h -> sg_is_hierarchically_below h x y = true -> sg_is_hierarchically_below h y z = true ->
  sg_is_hierarchically_below h x z = true.
Proof.
  intros D H1 H2. apply sg_is_hierarchically_below_spec in H1 as (N1 & a1 & d1 & (p1 & P1) & K1 & (q1 & Q1 & B1) & X1).
  apply sg_is_hierarchically_below_spec in H2 as (N2 & a2 & d2 & (p2 & P2) & K2 & (q2 & Q2 & B2) & X2).
  apply sg_is_hierarchically_below_spec.
  assert (E1 : node_at h (p2 ++ q2) = Some d2) by now rewrite node_at_app, P2.
  assert (E2 : p1 = p2 ++ q2) by (eapply D; [exact P1|exact E1|congruence]). subst p1.
  assert (a1 = d2) by congruence. subst d2.
  assert (E3 : node_at h ((p2 ++ q2) ++ q1) = Some d1) by now rewrite node_at_app, P1.
  split.
  - intros ->. assert (E : p2 = (p2 ++ q2) ++ q1) by (eapply D; [exact P2|exact E3|congruence]).
    apply (f_equal (@length _)) in E. rewrite !app_length in E. destruct q2; [congruence|]. cbn in E. lia.
  - exists a2, d1. repeat split; try assumption; [now exists p2|]. exists (q2 ++ q1).
    split; [destruct q2; [congruence|discriminate]|]. rewrite node_at_app, B2. exact B1.
Qed.
Lemma below_order_irreflexive h x : sg_is_hierarchically_below h x x = false.
Proof.
  destruct (sg_is_hierarchically_below h x x) eqn:E; [|reflexivity].
  apply sg_is_hierarchically_below_spec in E as [E _]. congruence.
Qed.

(** ** pseudo locations *)
Definition plain_layer (n : Sgh) : Layer := mkLayer (sgh_key n) (sgh_opening n) None.

Lemma well_named_sub k o l c : well_named (mkSgh k o (Some l)) -> In c l -> well_named c.
Proof.
  intros W Hc n Hn. apply W. apply occurs_in_iff. right. apply below_iff_child. exists c. auto.
Qed.
Lemma well_named_layer h : well_named h -> new_Layer (sgh_key h) (Some (sgh_opening h)) None = Ok (plain_layer h).
Proof.
  intros W. destruct (W h) as [H1 H2]; [now exists []|].
  apply new_Layer_ok. split; [reflexivity|]. repeat split; try apply H2; [exact H1|]. intros q [=].
Qed.

Definition first_position (h : Sgh) (k : option pystr) (p : list nat) : Prop :=
  (exists n, node_at h p = Some n /\ sgh_key n = k) /\
  forall q m, before q p -> node_at h q = Some m -> sgh_key m <> k.

Lemma construct_pseudo_location_spec sg_key h : well_named h -> forall ls,
  match construct_pseudo_location sg_key h ls with
  | Ok (Some loc) => exists p, first_position h sg_key p
                     /\ loc = mkLocation true (ls ++ map plain_layer (nodes_on_path h p)) None None None
  | Ok None => forall n, occurs_in n h -> sgh_key n <> sg_key
  | Raise _ => False
  end.
Proof.
  induction h as [k o subs IH] using sgh_ind'. intros W ls. cbn [construct_pseudo_location].
  pose proof (well_named_layer _ W) as WL. cbn [sgh_key sgh_opening] in WL. rewrite WL. cbn [bind].
  destruct (ostr_eqb_spec sg_key k) as [E|E].
  - rewrite new_Location_none.
    assert (Nat.eqb (length (ls ++ [plain_layer (mkSgh k o subs)])) 0 = false) as ->.
    { rewrite app_length. cbn. apply Nat.eqb_neq. lia. }
    cbn [bind]. exists []. split.
    + split; [eexists; split; [reflexivity|now symmetry]|]. intros [|] m [].
    + destruct subs; reflexivity.
  - destruct subs as [l|].
    2:{ intros n Hn. apply occurs_in_iff in Hn as [->|Hb]; [cbn; congruence|].
        apply below_iff_child in Hb as (c & [] & _). }
    cbn [olist] in IH.
    set (ls' := ls ++ [plain_layer (mkSgh k o (Some l))]).
    assert (K : forall pre l', l = pre ++ l' ->
      (forall c n, In c pre -> occurs_in n c -> sgh_key n <> sg_key) ->
      match (fix loop (subs : list Sgh) : result (option Location) :=
               match subs with
               | [] => Ok None
               | sub :: rest =>
                   let* sub_result := construct_pseudo_location sg_key sub ls' in
                   match sub_result with
                   | Some l => Ok (Some l)
                   | None => loop rest
                   end
               end) l' with
      | Ok (Some loc) => exists p, first_position (mkSgh k o (Some l)) sg_key p
                     /\ loc = mkLocation true (ls ++ map plain_layer (nodes_on_path (mkSgh k o (Some l)) p)) None None None
      | Ok None => forall n, occurs_in n (mkSgh k o (Some l)) -> sgh_key n <> sg_key
      | Raise _ => False
      end).
    { intros pre l'. revert pre. induction l' as [|c l' IHl']; intros pre El Hpre.
      - intros n Hn. apply occurs_in_iff in Hn as [->|Hb]; [cbn; congruence|].
        apply below_iff_child in Hb as (c & Hc & Ho). cbn in Hc. subst l. rewrite app_nil_r in Hc. eauto.
      - assert (Hc : In c l) by (rewrite El; apply in_or_app; right; now left).
        rewrite Forall_forall in IH. pose proof (IH c Hc (well_named_sub _ _ _ _ W Hc) ls') as IHc.
        destruct (construct_pseudo_location sg_key c ls') as [[loc|]|e]; cbn [bind].
        + destruct IHc as (p & [(n & Hn & Hk) Hp] & ->).
          assert (Hi : nth_error l (length pre) = Some c).
          { rewrite El, nth_error_app2 by lia. now rewrite Nat.sub_diag. }
          exists (length pre :: p). split; [split|].
          * exists n. split; [|exact Hk]. cbn. now rewrite Hi.
          * intros [|i q] m Hb Hm; [cbn in Hm; injection Hm as <-; cbn; congruence|].
            cbn in Hm. cbn in Hb. destruct Hb as [Hlt|[-> Hb]].
            -- destruct (nth_error l i) as [c'|] eqn:Hi'; [|discriminate].
               assert (In c' pre) by (rewrite El, nth_error_app1 in Hi' by lia; eapply nth_error_In; eassumption).
               apply (Hpre c' m); [assumption|]. now exists q.
            -- rewrite Hi in Hm. eapply Hp; eassumption.
          * unfold ls'. cbn [nodes_on_path sgh_subs olist map]. rewrite Hi.
            f_equal. rewrite <- app_assoc. reflexivity.
        + apply (IHl' (pre ++ [c])).
          * rewrite El, <- app_assoc. reflexivity.
          * intros c' n Hc' Hn. apply in_app_or in Hc' as [Hc'|[<-|[]]]; [eauto|]. now apply IHc.
        + exact IHc. }
    apply (K []); [reflexivity|]. intros c n [].
Qed.

Lemma first_position_unique_distinct h k p q :
  distinct_keys h -> first_position h k p -> (exists n, node_at h q = Some n /\ sgh_key n = k) -> q = p.
Proof.
  intros D [(n & Hn & Hk) _] (m & Hm & Hk'). eapply D; [exact Hm|exact Hn|congruence].
Qed.

Lemma nodes_on_path_spec h p i :
  node_at h p <> None -> i <= length p -> nth_error (nodes_on_path h p) i = node_at h (firstn i p).
Proof.
  revert h i; induction p as [|j p IH]; intros h i Hn Hi.
  - destruct i; [reflexivity|cbn in Hi; lia].
  - cbn [nodes_on_path]. destruct i as [|i]; [reflexivity|]. cbn [nth_error firstn node_at] in *.
    destruct (nth_error (olist (sgh_subs h)) j) as [c|]; [|congruence]. apply IH; [exact Hn|cbn in Hi; lia].
Qed.
Lemma nodes_on_path_length h p : node_at h p <> None -> length (nodes_on_path h p) = S (length p).
Proof.
  revert h; induction p as [|j p IH]; intros h Hn; [reflexivity|]. cbn [nodes_on_path node_at length] in *.
  destruct (nth_error (olist (sgh_subs h)) j) as [c|]; [|congruence]. now rewrite IH.
Qed.
Lemma nodes_on_path_app h p q n : node_at h p = Some n ->
  nodes_on_path h (p ++ q) = removelast (nodes_on_path h p) ++ nodes_on_path n q.
Proof.
  revert h; induction p as [|i p IH]; intros h Hn.
  - cbn in Hn. injection Hn as ->. destruct q; reflexivity.
  - cbn [app nodes_on_path node_at] in *. destruct (nth_error (olist (sgh_subs h)) i) as [c|] eqn:E; [|discriminate].
    rewrite (IH _ Hn). cbn [removelast]. destruct (nodes_on_path c p) eqn:En; [destruct p; discriminate|reflexivity].
Qed.
Lemma nodes_on_path_prefix h p q : node_at h (p ++ q) <> None -> is_prefix (nodes_on_path h p) (nodes_on_path h (p ++ q)).
Proof.
  revert h; induction p as [|i p IH]; intros h Hn; cbn [app nodes_on_path node_at] in *.
  - destruct q; (apply is_prefix_cons; split; [reflexivity|apply is_prefix_nil]).
  - apply is_prefix_cons. split; [reflexivity|].
    destruct (nth_error (olist (sgh_subs h)) i); [apply IH, Hn|apply is_prefix_nil].
Qed.

(** ** common ancestors computed from the hierarchy *)
Fixpoint lcp (p q : list nat) : list nat :=
  match p, q with
  | i :: p', j :: q' => if Nat.eqb i j then i :: lcp p' q' else []
  | _, _ => []
  end.
Lemma lcp_spec p q : is_longest_common_prefix (lcp p q) p q.
Proof.
  revert q; induction p as [|i p IH]; intros q; [|destruct q as [|j q]]; cbn [lcp].
  - split; [apply is_prefix_nil|]. split; [apply is_prefix_nil|]. intros r Hr _. exact Hr.
  - split; [apply is_prefix_nil|]. split; [apply is_prefix_nil|]. intros r _ Hr. exact Hr.
  - destruct (Nat.eqb_spec i j) as [->|E].
    + destruct (IH q) as (H1 & H2 & H3). split; [now apply is_prefix_cons|]. split; [now apply is_prefix_cons|].
      intros [|k r] Hp Hq; [apply is_prefix_nil|]. apply is_prefix_cons in Hp as [-> Hp], Hq as [_ Hq].
      apply is_prefix_cons. auto.
    + split; [apply is_prefix_nil|]. split; [apply is_prefix_nil|].
      intros [|k r] Hp Hq; [apply is_prefix_nil|]. apply is_prefix_cons in Hp as [-> _], Hq as [E' _]. congruence.
Qed.

Lemma distinct_keys_child h i c : distinct_keys h -> nth_error (olist (sgh_subs h)) i = Some c -> distinct_keys c.
Proof.
  intros D Hc p q n m Hp Hq E.
  assert (H : i :: p = i :: q) by (eapply D; [cbn; rewrite Hc; exact Hp|cbn; rewrite Hc; exact Hq|exact E]).
  congruence.
Qed.
Lemma distinct_children h i j c d :
  distinct_keys h -> nth_error (olist (sgh_subs h)) i = Some c -> nth_error (olist (sgh_subs h)) j = Some d ->
  sgh_key c = sgh_key d -> i = j.
Proof.
  intros D Hc Hd E. assert (H : [i] = [j]) by (eapply D; [cbn; rewrite Hc; reflexivity|cbn; rewrite Hd; reflexivity|exact E]).
  congruence.
Qed.

Lemma nodes_on_path_head h p : exists r, nodes_on_path h p = h :: r.
Proof. destruct p; cbn; eauto. Qed.

Lemma common_layers_paths h : distinct_keys h -> forall p q, node_at h p <> None -> node_at h q <> None ->
  common_layers true (map plain_layer (nodes_on_path h p)) (map plain_layer (nodes_on_path h q))
  = map plain_layer (nodes_on_path h (lcp p q)).
Proof.
  intros D p. revert h D. induction p as [|i p IH]; intros h D q Hp Hq; [|destruct q as [|j q]].
  - destruct (nodes_on_path_head h q) as [r ->]. cbn [nodes_on_path map common_layers lcp plain_layer ly_key].
    rewrite ostr_eqb_refl, orb_true_r. now destruct (map plain_layer r).
  - destruct (nodes_on_path_head h (i :: p)) as [r ->]. cbn [nodes_on_path map common_layers lcp plain_layer ly_key].
    rewrite ostr_eqb_refl, orb_true_r. now destruct (map plain_layer r).
  - cbn [nodes_on_path node_at lcp] in *.
    destruct (nth_error (olist (sgh_subs h)) i) as [c|] eqn:Ec; [|congruence].
    destruct (nth_error (olist (sgh_subs h)) j) as [d|] eqn:Ed; [|congruence].
    cbn [map common_layers plain_layer ly_key]. rewrite ostr_eqb_refl, orb_true_r.
    destruct (Nat.eqb_spec i j) as [<-|E].
    + assert (c = d) as <- by congruence. cbn [nodes_on_path map]. rewrite Ec. f_equal.
      apply IH; [eapply distinct_keys_child; eassumption|exact Hp|exact Hq].
    + cbn [nodes_on_path map]. f_equal.
      destruct (nodes_on_path_head c p) as [r ->], (nodes_on_path_head d q) as [s ->].
      cbn [map common_layers].
      assert (K : sgh_key c <> sgh_key d) by (intros K; apply E; eapply distinct_children; eassumption).
      assert (layer_eqb (plain_layer c) (plain_layer d) = false) as ->.
      { destruct (layer_eqb _ _) eqn:L; [|reflexivity]. apply layer_eqb_eq in L. exfalso. apply K.
        change (ly_key (plain_layer c) = ly_key (plain_layer d)). now rewrite L. }
      apply ostr_eqb_neq in K. unfold plain_layer. cbn [ly_key]. now rewrite K.
Qed.

Lemma pseudo_location_of_distinct h k p n :
  well_named h -> distinct_keys h -> node_at h p = Some n -> sgh_key n = k ->
  construct_pseudo_location k h [] = Ok (Some (mkLocation true (map plain_layer (nodes_on_path h p)) None None None)).
Proof.
  intros W D Hn Hk. pose proof (construct_pseudo_location_spec k h W []) as S.
  destruct (construct_pseudo_location k h []) as [[loc|]|e]; [|exfalso|destruct S].
  - destruct S as (q & F & ->). cbn [app].
    assert (p = q) as -> by (eapply first_position_unique_distinct; [exact D|exact F|eauto]). reflexivity.
  - apply (S n); [now exists p|exact Hk].
Qed.
Lemma common_ancestor_from_sgh_spec h x y p q n m :
  well_named h -> distinct_keys h ->
  node_at h p = Some n -> sgh_key n = x -> node_at h q = Some m -> sgh_key m = y ->
  find_common_ancestor_from_sgh x y h
  = Ok (mkLocation true (map plain_layer (nodes_on_path h (lcp p q))) None None None).
Proof.
  intros W D Hp Hx Hq Hy. unfold find_common_ancestor_from_sgh.
  rewrite (pseudo_location_of_distinct h x p n W D Hp Hx), (pseudo_location_of_distinct h y q m W D Hq Hy).
  cbn [bind]. unfold find_common_ancestor. cbn [lo_pseudo lo_layers orb].
  rewrite common_layers_paths by (try assumption; congruence).
  rewrite new_Location_none. destruct (nodes_on_path_head h (lcp p q)) as [r ->]. reflexivity.
Qed.
Lemma pseudo_location_absent h k :
  well_named h -> (forall n, occurs_in n h -> sgh_key n <> k) -> construct_pseudo_location k h [] = Ok None.
Proof.
  intros W H. pose proof (construct_pseudo_location_spec k h W []) as S.
  destruct (construct_pseudo_location k h []) as [[loc|]|e]; [exfalso|reflexivity|destruct S].
  destruct S as (q & [(n & Hn & Hk) _] & _). apply (H n); [now exists q|exact Hk].
Qed.
Lemma pseudo_location_present h k n :
  well_named h -> occurs_in n h -> sgh_key n = k -> exists l, construct_pseudo_location k h [] = Ok (Some l).
Proof.
  intros W Hn Hk. pose proof (construct_pseudo_location_spec k h W []) as S.
  destruct (construct_pseudo_location k h []) as [[loc|]|e]; [eauto|exfalso|destruct S].
  apply (S n Hn Hk).
Qed.
