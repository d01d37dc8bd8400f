(** Properties C07 - C11: segment group hierarchies. *)
From Coq Require Import List NArith ZArith Bool Ascii String Arith Sorted Lia.
From Verif Require Import PyBase PyStr PyRe M_Components M_Ahb M_Sgh M_Navigation
  S_Prefix S_Text S_Sgh L_Base L_Prefix L_Validators L_Sgh.
Import ListNotations.

(** ** a hierarchy for the examples: UNH { SG2 NAD { SG3 CTA }, SG4 IDE { SG5 LOC, SG8 SEQ { SG9 QTY } } } *)
Definition ex_sgh : Sgh :=
  mkSgh None (u "UNH") (Some
    [ mkSgh (Some (u "SG2")) (u "NAD") (Some [mkSgh (Some (u "SG3")) (u "CTA") None]);
      mkSgh (Some (u "SG4")) (u "IDE") (Some
        [ mkSgh (Some (u "SG5")) (u "LOC") None;
          mkSgh (Some (u "SG8")) (u "SEQ") (Some [mkSgh (Some (u "SG9")) (u "QTY") (Some [])])])]).

(** C07: [flattened] lists the (key, opening segment) of every group once, in document
    order: there is a list of positions that contains exactly the positions of the
    hierarchy, is strictly sorted by document order, and names the result entry by entry *)
Theorem C07_flattened_is_preorder (h : Sgh) :
  exists ps : list (list nat),
    StronglySorted before ps
    /\ NoDup ps
    /\ (forall p, In p ps <-> node_at h p <> None)
    /\ Forall2 (fun p entry => exists n, node_at h p = Some n /\ entry = (sgh_key n, sgh_opening n))
               ps (flattened h).
Proof.
  exists (positions h). split; [exact (positions_sorted h)|]. split; [|split; [exact (in_positions h)|]].
  - pose proof (positions_sorted h) as H. induction H as [|p l H IH F]; constructor; [|exact IH].
    intros Hin. rewrite Forall_forall in F. exact (before_irrefl _ (F _ Hin)).
  - pose proof (flattened_positions h) as F. induction F as [|p l ps ls (n & Hn & Hl) F IH]; constructor; [|exact IH].
    exists n. split; [exact Hn|]. now symmetry.
Qed.
Print Assumptions C07_flattened_is_preorder.

Example C07_instance :
  flattened ex_sgh = [(None, u "UNH"); (Some (u "SG2"), u "NAD"); (Some (u "SG3"), u "CTA"); (Some (u "SG4"), u "IDE");
                      (Some (u "SG5"), u "LOC"); (Some (u "SG8"), u "SEQ"); (Some (u "SG9"), u "QTY")].
Proof. vm_compute. reflexivity. Qed.

(** C08 *)
Theorem C08_is_hierarchically_below (h : Sgh) (k : option pystr) :
  is_hierarchically_below h k = true <-> exists p d, p <> [] /\ node_at h p = Some d /\ sgh_key d = k.
Proof.
  rewrite is_hierarchically_below_spec. split.
  - intros (d & (p & Hp & Hd) & Hk). eauto.
  - intros (p & d & Hp & Hd & Hk). exists d. split; [now exists p|exact Hk].
Qed.
Print Assumptions C08_is_hierarchically_below.

Example C08_instance :
  is_hierarchically_below ex_sgh (Some (u "SG9")) = true /\ is_hierarchically_below ex_sgh None = false
  /\ is_hierarchically_below ex_sgh (Some (u "SG1")) = false.
Proof. repeat split; vm_compute; reflexivity. Qed.

(** C09 *)
Theorem C09_sg_is_hierarchically_below (h : Sgh) (x y : option pystr) :
  sg_is_hierarchically_below h x y = true
  <-> x <> y /\ exists a d, occurs_in a h /\ sgh_key a = y /\ below d a /\ sgh_key d = x.
Proof. exact (sg_is_hierarchically_below_spec h x y). Qed.
Print Assumptions C09_sg_is_hierarchically_below.

Theorem C09_strict_partial_order (h : Sgh) :
  distinct_keys h ->
  (forall x, sg_is_hierarchically_below h x x = false)
  /\ (forall x y z, sg_is_hierarchically_below h x y = true -> sg_is_hierarchically_below h y z = true ->
                    sg_is_hierarchically_below h x z = true)
  /\ (forall x y, sg_is_hierarchically_below h x y = true -> sg_is_hierarchically_below h y x = false).
Proof.
  intros D. split; [exact (below_order_irreflexive h)|].
  assert (T := fun x y z => below_order_transitive h x y z D). split; [exact T|].
  intros x y H. destruct (sg_is_hierarchically_below h y x) eqn:E; [|reflexivity].
  pose proof (T _ _ _ H E) as K. now rewrite below_order_irreflexive in K.
Qed.
Print Assumptions C09_strict_partial_order.

(** without distinct keys the relation need not be asymmetric *)
Theorem C09_order_needs_distinct_keys_refuted :
  exists h x y, sg_is_hierarchically_below h x y = true /\ sg_is_hierarchically_below h y x = true.
Proof.
  exists (mkSgh (Some (u "SG1")) (u "RFF") (Some [mkSgh (Some (u "SG2")) (u "NAD") (Some [mkSgh (Some (u "SG1")) (u "RFF") None])])),
         (Some (u "SG1")), (Some (u "SG2")).
  split; vm_compute; reflexivity.
Qed.
Print Assumptions C09_order_needs_distinct_keys_refuted.

(** the hypotheses are decidable and hold of the example *)
Lemma distinct_keys_NoDup h : NoDup (map fst (flattened h)) -> distinct_keys h.
Proof.
  intros ND p q n m Hp Hq E. pose proof (flattened_positions h) as F.
  assert (Ip : In p (positions h)) by (apply in_positions; congruence).
  assert (Iq : In q (positions h)) by (apply in_positions; congruence).
  apply In_nth_error in Ip as (i & Hi), Iq as (j & Hj).
  assert (G : forall i p n, nth_error (positions h) i = Some p -> node_at h p = Some n ->
              nth_error (map fst (flattened h)) i = Some (sgh_key n)).
  { clear -F. induction F as [|p0 l0 ps ls (n0 & Hn0 & Hl0) F IH]; intros [|i] p n H Hn; cbn in H; try discriminate.
    - injection H as ->. cbn. subst l0. unfold label. cbn. congruence.
    - cbn. eauto. }
  pose proof (G _ _ _ Hi Hp) as Gi. pose proof (G _ _ _ Hj Hq) as Gj. rewrite E in Gi.
  assert (i = j).
  { apply (proj1 (NoDup_nth_error _) ND); [|congruence]. apply nth_error_Some. congruence. }
  congruence.
Qed.
Lemma ex_sgh_distinct : distinct_keys ex_sgh.
Proof.
  apply distinct_keys_NoDup. vm_compute.
  repeat (constructor; [intros H; repeat (destruct H as [H|H]; [discriminate|]); destruct H|]). constructor.
Qed.
Lemma well_named_flattened h :
  Forall (fun e => is_ok (new_Layer (fst e) (Some (snd e)) None) = true) (flattened h) -> well_named h.
Proof.
  intros F n (p & Hp). rewrite Forall_forall in F.
  specialize (F (label n)). cbn [fst snd label] in F.
  destruct (new_Layer (sgh_key n) (Some (sgh_opening n)) None) as [l|] eqn:E.
  - apply new_Layer_ok in E as (_ & H1 & H2 & _). auto.
  - enough (false = true) by discriminate. apply F, in_flattened. eauto.
Qed.
Lemma ex_sgh_well_named : well_named ex_sgh.
Proof. apply well_named_flattened. repeat constructor; vm_compute; reflexivity. Qed.

Example C09_instance :
  sg_is_hierarchically_below ex_sgh (Some (u "SG9")) (Some (u "SG4")) = true
  /\ sg_is_hierarchically_below ex_sgh (Some (u "SG4")) (Some (u "SG9")) = false
  /\ sg_is_hierarchically_below ex_sgh (Some (u "SG3")) (Some (u "SG4")) = false
  /\ distinct_keys ex_sgh.
Proof. repeat split; try (vm_compute; reflexivity). exact ex_sgh_distinct. Qed.

(** C10: the pseudo location of a key *)
Theorem C10_pseudo_location (h : Sgh) (k : option pystr) :
  well_named h ->
  match construct_pseudo_location k h [] with
  | Ok None => forall n, occurs_in n h -> sgh_key n <> k
  | Ok (Some loc) =>
      exists p n,
        node_at h p = Some n /\ sgh_key n = k
        /\ (forall q m, before q p -> node_at h q = Some m -> sgh_key m <> k)
        /\ map (fun l => (ly_key l, ly_opening l, ly_qualifier l)) (lo_layers loc)
           = map (fun a => (sgh_key a, sgh_opening a, None)) (nodes_on_path h p)
        /\ lo_pseudo loc = true
  | Raise _ => False
  end.
Proof.
  intros W. pose proof (construct_pseudo_location_spec k h W []) as S.
  destruct (construct_pseudo_location k h []) as [[loc|]|e]; [|exact S|exact S].
  destruct S as (p & [(n & Hn & Hk) Hf] & ->). exists p, n. repeat split; try assumption.
  cbn [lo_layers app]. rewrite map_map. reflexivity.
Qed.
Print Assumptions C10_pseudo_location.

(** C10: the common ancestor of two keys is the deepest group that is at or above both *)
Theorem C10_common_ancestor_from_hierarchy (h : Sgh) (x y : option pystr) (p q : list nat) (n m : Sgh) :
  well_named h -> distinct_keys h ->
  node_at h p = Some n -> sgh_key n = x -> node_at h q = Some m -> sgh_key m = y ->
  exists loc r,
    find_common_ancestor_from_sgh x y h = Ok loc
    /\ is_longest_common_prefix r p q
    /\ map ly_key (lo_layers loc) = map sgh_key (nodes_on_path h r).
Proof.
  intros W D Hp Hx Hq Hy. eexists. exists (lcp p q).
  split; [exact (common_ancestor_from_sgh_spec h x y p q n m W D Hp Hx Hq Hy)|]. split; [exact (lcp_spec p q)|].
  cbn [lo_layers]. rewrite map_map. reflexivity.
Qed.
Print Assumptions C10_common_ancestor_from_hierarchy.

Example C10_instance :
  well_named ex_sgh /\ distinct_keys ex_sgh
  /\ node_at ex_sgh [1; 1; 0] = Some (mkSgh (Some (u "SG9")) (u "QTY") (Some []))
  /\ (let* l := construct_pseudo_location (Some (u "SG9")) ex_sgh [] in Ok (option_map (fun l => map ly_key (lo_layers l)) l))
     = Ok (Some [None; Some (u "SG4"); Some (u "SG8"); Some (u "SG9")])
  /\ (let* l := find_common_ancestor_from_sgh (Some (u "SG9")) (Some (u "SG5")) ex_sgh in Ok (map ly_key (lo_layers l)))
     = Ok [None; Some (u "SG4")]
  /\ construct_pseudo_location (Some (u "SG1")) ex_sgh [] = Ok None.
Proof.
  split; [exact ex_sgh_well_named|]. split; [exact ex_sgh_distinct|]. repeat split; vm_compute; reflexivity.
Qed.

(** C11: what happens with keys that do not occur *)
Theorem C11_unknown_keys (h : Sgh) (x y : option pystr) :
  well_named h ->
  let known k := exists n, occurs_in n h /\ sgh_key n = k in
  (~ known x -> find_common_ancestor_from_sgh x y h = Raise ValueError)
  /\ (known x -> ~ known y -> find_common_ancestor_from_sgh x y h = Raise AttributeError)
  /\ (known x -> known y -> exists loc, find_common_ancestor_from_sgh x y h = Ok loc).
Proof.
  intros W known. unfold find_common_ancestor_from_sgh. split; [|split].
  - intros Hx. rewrite pseudo_location_absent; [reflexivity|exact W|]. intros n Hn Hk. apply Hx. exists n. auto.
  - intros (n & Hn & Hk) Hy. destruct (pseudo_location_present h x n W Hn Hk) as [l ->]. cbn [bind].
    rewrite pseudo_location_absent; [reflexivity|exact W|]. intros m Hm Hmk. apply Hy. exists m. auto.
  - intros (n & Hn & Hk) (m & Hm & Hmk).
    pose proof (construct_pseudo_location_spec x h W []) as Sx.
    destruct (pseudo_location_present h x n W Hn Hk) as [lx Ex].
    pose proof (construct_pseudo_location_spec y h W []) as Sy.
    destruct (pseudo_location_present h y m W Hm Hmk) as [ly Ey].
    rewrite Ex in Sx. rewrite Ey in Sy. rewrite Ex, Ey. cbn [bind].
    destruct Sx as (p & _ & ->), Sy as (q & _ & ->). unfold find_common_ancestor.
    cbn [lo_pseudo lo_layers orb app].
    destruct (nodes_on_path_head h p) as [r ->], (nodes_on_path_head h q) as [s ->].
    cbn [map common_layers plain_layer ly_key]. rewrite ostr_eqb_refl, orb_true_r.
    rewrite new_Location_none. eexists; reflexivity.
Qed.
Print Assumptions C11_unknown_keys.

(** the documented behaviour (a ValueError whenever a key is unknown) does not hold *)
Theorem C11_unknown_key_is_value_error_refuted :
  exists h x y, well_named h /\ (exists n, occurs_in n h /\ sgh_key n = x)
    /\ ~ (exists n, occurs_in n h /\ sgh_key n = y)
    /\ find_common_ancestor_from_sgh x y h = Raise AttributeError.
Proof.
  exists ex_sgh, (Some (u "SG4")), (Some (u "SG1")). split; [exact ex_sgh_well_named|].
  split; [|split; [|vm_compute; reflexivity]].
  - eexists. split; [exists [1]; reflexivity|reflexivity].
  - rewrite <- in_flattened_key. vm_compute. intros H. repeat (destruct H as [H|H]; [discriminate|]). destruct H.
Qed.
Print Assumptions C11_unknown_key_is_value_error_refuted.
