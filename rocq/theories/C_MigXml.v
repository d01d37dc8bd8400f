(** Properties C53 - C57: MIGs as XML. *)
From Coq Require Import Ascii String List NArith ZArith Bool Lia Arith Sorted.
From Verif Require Import PyBase PyStr PyRe M_Components M_Navigation M_Xml M_MigXml S_Text L_Base L_Str L_ValuePool S_MigXml L_Qualifiers L_Names L_MigTree L_MigSearch.
Import ListNotations.
Local Open Scope list_scope.

(** *** C53 *)

(** a reference gives its qualifiers, in order *)
Theorem C53_references e key s qs :
  carries e key s -> refers_to s qs -> get_nested_qualifiers key e = Ok (Some qs) /\ Forall qualifier_text qs.
Proof.
  intros C R. rewrite get_nested_eq, (proj2 (attr_carries e key s) C). destruct R as [(q & H & ->)|H].
  - split; [now apply nested_one|]. destruct H as (p & _ & H & _). repeat constructor; apply H.
  - split; [now apply nested_many|]. destruct H as (items & _ & F & _). induction F as [|x q items qs Hx F IH]; constructor; [|exact IH].
    destruct Hx as (p & a & b & _ & _ & _ & H & _). exact H.
Qed.
(** no qualifier of a reference contains a separator *)
Theorem C53_no_separator e key s qs q c :
  carries e key s -> refers_to s qs -> get_nested_qualifiers key e = Ok (Some qs) -> In q qs -> In c (u ":=|[](),") -> ~ In c q.
Proof.
  intros C R _ Hq Hc. destruct (C53_references e key s qs C R) as [_ F]. rewrite Forall_forall in F. specialize (F q Hq).
  assert (K : forallb (fun c => negb (is_AZ c) && negb (is_decimal c)) (u ":=|[](),") = true) by (vm_compute; reflexivity).
  rewrite forallb_forall in K. apply K in Hc. apply andb_true_iff in Hc as [A D]. apply negb_true_iff in A, D. now apply qualifier_out.
Qed.
(** the results for any attribute value *)
Theorem C53_some e key qs :
  get_nested_qualifiers key e = Ok (Some qs) <-> exists s, carries e key s /\ qualifiers_in s qs.
Proof.
  rewrite get_nested_eq. destruct (attr key e) as [s|] eqn:A.
  - apply attr_carries in A as C. rewrite nested_some. split; [eauto|]. intros (s' & C' & Q). apply attr_carries in C'. congruence.
  - split; [discriminate|]. intros (s & C & _). apply attr_carries in C. congruence.
Qed.
Theorem C53_none e key :
  get_nested_qualifiers key e = Ok None <->
  lacks e key \/ exists s, carries e key s /\ (forall q, ~ one_qualifier s q) /\ (forall i, ~ loose_reference s i).
Proof.
  rewrite get_nested_eq. destruct (attr key e) as [s|] eqn:A.
  - apply attr_carries in A as C. rewrite nested_none. split; [eauto|]. intros [L|(s' & C' & Q)].
    + apply attr_lacks in L. congruence.
    + apply attr_carries in C'. rewrite A in C'. injection C' as <-. exact Q.
  - apply attr_lacks in A. split; auto.
Qed.
(** the only exception: a separator at the end *)
Theorem C53_exceptions e key x :
  get_nested_qualifiers key e = Raise x <-> x = IndexError /\ exists s, carries e key s /\ unreadable s.
Proof.
  rewrite get_nested_eq. destruct (attr key e) as [s|] eqn:A.
  - apply attr_carries in A as C. split.
    + intros H. apply nested_raise in H as [-> U]. eauto.
    + intros (-> & s' & C' & U). apply attr_carries in C'. rewrite A in C'. injection C' as <-. now apply unreadable_raises.
  - split; [discriminate|]. intros (_ & s & C & _). apply attr_carries in C. congruence.
Qed.
Print Assumptions C53_references.
Print Assumptions C53_no_separator.
Print Assumptions C53_some.
Print Assumptions C53_none.
Print Assumptions C53_exceptions.
Definition with_key (s : string) : element := Element (u "class") [(u "name", u "x"); (u "key", u s)] None [].
Ltac all_chars := repeat split; [discriminate|repeat constructor].
Example C53_instance :
  refers_to (u "QTY:1:1[1:0=265|LOC:1:0=Z10]") [u "265"; u "Z10"] /\ carries (with_key "QTY:1:1[1:0=265|LOC:1:0=Z10]") (u "key") (u "QTY:1:1[1:0=265|LOC:1:0=Z10]")
  /\ get_nested_qualifiers (u "key") (with_key "RFF:1:(1,2)[1:0=Z13]") = Ok (Some [u "Z13"])
  /\ get_nested_qualifiers (u "key") (with_key "QTY") = Ok None
  /\ get_nested_qualifiers (u "key") (with_key "QTY:1:1[1:0=265|1:0=Z10|]") = Raise IndexError.
Proof.
  split; [|split; [exists [(u "name", u "x")], []; split; [reflexivity|cbn; intuition discriminate]|repeat split; vm_compute; reflexivity]].
  right. exists [u "1:0=265"; u "LOC:1:0=Z10"]. split; [discriminate|]. split.
  - constructor; [|constructor; [|constructor]].
    + exists [], (u "1"), (u "0"). split; [now left|]. split; [all_chars|]. split; [all_chars|]. split; [all_chars|reflexivity].
    + exists (u "LOC:"), (u "1"), (u "0"). split; [right; exists (u "LOC"); split; [all_chars|reflexivity]|]. split; [all_chars|]. split; [all_chars|]. split; [all_chars|reflexivity].
  - exists (u "QTY"), (u "1"), (u "1"), []. split; [all_chars|]. split; [all_chars|]. split; [left; all_chars|]. split; [now left|reflexivity].
Qed.
(** without the separator two items are read as one that is neither *)
Theorem C53_no_separator_refuted : exists e qs q, get_nested_qualifiers (u "key") e = Ok (Some qs) /\ In q qs /\ In (ch ":") q.
Proof. exists (with_key "QTY:1:1[1:0=2651:0=Z10]"), [u "2651:0"], (u "2651:0"). split; [vm_compute; reflexivity|]. split; [now left|vm_compute; tauto]. Qed.
Print Assumptions C53_no_separator_refuted.

(** *** C54 *)

(** in a document with one class "/": exactly the described element is returned *)
Theorem C54_returns root l p slash :
  classes root [] (u "/") [slash] -> lo_layers l <> [] -> get_element (new_MigXmlReader root) l = Ok p <-> described root l p.
Proof. apply get_element_spec. Qed.
(** there is at most one described element *)
Theorem C54_unique root l p p' : lo_layers l <> [] -> described root l p -> described root l p' -> p = p'.
Proof.
  intros N D D'. pose proof D as (i & _ & _ & _ & C & _). apply (get_element_spec root l p i C N) in D. apply (get_element_spec root l p' i C N) in D'. congruence.
Qed.
(** the exceptions, in any document *)
Theorem C54_raises root l x :
  get_element (new_MigXmlReader root) l = Raise x ->
  x = ValueError \/ (x = IndexError /\ ~ readable_document root) \/ (x = UnboundLocalError /\ lo_layers l = []).
Proof. apply get_element_raise. Qed.
(** in a document that can be read ValueError means that there is no described element *)
Theorem C54_value_error root l slash :
  classes root [] (u "/") [slash] -> lo_layers l <> [] -> readable_document root ->
  get_element (new_MigXmlReader root) l = Raise ValueError <-> forall p, ~ described root l p.
Proof.
  intros C N R. split.
  - intros H p D. apply (C54_returns root l p slash C N) in D. congruence.
  - intros H. destruct (get_element (new_MigXmlReader root) l) as [p|x] eqn:E.
    + exfalso. apply (H p). now apply (C54_returns root l p slash C N).
    + apply C54_raises in E as [-> |[[_ E]|[_ E]]]; [reflexivity|contradiction..].
Qed.
(** without a class "/" nothing is found; a location without layers and data element is never found *)
Theorem C54_no_slash root l :
  classes root [] (u "/") [] -> lo_layers l <> [] -> get_element (new_MigXmlReader root) l = Raise ValueError.
Proof. apply get_element_no_slash. Qed.
Theorem C54_no_layers root l p :
  lo_layers l = [] -> lo_element l = None -> get_element (new_MigXmlReader root) l <> Ok p.
Proof. intros L E H. pose proof (get_element_no_layers root l L E) as K. now rewrite H in K. Qed.
(** in any document: the way from the root to the element *)
Theorem C54_path root l p :
  lo_layers l <> [] -> get_element (new_MigXmlReader root) l = Ok p ->
  exists rest, behind_group l rest
    /\ descends root [] (class_with (u "/") :: map (fun y => class_with (ref_of_layer y)) (lo_layers l) ++ rest) p.
Proof. apply reach_element. Qed.
Print Assumptions C54_returns.
Print Assumptions C54_unique.
Print Assumptions C54_raises.
Print Assumptions C54_value_error.
Print Assumptions C54_no_slash.
Print Assumptions C54_no_layers.
Print Assumptions C54_path.

Definition cls (ref key : string) (children : list element) : element :=
  Element (u "class") [(u "name", u ref); (u "ref", u ref); (u "key", u key)] None children.
Definition fld (id ref : string) : element := Element (u "field") [(u "ahbName", u id); (u "ref", u ref); (u "meta.id", u id)] None [].
Definition ex_mig : element :=
  Element (u "UTILMD") [] None
    [cls "/" "" [cls "UNH" ""
       [cls "SG2" "NAD:1:1[1:0=MS]" [cls "NAD" "" [fld "3035" "x"]];
        cls "SG2" "NAD:1:1[1:0=MR]" [cls "NAD" "" [fld "3039" "NAD:1:1[1:0=A]"; fld "3039" "NAD:1:1[1:0=MR|1:0=X]"]]]]].
Definition ex_layers : list Layer := [mkLayer None (u "UNH") (Some (u "UTILMD")); mkLayer (Some (u "SG2")) (u "NAD") (Some (u "MR"))].
Definition ex_location : Location := mkLocation false ex_layers (Some (u "NAD")) (Some (u "3039")) (Some (u "MR")).
Example C54_instance :
  classes ex_mig [] (u "/") [0] /\ lo_layers ex_location <> []
  /\ get_element (new_MigXmlReader ex_mig) ex_location = Ok [0; 0; 1; 0; 1] /\ described ex_mig ex_location [0; 0; 1; 0; 1]
  /\ get_element (new_MigXmlReader ex_mig) (mkLocation false ex_layers (Some (u "NAD")) (Some (u "3035")) None) = Raise ValueError
  /\ get_element (new_MigXmlReader ex_mig) (mkLocation false ex_layers (Some (u "NAD")) (Some (u "3039")) (Some (u "B"))) = Raise ValueError.
Proof.
  assert (C : classes ex_mig [] (u "/") [0]) by (apply classes_kids; vm_compute; reflexivity).
  assert (G : get_element (new_MigXmlReader ex_mig) ex_location = Ok [0; 0; 1; 0; 1]) by (vm_compute; reflexivity).
  assert (N : lo_layers ex_location <> []) by discriminate.
  split; [exact C|]. split; [exact N|]. split; [exact G|]. split; [exact (proj1 (C54_returns ex_mig ex_location _ 0 C N) G)|]. split; vm_compute; reflexivity.
Qed.
(** the hypotheses of the statements about failures are met *)
Fixpoint all_checked (e : element) : bool :=
  is_ok (get_nested_qualifiers (u "key") e) && is_ok (get_nested_qualifiers (u "ref") e)
  && match e with Element _ _ _ children => forallb all_checked children end.
Lemma checked_readable e : all_checked e = true -> readable_document e.
Proof.
  intros H p f A. induction A as [e|e i c p f Hc A IH].
  - destruct e as [tag attributes text children]. cbn [all_checked] in H. apply andb_prop in H as [H _]. apply andb_prop in H as [H1 H2].
    split; intros s C U; [set (key := u "key") in *|set (key := u "ref") in *];
      assert (R : get_nested_qualifiers key (Element tag attributes text children) = Raise IndexError) by (apply C53_exceptions; eauto);
      rewrite R in *; discriminate.
  - apply IH. destruct e as [tag attributes text children]. cbn [all_checked] in H. apply andb_prop in H as [_ H]. rewrite forallb_forall in H. apply H.
    cbn in Hc. now apply nth_error_In in Hc.
Qed.
Example C54_failures_instance :
  (classes ex_mig [] (u "/") [0] /\ readable_document ex_mig
   /\ forall p, ~ described ex_mig (mkLocation false ex_layers (Some (u "NAD")) (Some (u "3035")) None) p)
  /\ (let document := Element (u "UTILMD") [] None [cls "UNH" "" []] in
      classes document [] (u "/") [] /\ get_element (new_MigXmlReader document) ex_location = Raise ValueError)
  /\ get_element (new_MigXmlReader ex_mig) (mkLocation false [] None None None) = Raise UnboundLocalError
  /\ get_element (new_MigXmlReader (Element (u "UTILMD") [] None [cls "/" "" [cls "UNH" "QTY:1:1[1:0=265|]" []; cls "UNH" "" []]])) ex_location = Raise IndexError.
Proof.
  assert (C : classes ex_mig [] (u "/") [0]) by (apply classes_kids; vm_compute; reflexivity).
  assert (R : readable_document ex_mig) by (apply checked_readable; vm_compute; reflexivity).
  split; [split; [exact C|split; [exact R|]]|].
  - apply (C54_value_error ex_mig _ 0 C); [discriminate|exact R|vm_compute; reflexivity].
  - split; [split; [apply classes_kids|]; vm_compute; reflexivity|]. split; vm_compute; reflexivity.
Qed.
(** with a second class "/" the code may return a field from a group that does not mention
    the qualifier, although there is one that does *)
Definition two_slashes : element :=
  Element (u "UTILMD") [] None
    [cls "/" "" [cls "SG2" "NAD:1:1[1:0=MS]" [fld "3035" ""]];
     cls "/" "" [cls "SG2" "NAD:1:1[1:0=MR]" [fld "3035" ""]; cls "SG2" "NAD:1:1[1:0=DP]" [fld "3035" ""]]].
Theorem C54_several_slashes_refuted : exists root l y group group' p,
  lo_layers l = [y] /\ get_element (new_MigXmlReader root) l = Ok (group ++ p)
  /\ ~ mentions_at root group (u "key") (ly_qualifier y) /\ mentions_at root group' (u "key") (ly_qualifier y)
  /\ descends root [] [class_with (u "/"); class_with (ref_of_layer y)] group'.
Proof.
  exists two_slashes, (mkLocation false [mkLayer (Some (u "SG2")) (u "NAD") (Some (u "MR"))] None (Some (u "3035")) None), (mkLayer (Some (u "SG2")) (u "NAD") (Some (u "MR"))).
  exists [1; 1], [1; 0], [0]. split; [reflexivity|]. split; [vm_compute; reflexivity|].
  assert (F : forall p, fine two_slashes (u "key") p -> has two_slashes (u "key") (Some (u "MR")) p = true <-> mentions_at two_slashes p (u "key") (Some (u "MR"))).
  { intros p. apply has_mentions. }
  split.
  - cbn [ly_qualifier]. rewrite <- F; [vm_compute; discriminate|]. eexists. vm_compute. reflexivity.
  - split.
    + cbn [ly_qualifier]. apply F; [eexists|]; vm_compute; reflexivity.
    + assert (K : forall l k v a b, l = a ++ (k, v) :: b -> ~ In k (map fst a) -> forall t x c, carries (Element t l x c) k v) by (intros; exists a, b; auto).
      eapply (goes_down two_slashes [] 1); [apply el_at_position; vm_compute; reflexivity|reflexivity| |].
      * apply (K _ (u "ref") _ [(u "name", u "/")] [(u "key", [])]); [reflexivity|]. cbn. intuition discriminate.
      * eapply (goes_down two_slashes [1] 0); [apply el_at_position; vm_compute; reflexivity|reflexivity| |constructor].
        apply (K _ (u "ref") _ [(u "name", u "SG2")] [(u "key", u "NAD:1:1[1:0=MR]")]); [reflexivity|]. cbn. intuition discriminate.
Qed.
Print Assumptions C54_several_slashes_refuted.
(** what is found: the element of the group if there is no data element *)
Theorem C54_group root l slash group :
  classes root [] (u "/") [slash] -> lo_layers l <> [] -> lo_element l = None -> enters root [slash] (lo_layers l) group ->
  lo_segment l = None \/ lo_segment l = Some (u "UNH") \/ (exists code is, lo_segment l = Some code /\ classes root group code is /\ List.length is <= 1) ->
  get_element (new_MigXmlReader root) l = Ok group.
Proof.
  intros C N E G H. apply (C54_returns root l group slash C N).
  assert (S1 : exists s, segment_class root l group s true).
  { destruct H as [H|[H|(code & is & H & K & L)]]; [exists group; apply no_segment; auto..|].
    destruct (str_eqb_spec code (u "UNH")) as [-> |U]; [exists group; apply no_segment; auto|].
    destruct is as [|i [|]]; cbn [List.length] in L; [|exists (group ++ [i])|lia]; [exists group; eapply no_class; eauto|eapply one_class; eauto]. }
  destruct S1 as (s & S1). exists slash, group, s, true. rewrite E. auto.
Qed.
Print Assumptions C54_group.
Example C54_group_instance :
  get_element (new_MigXmlReader ex_mig) (mkLocation false ex_layers (Some (u "NAD")) None None) = Ok [0; 0; 1].
Proof. vm_compute. reflexivity. Qed.

(** *** C55 *)

(** one level per element below the root *)
Theorem C55_levels document p es sanitized :
  way document p es ->
  (forall ls, element_to_edifact_stack (new_MigXmlReader document) p sanitized = Ok ls <-> levels_for None es ls)
  /\ (forall x, element_to_edifact_stack (new_MigXmlReader document) p sanitized = Raise x ->
      x = UnboundLocalError /\ exists e rest, es = e :: rest /\ nameless e).
Proof. intros W. exact (stack_of_position (new_MigXmlReader document) p es W sanitized eq_refl). Qed.
Theorem C55_succeeds document p es sanitized :
  way document p es ->
  (forall e rest, es = e :: rest -> ~ nameless e) <-> exists ls, element_to_edifact_stack (new_MigXmlReader document) p sanitized = Ok ls.
Proof.
  intros W. destruct (C55_levels document p es sanitized W) as [L R]. split.
  - intros H. destruct (element_to_edifact_stack (new_MigXmlReader document) p sanitized) as [ls|x]; [eauto|].
    destruct (R x eq_refl) as (_ & e & rest & E & Nn). exfalso. exact (H e rest E Nn).
  - intros (ls & H) e rest -> Nn. apply L in H. inversion H as [|? ? ? ? ? ? F _ _|]; subst.
    destruct F as (b & k & a & E & _ & C). unfold nameless in Nn. rewrite E, Forall_app in Nn. destruct Nn as [_ Nn]. inversion Nn as [|? ? K _]. apply K.
    destruct C as (b' & a' & -> & _). rewrite map_app. apply in_or_app. right. now left.
Qed.
(** as many levels as there are elements, groupable iff it is a class *)
Theorem C55_shape document p es sanitized ls :
  way document p es -> element_to_edifact_stack (new_MigXmlReader document) p sanitized = Ok ls ->
  Forall2 (fun e l => lv_groupable l = true <-> el_tag e = u "class") es ls.
Proof.
  intros W H. apply (C55_levels document p es sanitized W) in H. remember None as o eqn:E. clear E W. induction H; constructor; auto.
Qed.
Print Assumptions C55_levels.
Print Assumptions C55_succeeds.
Print Assumptions C55_shape.
(** the stack of a location is that of the element that belongs to the location *)
Theorem C55_stack_of_a_location document l slash :
  classes document [] (u "/") [slash] -> lo_layers l <> [] ->
  forall ls, get_edifact_stack (new_MigXmlReader document) l = Ok ls
             <-> exists p es, described document l p /\ way document p es /\ levels_for None es ls.
Proof.
  intros C N ls. unfold get_edifact_stack. rewrite bind_ok. split.
  - intros (p & G & H). assert (exists es, way document p es) as (es & W).
    { apply (C54_path document l p N) in G as (rest & _ & D).
      assert (A : forall q steps q', descends document q steps q' -> (exists e, at_position document q e) -> exists e, at_position document q' e).
      { intros q steps q' D'. induction D' as [|q i c tag key v steps q' P _ _ _ IH]; intros A; [exact A|]. apply IH. eauto. }
      destruct (A _ _ _ D) as (e & P); [exists document; constructor|]. clear - P. induction P as [|e i c p f Hc _ (es & IH)]; [exists []; constructor|].
      exists (c :: es). econstructor; eassumption. }
    exists p, es. split; [now apply (C54_returns document l p slash C N)|]. split; [exact W|]. now apply (C55_levels document p es false W).
  - intros (p & es & D & W & L). exists p. split; [now apply (C54_returns document l p slash C N)|]. now apply (C55_levels document p es false W).
Qed.
Print Assumptions C55_stack_of_a_location.
Example C55_instance :
  way ex_mig [0; 0; 1; 0; 1] [nth 0 (el_children ex_mig) ex_mig; nth 0 (el_children (nth 0 (el_children ex_mig) ex_mig)) ex_mig;
                              cls "SG2" "NAD:1:1[1:0=MR]" [cls "NAD" "" [fld "3039" "NAD:1:1[1:0=A]"; fld "3039" "NAD:1:1[1:0=MR|1:0=X]"]];
                              cls "NAD" "" [fld "3039" "NAD:1:1[1:0=A]"; fld "3039" "NAD:1:1[1:0=MR|1:0=X]"]; fld "3039" "NAD:1:1[1:0=MR|1:0=X]"]
  /\ get_edifact_stack (new_MigXmlReader ex_mig) ex_location
     = Ok [mkLevel (u "/") true None; mkLevel (u "UNH") true None; mkLevel (u "SG2") true None; mkLevel (u "NAD") true None; mkLevel (u "3039") false None].
Proof. split; [repeat (econstructor; [reflexivity|]); constructor|vm_compute; reflexivity]. Qed.
(** the level of a nameless element is indistinguishable from one that has the name *)
Theorem C55_inherited_name_refuted : exists document document' p e e',
  at_position document p e /\ at_position document' p e' /\ nameless e /\ carries e' (u "name") (u "/")
  /\ element_to_edifact_stack (new_MigXmlReader document) p false = element_to_edifact_stack (new_MigXmlReader document') p false
  /\ exists ls, element_to_edifact_stack (new_MigXmlReader document) p false = Ok ls.
Proof.
  exists (Element (u "UTILMD") [] None [cls "/" "" [Element (u "field") [] None []]]), (Element (u "UTILMD") [] None [cls "/" "" [Element (u "field") [(u "name", u "/")] None []]]).
  exists [0; 0]. do 2 eexists. split; [apply el_at_position; reflexivity|]. split; [apply el_at_position; reflexivity|].
  split; [repeat constructor; intros []|]. split; [exists [], []; split; [reflexivity|intros []]|]. split; [vm_compute; reflexivity|]. eexists. vm_compute. reflexivity.
Qed.
Print Assumptions C55_inherited_name_refuted.

(** *** C56 *)

Theorem C56_idempotent s : make_name_comparable (make_name_comparable s) = make_name_comparable s.
Proof. apply comparable_twice. Qed.
(** the result: no separator, no sharp s, and in lower case *)
Theorem C56_clean s :
  (forall c, In c (make_name_comparable s) -> is_separator c = false /\ c <> sharp_s) /\ lower (make_name_comparable s) = make_name_comparable s.
Proof.
  split; [|unfold lower; apply lower_go_id, comparable_fixed]. intros c Hc. split; [exact (comparable_no_separator s c Hc)|].
  intros ->. exact (comparable_no_sharp_s s Hc).
Qed.
(** case, and where there is no capital sigma also separators, do not matter *)
Theorem C56_case s t : lower s = lower t -> make_name_comparable s = make_name_comparable t.
Proof. intros E. rewrite <- (comparable_lower s), <- (comparable_lower t). now rewrite E. Qed.
Theorem C56_letters s : ~ In capital_sigma s -> make_name_comparable s = flat_map folded (letters s).
Proof. apply comparable_folded. Qed.
Theorem C56_similar x y : are_similar_names x y = true <->
  (no_name x /\ no_name y) \/ exists a b, x = Some a /\ y = Some b /\ a <> [] /\ b <> [] /\ make_name_comparable a = make_name_comparable b.
Proof. apply similar_spec. Qed.
Theorem C56_equivalence :
  (forall x, are_similar_names x x = true)
  /\ (forall x y, are_similar_names x y = are_similar_names y x)
  /\ (forall x y z, are_similar_names x y = true -> are_similar_names y z = true -> are_similar_names x z = true).
Proof.
  assert (R : forall x, are_similar_names x x = true).
  { intros x. apply similar_spec. unfold no_name. destruct x as [[|c x]|]; [auto| |auto]. right. exists (c :: x), (c :: x). repeat split; discriminate. }
  assert (Y : forall x y, are_similar_names x y = true -> are_similar_names y x = true).
  { intros x y H. apply similar_spec in H. apply similar_spec. destruct H as [[? ?]|(a & b & -> & -> & Na & Nb & E)]; [auto|]. right. exists b, a. auto. }
  split; [exact R|]. split.
  - intros x y. destruct (are_similar_names x y) eqn:E, (are_similar_names y x) eqn:E'; try reflexivity; [apply Y in E|apply Y in E']; congruence.
  - intros x y z H H'. apply similar_spec in H, H'. apply similar_spec. destruct H as [[Hx Hy]|(a & b & -> & -> & Na & Nb & E)], H' as [[Hy' Hz]|(b' & c & Ey & -> & Nb' & Nc & E')].
    + auto.
    + exfalso. subst y. destruct Hy; congruence.
    + exfalso. destruct Hy'; congruence.
    + injection Ey as <-. right. exists a, c. repeat split; auto. congruence.
Qed.
(** names with the same letters are similar *)
Theorem C56_separators a b :
  a <> [] -> b <> [] -> ~ In capital_sigma a -> ~ In capital_sigma b -> flat_map folded (letters a) = flat_map folded (letters b) <-> are_similar_names (Some a) (Some b) = true.
Proof.
  intros Na Nb Sa Sb. rewrite similar_spec, <- !C56_letters by assumption. unfold no_name. split.
  - intros E. right. exists a, b. auto.
  - intros [[[?|?] _]|(a' & b' & [= <-] & [= <-] & _ & _ & E)]; [discriminate|congruence|exact E].
Qed.
Print Assumptions C56_idempotent.
Print Assumptions C56_clean.
Print Assumptions C56_case.
Print Assumptions C56_letters.
Print Assumptions C56_similar.
Print Assumptions C56_equivalence.
Print Assumptions C56_separators.
Example C56_instance :
  make_name_comparable (u "MP-ID Absender ") = u "mpidabsender" /\ make_name_comparable [83; 116; 114; 97; 223; 101]%N = u "strasse"
  /\ are_similar_names (Some (u "Nachrichten-Kopfsegment")) (Some (u "nachrichten kopf segment")) = true
  /\ are_similar_names (Some (u "Beginn")) (Some (u "Begin")) = false /\ are_similar_names None (Some (u "a")) = false /\ are_similar_names None (Some []) = true.
Proof. repeat split; vm_compute; reflexivity. Qed.
(** with a capital sigma a dash matters: the sigma before it is a final one *)
Theorem C56_separators_refuted : exists a b, letters a = letters b /\ a <> [] /\ b <> [] /\ are_similar_names (Some a) (Some b) = false.
Proof.
  exists [913; 931; 913]%N, [913; 931; 45; 913]%N. split; [vm_compute; reflexivity|]. split; [discriminate|]. split; [discriminate|]. vm_compute. reflexivity.
Qed.
Print Assumptions C56_separators_refuted.

(** *** C57 *)

(** only the names change *)
Theorem C57_names_only e : unique_attributes e -> same_but_names make_name_comparable e (make_tree_names_comparable e).
Proof. apply tree_same. Qed.
Theorem C57_idempotent e : unique_attributes e -> make_tree_names_comparable (make_tree_names_comparable e) = make_tree_names_comparable e.
Proof. apply tree_twice. Qed.
(** a position leads to corresponding elements *)
Theorem C57_positions e p :
  (forall f, at_position e p f -> at_position (make_tree_names_comparable e) p (make_tree_names_comparable f))
  /\ (forall f', at_position (make_tree_names_comparable e) p f' -> exists f, at_position e p f /\ f' = make_tree_names_comparable f).
Proof.
  revert e; induction p as [|i p IH]; intros e.
  - split; [intros f H; inversion H; subst; constructor|intros f' H; inversion H; subst; exists e; split; [constructor|reflexivity]].
  - split.
    + intros f H. inversion H as [|? ? c ? ? N A]; subst. econstructor; [rewrite tree_children, nth_error_map, N; reflexivity|]. now apply IH.
    + intros f' H. inversion H as [|? ? c ? ? N A]; subst. rewrite tree_children, nth_error_map in N. destruct (nth_error (el_children e) i) as [d|] eqn:D; [|discriminate].
      injection N as <-. apply IH in A as (f & A & ->). exists f. split; [econstructor; eassumption|reflexivity].
Qed.
(** so an element of the sanitized tree has the stack of the original one *)
Theorem C57_stacks document p :
  element_to_edifact_stack (new_MigXmlReader document) p true = element_to_edifact_stack (new_MigXmlReader document) p false.
Proof. unfold element_to_edifact_stack. cbn [sanitized_root original_root new_MigXmlReader]. now rewrite getpath_same. Qed.
Print Assumptions C57_names_only.
Print Assumptions C57_idempotent.
Print Assumptions C57_positions.
Print Assumptions C57_stacks.
Example C57_instance :
  make_tree_names_comparable (Element (u "class") [(u "name", u "A-B"); (u "migName", u "C-D"); (u "ahbName", u "E F")] (Some (u "G-H")) [Element (u "field") [(u "name", u "X Y")] None []])
  = Element (u "class") [(u "name", u "ab"); (u "migName", u "C-D"); (u "ahbName", u "ef")] (Some (u "G-H")) [Element (u "field") [(u "name", u "xy")] None []].
Proof. vm_compute. reflexivity. Qed.
Example C57_unique : unique_attributes ex_mig.
Proof.
  repeat lazymatch goal with
  | |- unique_attributes _ => constructor
  | |- Forall _ [] => constructor
  | |- Forall _ (_ :: _) => constructor
  | |- NoDup _ => repeat (constructor; [vm_compute; intuition discriminate|]); constructor
  end.
Qed.

(** * C69 single elements *)
Theorem C69_group_key e k :
  get_segment_group_key_or_none e = Some k <-> carries e (u "ref") k /\ exists r, k = u "SG" ++ r.
Proof.
  unfold get_segment_group_key_or_none. rewrite <- attr_carries. split.
  - destruct (attr (u "ref") e) as [r|]; [|discriminate]. destruct (startswith r (u "SG")) eqn:S0; [|discriminate].
    intros [= <-]. split; [reflexivity|]. now apply startswith_spec.
  - intros [-> H]. apply startswith_spec in H. now rewrite H.
Qed.
Theorem C69_ahb_name e :
  (forall n, get_ahb_name_or_none e = Some n <-> carries e (u "ahbName") n)
  /\ (get_ahb_name_or_none e = None <-> lacks e (u "ahbName")).
Proof. split; [intros n; apply attr_carries|apply attr_lacks]. Qed.
Print Assumptions C69_group_key.
Print Assumptions C69_ahb_name.
Example C69_instance :
  get_segment_group_key_or_none (Element (u "class") [(u "name", u "x"); (u "ref", u "SG12")] None []) = Some (u "SG12")
  /\ get_segment_group_key_or_none (Element (u "class") [(u "ref", u "UNH")] None []) = None
  /\ get_ahb_name_or_none (Element (u "class") [(u "name", u "x"); (u "ahbName", u "Absender")] None []) = Some (u "Absender").
Proof. repeat split. Qed.
