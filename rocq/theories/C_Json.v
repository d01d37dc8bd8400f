(** C43-C46: dumping to and loading from JSON. *)
From Coq Require Import Ascii String List NArith ZArith Bool Lia.
From Verif Require Import PyBase PyStr PyRe M_Components M_Ahb M_Sgh M_Schema
  S_Text S_FlatAhb S_ValuePool S_DeepAhb S_Json L_Base L_Str L_Validators L_FlatAhb L_ValuePool L_DeepAhb L_Uuid L_Json L_Load
  C_FlatAhb C_DeepAhb.
Import ListNotations.
Local Open Scope list_scope.

(** * C43 SegmentGroupHierarchy *)
Theorem C43_round_trip (h : Sgh) : load_sgh (dump_sgh h) = Ok h.
Proof. apply sgh_round_trip. Qed.
Print Assumptions C43_round_trip.
Definition ex_json_sgh : Sgh :=
  mkSgh (Some (u "root")) (u "UNH") (Some [mkSgh (Some (u "SG2")) (u "NAD") (Some [mkSgh None (u "CTA") None]); mkSgh (Some (u "SG4")) (u "IDE") (Some [])]).
Example C43_instance : load_sgh (dump_sgh ex_json_sgh) = Ok ex_json_sgh /\ dump_sgh ex_json_sgh <> dump_sgh (mkSgh None (u "UNH") None).
Proof. split; [vm_compute; reflexivity|discriminate]. Qed.

(** * C44 flat AHBs *)
Theorem C44_round_trip (a : FlatAhb) : valid_flat a -> load_flat (dump_flat a) = Ok a.
Proof. apply flat_round_trip. Qed.
Print Assumptions C44_round_trip.

(** the valid flat AHBs are those that can be constructed *)
Theorem C44_valid_iff_constructible (m : Meta) (ls : list AhbLine) :
  valid_flat (mkFlat m ls)
  <-> new_Meta m = Ok m
      /\ Forall (fun l => new_AhbLine l = Ok l /\ forall n, al_guid l = Some n -> (n < 2 ^ 128)%N) ls
      /\ new_FlatAhb m ls = Ok (mkFlat m ls).
Proof.
  unfold valid_flat. cbn [fa_meta fa_lines]. rewrite new_Meta_ok, new_Flat_ok. split.
  - intros (Vm & Vl & R). split; [auto|]. split; [|auto]. eapply Forall_impl; [|exact Vl]. intros l (H1 & H2 & H3). split; [|exact H3].
    now apply new_AhbLine_ok.
  - intros ([_ Vm] & Vl & [_ R]). split; [exact Vm|]. split; [|exact R]. eapply Forall_impl; [|exact Vl]. intros l (H1 & H3).
    apply new_AhbLine_ok in H1 as (_ & H1 & H2). split; [exact H1|]. split; [exact H2|exact H3].
Qed.
Print Assumptions C44_valid_iff_constructible.

Definition ex_json_flat : FlatAhb :=
  mkFlat (mkMeta (u "11042") (Some (u "0.3.0")) (Some (u "Anmeldung MSB")) None)
    (mkLine (Some (2 ^ 127 + 11)%N) (Some (u "SG2")) (Some (u "NAD")) (Some (u "3035")) (Some (u "00042")) (Some (u "MS")) (Some (u "Prüfi [ß]"))
            (Some (u "Muss [1]")) None (Some []) (Some 3%Z) :: ex_flat_lines).
Example C44_instance : valid_flat ex_json_flat /\ load_flat (dump_flat ex_json_flat) = Ok ex_json_flat.
Proof.
  assert (V : valid_flat ex_json_flat).
  { apply C44_valid_iff_constructible. split; [vm_compute; reflexivity|]. split; [|vm_compute; reflexivity].
    repeat (constructor; [split; [vm_compute; reflexivity|cbn [al_guid]; intros n; intros [=]; subst; vm_compute; reflexivity]|]). constructor. }
  split; [exact V|now apply C44_round_trip].
Qed.

(** * C45 deep AHBs *)
(** [class_attribute]: the attributes of the class DataElementDataType that are no members *)
Theorem C45_round_trip (class_attribute : pystr -> option bool) (a : DeepAhb) :
  valid_deep a -> complete a ->
  exists a', load_deep class_attribute (dump_deep a) = Ok a' /\ ahbs_related eq (fun _ i' => i' = None) a a'.
Proof.
  intros V C. exists (deep_reset_index a). split; [|apply C31_all_reset_nothing_else_changed].
  rewrite (deep_round_trip class_attribute a V). apply complete_spec in C. now rewrite C.
Qed.
Print Assumptions C45_round_trip.
Theorem C45_incomplete_ahbs_are_rejected (class_attribute : pystr -> option bool) (a : DeepAhb) :
  valid_deep a -> ~ complete a -> load_deep class_attribute (dump_deep a) = Raise ValidationError.
Proof.
  intros V C. rewrite (deep_round_trip class_attribute a V). destruct (forallb tree_complete (da_lines a)) eqn:E; [|reflexivity].
  exfalso. apply C. now apply complete_spec.
Qed.
Print Assumptions C45_incomplete_ahbs_are_rejected.
(** the documented promise, that an AHB can be stored and read back, fails for AHBs that are perfectly valid *)
Theorem C45_every_valid_ahb_can_be_read_back_refuted :
  exists a, valid_deep a /\ forall class_attribute, load_deep class_attribute (dump_deep a) = Raise ValidationError.
Proof.
  set (a := mkDeep (mkMeta (u "11042") None None None) [mkGroup (u "root") (u "Muss") None (Some [mkSegment (u "UNH") (u "Muss") None [] None None]) None]).
  exists a. assert (V : valid_deep a).
  { apply (described_deep_valid (fun _ => None)
      (JObj [(u "meta", dump_meta (da_meta a));
             (u "lines", JList [JObj [(u "discriminator", JStr (u "root")); (u "ahb_expression", JStr (u "Muss"));
                (u "segments", JList [JObj [(u "discriminator", JStr (u "UNH")); (u "ahb_expression", JStr (u "Muss")); (u "data_elements", JList [])]])]])])).
    apply load_deep_ok. vm_compute. reflexivity. }
  split; [exact V|]. intros ca. apply C45_incomplete_ahbs_are_rejected; [exact V|].
  intros C. assert (S : segment_of a (mkSegment (u "UNH") (u "Muss") None [] None None)).
  { eexists. split; [eexists; split; [now left|apply inside_self]|]. eexists. split; [reflexivity|now left]. }
  apply C in S as [S _]. now apply S.
Qed.
Print Assumptions C45_every_valid_ahb_can_be_read_back_refuted.

Definition ex_json_deep : DeepAhb := 
  mkDeep (mkMeta (u "11042") None None None)
    [mkGroup (u "root") (u "Muss") (Some 1%Z) (Some [ex_segment "UNH" "Muss" [ex_vp None "D" "X"; DFree (mkFreeText (Some (u "d")) (u "3039") (Some (u "x")) (Some TEXT) (u "X"))]])
       (Some [ex_sg3])].
Example C45_instance : valid_deep ex_json_deep /\ complete ex_json_deep.
Proof.
  split.
  - assert (L : load_deep (fun _ => None) (dump_deep ex_json_deep) = Ok (deep_reset_index ex_json_deep)) by (vm_compute; reflexivity).
    assert (V : valid_deep (deep_reset_index ex_json_deep)) by (eapply described_deep_valid, load_deep_ok, L).
    destruct V as (V1 & V2 & V3). split; [exact V1|]. clear V1.
    assert (G : forall g, group_of ex_json_deep g -> group_of (deep_reset_index ex_json_deep) (group_reset_index g)).
    { intros g (line & Hl & Hi). exists (group_reset_index line). split; [now apply (in_map group_reset_index)|].
      clear Hl. induction Hi as [|h k l _ IH E Hin]; [apply inside_self|]. eapply inside_deeper; [exact IH| |apply (in_map group_reset_index), Hin].
      destruct h as [? ? ? ? gs]. cbn [g_groups] in E. subst gs. reflexivity. }
    split.
    + intros g Hg. apply G in Hg. apply V2 in Hg. destruct g; exact Hg.
    + intros s (g & Hg & l & E & Hs). apply G in Hg. assert (S : segment_of (deep_reset_index ex_json_deep) (segment_reset_index s)).
      { exists (group_reset_index g). split; [exact Hg|]. destruct g as [? ? ? ss ?]. cbn [g_segments] in E. subst ss. eexists. split; [reflexivity|].
        now apply in_map. }
      apply V3 in S. destruct s; exact S.
  - apply complete_spec. vm_compute. reflexivity.
Qed.

(** * C46 loading: exactly the described objects *)
(** [describes_...] (S_Json.v) contains the validators of the classes, the allowed and the needed keys *)
Theorem C46_hierarchy j h : load_sgh j = Ok h <-> describes_sgh j h.
Proof. apply load_sgh_ok. Qed.
Theorem C46_line j l : load_line j = Ok l <-> describes_line j l.
Proof. apply load_line_ok. Qed.
Theorem C46_meta j m : load_meta j = Ok m <-> describes_meta j m.
Proof. apply load_meta_ok. Qed.
Theorem C46_flat_ahb j a : load_flat j = Ok a <-> describes_flat j a.
Proof. apply load_flat_ok. Qed.
Theorem C46_value_pool_entry j e : load_entry j = Ok e <-> describes_entry j e.
Proof. apply load_entry_ok. Qed.
Theorem C46_data_element class_attribute j d : load_element class_attribute j = Ok d <-> describes_element class_attribute j d.
Proof. apply load_element_ok. Qed.
Theorem C46_segment class_attribute j s : load_segment class_attribute j = Ok s <-> describes_segment class_attribute j s.
Proof. apply load_segment_ok. Qed.
Theorem C46_segment_group class_attribute j g : load_group class_attribute j = Ok g <-> describes_group class_attribute j g.
Proof. apply load_group_ok. Qed.
Theorem C46_deep_ahb class_attribute j a : load_deep class_attribute j = Ok a <-> describes_deep class_attribute j a.
Proof. apply load_deep_ok. Qed.
Print Assumptions C46_hierarchy.
Print Assumptions C46_line.
Print Assumptions C46_meta.
Print Assumptions C46_flat_ahb.
Print Assumptions C46_value_pool_entry.
Print Assumptions C46_data_element.
Print Assumptions C46_segment.
Print Assumptions C46_segment_group.
Print Assumptions C46_deep_ahb.

(** what is loaded is valid, at all depths *)
Theorem C46_loaded_objects_are_valid class_attribute j :
  (forall l, load_line j = Ok l -> valid_line l)
  /\ (forall m, load_meta j = Ok m -> valid_meta m)
  /\ (forall a, load_flat j = Ok a -> valid_flat a)
  /\ (forall e, load_entry j = Ok e -> valid_entry e)
  /\ (forall d, load_element class_attribute j = Ok d -> valid_element d)
  /\ (forall s, load_segment class_attribute j = Ok s -> valid_segment s)
  /\ (forall g, load_group class_attribute j = Ok g -> valid_group_tree g)
  /\ (forall a, load_deep class_attribute j = Ok a -> valid_deep a).
Proof.
  split; [intros x H; apply load_line_ok in H as (o & H); apply H|].
  split; [intros x H; apply load_meta_ok in H as (o & H); apply H|].
  split; [intros x H; apply load_flat_ok in H as (o & H); apply H|].
  split; [intros x H; apply load_entry_ok in H as (o & H); apply H|].
  split; [intros x H; apply load_element_ok in H as (o & H); apply H|].
  split; [intros x H; apply load_segment_ok in H as (o & H); apply H|].
  split; [intros x H; apply load_group_ok in H; eapply described_group_valid; exact H|].
  intros x H; apply load_deep_ok in H; eapply described_deep_valid; exact H.
Qed.
Print Assumptions C46_loaded_objects_are_valid.

(** unknown keys and missing keys, for a segment *)
Theorem C46_segment_keys class_attribute o :
  (exists k, In k (map fst o) /\ ~ In k [u "discriminator"; u "ahb_expression"; u "data_elements"; u "section_name"; u "segment_id"])
  \/ ~ In (u "discriminator") (map fst o) \/ ~ In (u "ahb_expression") (map fst o) \/ ~ In (u "data_elements") (map fst o) ->
  exists e, load_segment class_attribute (JObj o) = Raise e.
Proof.
  intros H. destruct (load_segment class_attribute (JObj o)) as [s|e] eqn:E; [exfalso|now exists e].
  apply load_segment_ok in E as (o' & [= <-] & K & Hd & He & [js Hl _] & _).
  destruct H as [(k & Hk & N)|[N|[N|N]]].
  - apply N, K, Hk.
  - apply N. eapply dict_get_in. exact Hd.
  - apply N. eapply dict_get_in. exact He.
  - apply N. eapply dict_get_in. exact Hl.
Qed.
Print Assumptions C46_segment_keys.

Definition ex_json_segment : json :=
  JObj [(u "segment_id", JNull); (u "discriminator", JStr (u "UNH")); (u "ahb_expression", JStr (u "Muss"));
        (u "data_elements", JList [JObj [(u "value_pool", JList [dump_entry (mkEntry (u "E01") [] (u "X"))]); (u "discriminator", JNull); (u "data_element_id", JStr (u "1001"))]])].
Example C46_instance :
  describes_segment (fun _ => None) ex_json_segment
    (mkSegment (u "UNH") (u "Muss") None [DPool (mkPool None (u "1001") None (Some VALUE_POOL) [mkEntry (u "E01") [] (u "X")])] None None)
  /\ describes_line (JObj [(u "index", JStr (u " 1_0")); (u "guid", JStr (u "{urn:uuid:80000000-0000-0000-0000-00000000000B}"))])
       (mkLine (Some (2 ^ 127 + 11)%N) None None None None None None None None None (Some 10%Z)).
Proof. split; [apply load_segment_ok|apply load_line_ok]; vm_compute; reflexivity. Qed.

(** exceptions: a ValidationError of a part is only reported if no part raises another exception;
    among the others the first one wins *)
Lemma both_grave {A B} (a : result A) (b : result B) e : e <> ValidationError ->
  (a = Raise e \/ (forall e', a = Raise e' -> e' = ValidationError) /\ b = Raise e) -> both a b = Raise e.
Proof.
  intros N [-> |[Ha ->]]; unfold both.
  - destruct e; congruence.
  - destruct a as [x|e']; [reflexivity|]. now rewrite (Ha e' eq_refl).
Qed.
Lemma both_validation {A B} (a : result A) (b : result B) :
  (forall e', a = Raise e' -> e' = ValidationError) -> (forall e', b = Raise e' -> e' = ValidationError) ->
  (forall e', both a b = Raise e' -> e' = ValidationError).
Proof.
  intros Ha Hb e'. unfold both. destruct a as [x|ea]; [destruct b; [discriminate|intros [= <-]; auto]|].
  rewrite (Ha ea eq_refl). destruct b as [y|eb]; [intros [= <-]; reflexivity|intros [= <-]; auto].
Qed.
Lemma items_grave {A} (f : json -> result A) a j b e : e <> ValidationError -> nonnull f j = Raise e ->
  (forall x e', In x a -> nonnull f x = Raise e' -> e' = ValidationError) -> load_items f (a ++ j :: b) = Raise e.
Proof.
  intros N H. induction a as [|x a IH]; intros Ha; cbn [app load_items].
  - rewrite (both_grave _ _ e N); [reflexivity|left; exact H].
  - rewrite (both_grave _ _ e N); [reflexivity|right]. split; [intros e'; apply Ha; now left|]. apply IH. intros y e' Hy. apply Ha. now right.
Qed.
Lemma optional_list {A} (f : json -> result A) o k js e : dict_get k o = Some (JList js) -> load_items f js = Raise e -> optional (load_list f) k o = Raise e.
Proof.
  intros H E. unfold optional. induction o as [|[k' v] o IH]; [discriminate|]. cbn [get_with dict_get] in *. destruct (str_eqb k k'); [|auto].
  injection H as ->. unfold present, nonnull, load_list. now rewrite E.
Qed.
Lemma optional_mild {A} (f : json -> result A) o k : (forall j e, dict_get k o = Some j -> j <> JNull -> f j = Raise e -> e = ValidationError) ->
  forall e, optional f k o = Raise e -> e = ValidationError.
Proof.
  intros H e. unfold optional. induction o as [|[k' v] o IH]; [discriminate|]. cbn [get_with]. cbn [dict_get] in *. destruct (str_eqb k k'); [|now apply IH].
  unfold present. destruct v; cbn [nonnull]; try (intros [= <-]; reflexivity); (destruct (f _) eqn:F; [discriminate|]; intros [= <-]; apply (H _ _ eq_refl); [discriminate|exact F]).
Qed.
Theorem C46_first_error_of_a_line o before j after e :
  field o (u "lines") (JList (before ++ j :: after)) ->
  load_line j = Raise e -> e <> ValidationError ->
  (forall x e', In x before -> load_line x = Raise e' -> e' = ValidationError) ->
  (forall jm e', field o (u "meta") jm -> load_meta jm = Raise e' -> e' = ValidationError) ->
  load_flat (JObj o) = Raise e.
Proof.
  intros H E N Hb Hm. unfold load_flat.
  rewrite (both_grave _ _ e N); [reflexivity|]. left. apply both_grave; [exact N|]. right. split.
  - apply optional_mild. intros jm e' K _. now apply Hm.
  - apply (optional_list load_line o (u "lines") _ e H). apply items_grave; [exact N| |].
    + destruct j; exact E.
    + intros x e' Hx. destruct x; try (now apply Hb). intros [= <-]. reflexivity.
Qed.
Theorem C46_first_error_of_a_group class_attribute o before j after e :
  field o (u "lines") (JList (before ++ j :: after)) ->
  load_group class_attribute j = Raise e -> e <> ValidationError ->
  (forall x e', In x before -> load_group class_attribute x = Raise e' -> e' = ValidationError) ->
  (forall jm e', field o (u "meta") jm -> load_meta jm = Raise e' -> e' = ValidationError) ->
  load_deep class_attribute (JObj o) = Raise e.
Proof.
  intros H E N Hb Hm. unfold load_deep.
  rewrite (both_grave _ _ e N); [reflexivity|]. left. apply both_grave; [exact N|]. right. split.
  - apply optional_mild. intros jm e' K _. now apply Hm.
  - apply (optional_list (load_group class_attribute) o (u "lines") _ e H). apply items_grave; [exact N| |].
    + destruct j; exact E.
    + intros x e' Hx. destruct x; try (now apply Hb). intros [= <-]. reflexivity.
Qed.
Print Assumptions C46_first_error_of_a_line.
Print Assumptions C46_first_error_of_a_group.
Definition ex_meta_json : json := JObj [(u "pruefidentifikator", JStr (u "11042"))].
Example C46_first_error_instance :
  load_line (JObj [(u "guid", JInt 5)]) = Raise ValidationError /\ load_line (JObj [(u "ahb_expression", JStr (u "  "))]) = Raise ValueError
  /\ load_flat (JObj [(u "lines", JList [JObj [(u "guid", JInt 5)]; JObj [(u "ahb_expression", JStr (u "  "))]]); (u "meta", ex_meta_json)]) = Raise ValueError
  /\ load_flat (JObj [(u "lines", JList [JObj [(u "guid", JInt 5)]; JObj [(u "ahb_expression", JStr (u "X"))]]); (u "meta", ex_meta_json)]) = Raise ValidationError
  /\ load_deep (fun _ => None) (JObj [(u "lines", JList [JInt 1; JObj [(u "discriminator", JStr (u "root")); (u "ahb_expression", JStr (u " "))]]); (u "meta", ex_meta_json)]) = Raise ValueError.
Proof. repeat split; vm_compute; reflexivity. Qed.

(** an entered input is written iff there is one *)
Theorem C45_entered_input_is_written d : exists o, dump_element d = JObj o
  /\ match (match d with DFree f => ft_input f | DPool p => vp_input p end) with
     | Some s => text o (u "entered_input") s
     | None => ~ In (u "entered_input") (map fst o)
     end.
Proof.
  destruct d as [f|p]; cbn [dump_element]; [unfold dump_free_text|unfold dump_pool]; eexists; (split; [reflexivity|]);
    [destruct (ft_input f) as [s|]|destruct (vp_input p) as [s|]]; try (vm_compute; reflexivity); cbn; intuition discriminate.
Qed.
Print Assumptions C45_entered_input_is_written.
