(** C47: locations as XML *)
From Coq Require Import Ascii String List NArith ZArith Bool Lia.
From Verif Require Import PyBase PyStr PyRe M_Components M_Ahb M_Sgh M_Navigation M_Xml M_LocationXml.
From Verif Require Import L_Base S_Text L_Str L_Validators S_LocationXml L_LocationXml.
Import ListNotations.
Local Open Scope list_scope.

Lemma from_own_element x : el_tag x = u "ahbLocation" -> from_xml_element x = xml_dict_to_location (value_of x).
Proof.
  intros T. unfold from_xml_element, parse. rewrite T. cbn [subscript dict_lookup].
  replace (str_eqb (u "ahbLocation") (u "ahbLocation")) with true by (vm_compute; reflexivity). reflexivity.
Qed.

(** a location with at least two layers whose texts carry no whitespace around them survives *)
Theorem C47_round_trip l :
  valid_location l -> 2 <= List.length (lo_layers l) -> nothing_to_trim l ->
  (forall q, lo_qualifier l = Some q -> xml_text q) ->
  exists x, to_xml_element l = Ok x /\ from_xml_element x = Ok l.
Proof.
  intros V L T W. destruct (location_writes l V W) as (x & Hx). exists x. split; [exact Hx|].
  destruct (location_reads l x V L Hx) as (r & Hr & C).
  apply location_written in Hx as (_ & _ & Tx & _). rewrite (from_own_element x Tx), Hr. f_equal.
  apply (location_comes_back_unique l); [exact C|]. now apply location_same_iff.
Qed.

(** what a location with at least two layers is read back as, whatever its texts are *)
Theorem C47_what_comes_back l x :
  valid_location l -> 2 <= List.length (lo_layers l) -> to_xml_element l = Ok x ->
  exists r, from_xml_element x = Ok r /\ location_comes_back_as l r
    /\ (r = l <-> nothing_to_trim l).
Proof.
  intros V L Hx. destruct (location_reads l x V L Hx) as (r & Hr & C). exists r.
  apply location_written in Hx as (_ & _ & Tx & _). rewrite (from_own_element x Tx). split; [exact Hr|]. split; [exact C|].
  rewrite <- (location_same_iff l V). split; [now intros <-|].
  intros C'. exact (location_comes_back_unique l _ _ C C').
Qed.

(** which locations can be written at all *)
Theorem C47_writable l :
  valid_location l ->
  ((forall q, lo_qualifier l = Some q -> xml_text q) <-> exists x, to_xml_element l = Ok x)
  /\ (~ (forall q, lo_qualifier l = Some q -> xml_text q) -> to_xml_element l = Raise ValueError).
Proof.
  intros V. split; [|now apply location_unwritable]. split; [now apply location_writes|].
  intros (x & Hx). apply location_written in Hx as (_ & _ & _ & _ & W & _). exact W.
Qed.

(** a location with exactly one layer is written but cannot be read back *)
Theorem C47_single_layer l y :
  valid_location l -> lo_layers l = [y] -> (forall q, lo_qualifier l = Some q -> xml_text q) ->
  exists x, to_xml_element l = Ok x /\ from_xml_element x = Raise AttributeError.
Proof.
  intros V E W. destruct (location_writes l V W) as (x & Hx). exists x. split; [exact Hx|].
  assert (Hs := location_single l y x E Hx).
  apply location_written in Hx as (_ & _ & Tx & _). now rewrite (from_own_element x Tx).
Qed.
Theorem C47_every_location_survives_refuted :
  exists l x, valid_location l /\ to_xml_element l = Ok x /\ from_xml_element x <> Ok l.
Proof.
  destruct (C47_single_layer (mkLocation false [mkLayer None (u "UNH") None] (Some (u "UNH")) None None)
              (mkLayer None (u "UNH") None)) as (x & Hx & Hr).
  - split; [reflexivity|]. split; [discriminate|]. split.
    + constructor; [|constructor]. split; [intros ? [=]|]. split; [|intros ? [=]].
      split; [reflexivity|repeat constructor].
    + split; [intros ? [= <-]; split; [reflexivity|repeat constructor]|intros ? [=]].
  - reflexivity.
  - intros ? [=].
  - exists (mkLocation false [mkLayer None (u "UNH") None] (Some (u "UNH")) None None), x.
    split; [|split; [exact Hx|rewrite Hr; discriminate]].
    split; [reflexivity|]. split; [discriminate|]. split.
    + constructor; [|constructor]. split; [intros ? [=]|]. split; [|intros ? [=]].
      split; [reflexivity|repeat constructor].
    + split; [intros ? [= <-]; split; [reflexivity|repeat constructor]|intros ? [=]].
Qed.

(** lists of locations: the order and the number are kept; one location is a list of one *)
Lemma locations_value ls xs : mapM to_xml_element ls = Ok xs ->
  value_of (Element (u "ahbLocations") [] None xs)
  = match grouped (u "ahbLocation") (map value_of xs) with [] => XNone | d => XDict d end.
Proof.
  intros H. rewrite value_of_children. change (@nil (pystr * xvalue)) with (grouped (u "ahbLocation") []).
  rewrite fold_same; [reflexivity| |constructor].
  apply mapM_ok in H. induction H as [|y x ls xs Hy H IH]; constructor; [|exact IH].
  apply location_written in Hy as (_ & _ & T & D & _). auto.
Qed.
Theorem C47_list_round_trip ls :
  ls <> [] ->
  Forall (fun l => valid_location l /\ 2 <= List.length (lo_layers l) /\ nothing_to_trim l
                   /\ forall q, lo_qualifier l = Some q -> xml_text q) ls ->
  exists x, to_xml_elements ls = Ok x /\ from_xml_elements x = Ok ls.
Proof.
  intros N F.
  assert (exists xs, mapM to_xml_element ls = Ok xs /\ mapM xml_dict_to_location (map value_of xs) = Ok ls)
    as (xs & Hx & Hr).
  { clear N. induction F as [|l ls (V & L & T & W) F (xs & Hx & Hr)]; [exists []; split; reflexivity|].
    destruct (C47_round_trip l V L T W) as (x & Ex & Er).
    assert (Tx := Ex). apply location_written in Tx as (_ & _ & Tx & _). rewrite (from_own_element x Tx) in Er.
    exists (x :: xs). cbn [map mapM]. rewrite Ex, Er. cbn [bind]. rewrite Hx, Hr. split; reflexivity. }
  exists (Element (u "ahbLocations") [] None xs). split; [unfold to_xml_elements; now rewrite Hx|].
  unfold from_xml_elements, parse. cbn [el_tag subscript dict_lookup].
  replace (str_eqb (u "ahbLocations") (u "ahbLocations")) with true by (vm_compute; reflexivity). cbv iota. cbn [bind].
  rewrite (locations_value ls xs Hx).
  assert (D : Forall (fun x => exists d, value_of x = XDict d) xs).
  { apply mapM_ok in Hx. clear -Hx. induction Hx as [|y x ls xs Hy H IH]; constructor; [|exact IH].
    apply location_written in Hy as (_ & _ & _ & D & _). exact D. }
  destruct xs as [|a [|b xs]].
  - exfalso. apply N. cbn in Hr. congruence.
  - cbn [map grouped subscript dict_lookup].
    replace (str_eqb (u "ahbLocation") (u "ahbLocation")) with true by (vm_compute; reflexivity). cbv iota. cbn [bind].
    inversion D as [|? ? (d & Ed)]; subst. rewrite Ed. cbn [map mapM] in Hr. rewrite Ed in Hr.
    destruct (xml_dict_to_location (XDict d)); cbn [bind] in *; congruence.
  - cbn [map grouped subscript dict_lookup].
    replace (str_eqb (u "ahbLocation") (u "ahbLocation")) with true by (vm_compute; reflexivity). cbv iota. cbn [bind].
    exact Hr.
Qed.
(** ... but the empty list cannot be read back *)
Theorem C47_empty_list_refuted :
  exists x, to_xml_elements [] = Ok x /\ from_xml_elements x = Raise TypeError.
Proof. eexists. split; [reflexivity|]. vm_compute. reflexivity. Qed.

(** the layout of the document is irrelevant *)
Theorem C47_layout_is_irrelevant x y : same_but_layout x y ->
  from_xml_element x = from_xml_element y /\ from_xml_elements x = from_xml_elements y.
Proof.
  intros H. assert (V := same_value x y H). assert (T : el_tag x = el_tag y) by now destruct H.
  unfold from_xml_element, from_xml_elements, parse. now rewrite V, T.
Qed.

Print Assumptions C47_round_trip.
Print Assumptions C47_what_comes_back.
Print Assumptions C47_writable.
Print Assumptions C47_single_layer.
Print Assumptions C47_every_location_survives_refuted.
Print Assumptions C47_list_round_trip.
Print Assumptions C47_empty_list_refuted.
Print Assumptions C47_layout_is_irrelevant.

(** *** instances *)
Definition ex_location : Location :=
  mkLocation false [mkLayer None (u "UNH") None; mkLayer (Some (u "SG4")) (u "IDE") (Some (u "24"))]
    (Some (u "COM")) (Some (u "3148")) (Some (u "Z 07")).
Example C47_instance : valid_location ex_location /\ 2 <= List.length (lo_layers ex_location)
  /\ nothing_to_trim ex_location /\ (forall q, lo_qualifier ex_location = Some q -> xml_text q).
Proof.
  split; [|split; [cbn; lia|split]].
  - split; [reflexivity|]. split; [discriminate|]. split.
    + constructor; [|constructor; [|constructor]].
      * split; [intros ? [=]|]. split; [split; [reflexivity|repeat constructor]|intros ? [=]].
      * split; [|split; [split; [reflexivity|repeat constructor]|]].
        -- intros ? [= <-]. exists (u "4"). split; [reflexivity|]. split; [discriminate|repeat constructor].
        -- intros ? [= <-]. exists [], (u "24"). split; [reflexivity|]. split; repeat constructor.
    + split; intros ? [= <-]; split; try reflexivity; repeat constructor.
  - split.
    + intros q [= <-]. split; [discriminate|]. exists [], []. split; [reflexivity|]. split; [constructor|]. split; [constructor|].
      split; intros c r E.
      * injection E as <- _. reflexivity.
      * change (u "Z 07") with (u "Z 0" ++ u "7") in E. apply app_inj_tail in E as [_ <-]. reflexivity.
    + repeat constructor; discriminate.
  - intros q [= <-]. repeat constructor.
Qed.
Example C47_instance_computed :
  match to_xml_element ex_location with Ok x => from_xml_element x = Ok ex_location | Raise _ => False end.
Proof. vm_compute. reflexivity. Qed.
Example C47_unwritable_instance : exists l, valid_location l /\ ~ (forall q, lo_qualifier l = Some q -> xml_text q).
Proof.
  exists (mkLocation false (lo_layers ex_location) None None (Some [7%N])). split.
  - destruct C47_instance as ((_ & H1 & H2 & _) & _). split; [reflexivity|]. split; [exact H1|]. split; [exact H2|].
    split; intros ? [=].
  - intros H. specialize (H _ eq_refl). inversion H. discriminate.
Qed.
Example C47_layout_instance :
  same_but_layout (Element (u "a") [] (Some (u " ")) [Element (u "b") [] (Some (u " x ")) []])
                  (Element (u "a") [] None [Element (u "b") [] (Some (u "x")) []]).
Proof.
  constructor.
  - exists []. split; [right|now left]. exists (u " "). split; [reflexivity|]. exists (u " "), [].
    repeat split; try (repeat constructor). discriminate. intros c r E. now destruct r.
  - constructor; [|constructor]. constructor; [|constructor]. exists (u "x").
    split; right; eexists; (split; [reflexivity|]).
    + exists (u " "), (u " "). split; [reflexivity|]. split; [repeat constructor|]. split; [repeat constructor|].
      split; intros c r E; [injection E as <- _; reflexivity|]. change (u "x") with ([] ++ u "x") in E.
      apply app_inj_tail in E as [_ <-]. reflexivity.
    + exists [], []. split; [reflexivity|]. split; [repeat constructor|]. split; [repeat constructor|].
      split; intros c r E; [injection E as <- _; reflexivity|]. change (u "x") with ([] ++ u "x") in E.
      apply app_inj_tail in E as [_ <-]. reflexivity.
Qed.

(** what is written: every attribute of the location has an element of its name, empty and marked
    as nil if there is no value *)
Definition written_as (name : pystr) (v : option pystr) (x : element) : Prop :=
  match v with
  | None => x = Element name [(u "xmlns:ns0", u "xsi"); (u "ns0:nil", u "true")] None []
  | Some s => xml_text s /\ x = Element name [] (Some s) []
  end.
Lemma attribute_written name v x : attribute_to_xml name v = Ok x <-> written_as name v x.
Proof.
  destruct v as [s|]; cbn [attribute_to_xml written_as].
  - split.
    + intros H. apply bind_ok in H as (t & H & [= <-]). apply set_text_ok in H as [Hx ->]. auto.
    + intros [Hx ->]. apply bind_ok. exists (Some s). split; [|reflexivity]. now apply set_text_ok.
  - split; [intros [= <-]; reflexivity|intros ->; reflexivity].
Qed.
Theorem C47_written_form l x : to_xml_element l = Ok x <->
  exists layers segment element qualifier,
    x = Element (u "ahbLocation") [] None [Element (u "layers") [] None layers; segment; element; qualifier]
    /\ Forall2 (fun y x => exists key opening qualifier,
                  x = Element (u "ahbLocationLayer") [] None [key; opening; qualifier]
                  /\ written_as (u "segment_group_key") (ly_key y) key
                  /\ written_as (u "opening_segment_code") (Some (ly_opening y)) opening
                  /\ written_as (u "opening_qualifier") (ly_qualifier y) qualifier) (lo_layers l) layers
    /\ written_as (u "segment_code") (lo_segment l) segment
    /\ written_as (u "data_element_id") (lo_element l) element
    /\ written_as (u "qualifier") (lo_qualifier l) qualifier.
Proof.
  assert (Hl : forall y x, layer_to_xml_element y = Ok x <-> exists key opening qualifier,
                  x = Element (u "ahbLocationLayer") [] None [key; opening; qualifier]
                  /\ written_as (u "segment_group_key") (ly_key y) key
                  /\ written_as (u "opening_segment_code") (Some (ly_opening y)) opening
                  /\ written_as (u "opening_qualifier") (ly_qualifier y) qualifier).
  { intros y z. unfold layer_to_xml_element. split.
    - intros H. apply bind_ok in H as (k & Hk & H). apply bind_ok in H as (op & Ho & H). apply bind_ok in H as (q & Hq & [= <-]).
      exists k, op, q. split; [reflexivity|]. now rewrite <- !attribute_written.
    - intros (k & op & q & -> & Hk & Ho & Hq). rewrite <- attribute_written in Hk, Ho, Hq. now rewrite Hk, Ho, Hq. }
  unfold to_xml_element. split.
  - intros H. apply bind_ok in H as (ls & Hls & H). apply bind_ok in H as (s & Hs & H). apply bind_ok in H as (e & He & H). apply bind_ok in H as (q & Hq & [= <-]).
    exists ls, s, e, q. split; [reflexivity|]. rewrite <- !attribute_written. split; [|auto].
    apply (mapM_ok layer_to_xml_element) in Hls. eapply Forall2_impl; [|exact Hls]. intros y z. apply Hl.
  - intros (ls & s & e & q & -> & F & Hs & He & Hq). rewrite <- attribute_written in Hs, He, Hq.
    apply bind_ok. exists ls. split; [apply mapM_ok; eapply Forall2_impl; [|exact F]; intros y z; apply Hl|]. now rewrite Hs, He, Hq.
Qed.
Print Assumptions C47_written_form.
Example C47_written_form_instance :
  to_xml_element (mkLocation false [mkLayer None (u "UNH") None] (Some (u "BGM")) (Some (u "1004")) None)
  = Ok (Element (u "ahbLocation") [] None
      [Element (u "layers") [] None
         [Element (u "ahbLocationLayer") [] None
            [Element (u "segment_group_key") [(u "xmlns:ns0", u "xsi"); (u "ns0:nil", u "true")] None [];
             Element (u "opening_segment_code") [] (Some (u "UNH")) [];
             Element (u "opening_qualifier") [(u "xmlns:ns0", u "xsi"); (u "ns0:nil", u "true")] None []]];
       Element (u "segment_code") [] (Some (u "BGM")) [];
       Element (u "data_element_id") [] (Some (u "1004")) [];
       Element (u "qualifier") [(u "xmlns:ns0", u "xsi"); (u "ns0:nil", u "true")] None []]).
Proof. vm_compute. reflexivity. Qed.
