(** C81: XML texts *)
From Coq Require Import Ascii String List NArith ZArith Bool Lia.
From Verif Require Import PyBase PyStr M_Components M_Ahb M_Schema M_Cli M_JsonText M_Navigation M_Xml M_LocationXml M_XmlText.
From Verif Require Import L_Base L_Str S_Text S_Numbers S_JsonText L_JsonText L_JsonFile S_LocationXml L_LocationXml C_LocationXml S_XmlText L_XmlText.
Import ListNotations.
Local Open Scope list_scope.

Section C81.
  Variable high_name_start high_name_char : char -> bool.
  Variable is_declaration : pystr -> bool.
  Variable with_doctype : pystr -> result element.
  Notation xml_document := (xml_document high_name_start high_name_char is_declaration).
  Notation has_doctype := (has_doctype high_name_start high_name_char is_declaration).
  Notation lxml_element := (lxml_element high_name_start high_name_char).
  Notation scan_document := (scan_document high_name_start high_name_char is_declaration with_doctype).
  Notation from_xml_text := (from_xml_text high_name_start high_name_char is_declaration with_doctype).
  Notation from_xml_texts := (from_xml_texts high_name_start high_name_char is_declaration with_doctype).

  (** the texts that are understood are the XML documents *)
  Theorem C81_accepted s e : scan_document s = Ok e <-> xml_document e s \/ has_doctype s /\ with_doctype s = Ok e.
  Proof.
    split; [apply scan_document_sound|]. intros [H|(H & E)]; [now apply scan_document_complete|]. now rewrite scan_document_doctype.
  Qed.
  (** a text is a document for one element only *)
  Theorem C81_one_reading s e e' : xml_document e s -> xml_document e' s -> e = e'.
  Proof.
    intros H H'. apply (scan_document_complete _ _ _ with_doctype) in H, H'. congruence.
  Qed.
  (** every other text is rejected with the error of the parser *)
  Theorem C81_rejected s : ~ has_doctype s -> (forall e, ~ xml_document e s) -> scan_document s = Raise ExpatError.
  Proof.
    intros ND N0. destruct (scan_document s) as [e|x] eqn:E.
    - apply scan_document_sound in E as [E|(E & _)]; [destruct (N0 e E)|contradiction].
    - apply scan_document_raise in E; [now subst|exact ND].
  Qed.

  Lemma encodable s : Forall scalar_value s -> exists b, encode_utf8 s = Ok b.
  Proof. intros F. destruct (encode_utf8 s) as [b|x] eqn:E; [now exists b|]. apply encode_utf8_raises in E as (_ & K). contradiction. Qed.
  Lemma text_is_element s e : Forall scalar_value s -> xml_document e s -> from_xml_text s = from_xml_element e /\ from_xml_texts s = from_xml_elements e.
  Proof.
    intros F D. destruct (encodable s F) as (b & B). unfold M_XmlText.from_xml_text, M_XmlText.from_xml_texts, xmltodict_parse. rewrite B. cbn [bind].
    rewrite (scan_document_complete _ _ _ with_doctype s e D). cbn [bind]. split; reflexivity.
  Qed.
  (** reading a text is reading the element it is a document of *)
  Theorem C81_text_is_read_as_its_element s e : Forall scalar_value s -> xml_document e s ->
    from_xml_text s = from_xml_element e /\ from_xml_texts s = from_xml_elements e.
  Proof. apply text_is_element. Qed.
  (** what can be read is a document *)
  Theorem C81_what_can_be_read s : ~ has_doctype s ->
    (forall l, from_xml_text s = Ok l <-> Forall scalar_value s /\ exists e, xml_document e s /\ from_xml_element e = Ok l)
    /\ (forall ls, from_xml_texts s = Ok ls <-> Forall scalar_value s /\ exists e, xml_document e s /\ from_xml_elements e = Ok ls).
  Proof.
    intros ND. assert (K : forall (A : Type) (f : xvalue -> result A) a, (let* d := xmltodict_parse high_name_start high_name_char is_declaration with_doctype s in f d) = Ok a ->
                      Forall scalar_value s /\ exists e, xml_document e s).
    { intros A f a H. apply bind_ok in H as (d & D & _). unfold xmltodict_parse in D. apply bind_ok in D as (b & B & D). apply bind_ok in D as (e & E & _). split.
      - unfold encode_utf8 in B. destruct (forallb is_scalar s) eqn:S0; [|discriminate]. rewrite forallb_forall in S0. apply Forall_forall. intros c I. apply is_scalar_spec. auto.
      - exists e. apply scan_document_sound in E as [E|(E & _)]; [exact E|contradiction]. }
    split; intros x; split.
    - intros H. destruct (K _ _ _ H) as (F & e & E). split; [exact F|]. exists e. split; [exact E|]. rewrite <- H. symmetry. now apply text_is_element.
    - intros (F & e & E & H). rewrite <- H. now apply text_is_element.
    - intros H. destruct (K _ _ _ H) as (F & e & E). split; [exact F|]. exists e. split; [exact E|]. rewrite <- H. symmetry. now apply text_is_element.
    - intros (F & e & E & H). rewrite <- H. now apply text_is_element.
  Qed.
  (** ... and the errors of the others *)
  Theorem C81_errors s : ~ has_doctype s ->
    (~ Forall scalar_value s -> from_xml_text s = Raise ValueError /\ from_xml_texts s = Raise ValueError)
    /\ (Forall scalar_value s -> (forall e, ~ xml_document e s) -> from_xml_text s = Raise ExpatError /\ from_xml_texts s = Raise ExpatError).
  Proof.
    intros ND. unfold M_XmlText.from_xml_text, M_XmlText.from_xml_texts, xmltodict_parse. split.
    - intros F. rewrite (proj2 (encode_utf8_raises s ValueError) (conj eq_refl F)). split; reflexivity.
    - intros F N0. destruct (encodable s F) as (b & ->). cbn [bind]. rewrite (C81_rejected s ND N0). split; reflexivity.
  Qed.

  (** what is written is a document of the element, in ASCII *)
  Lemma written_is_document e : lxml_element e -> xml_document (without_empty_texts e) (tostring e).
  Proof.
    intros L. exists [], [], (tostring e), []. rewrite app_nil_r. split; [reflexivity|]. split; [exists [], []; auto|]. split; [repeat constructor|]. split; [now apply element_written|repeat constructor].
  Qed.
  Theorem C81_written e : lxml_element e -> xml_document (without_empty_texts e) (tostring e) /\ ascii (tostring e).
  Proof. intros L. split; [now apply written_is_document|]. exact (tostring_ascii _ _ e L). Qed.
  Lemma ascii_scalar s : ascii s -> Forall scalar_value s.
  Proof. intros H. eapply Forall_impl; [|exact H]. cbn. unfold scalar_value. intros c ?. lia. Qed.
  Lemma text_like_element e : lxml_element e -> from_xml_text (tostring e) = from_xml_element e /\ from_xml_texts (tostring e) = from_xml_elements e.
  Proof.
    intros L. destruct (C81_written e L) as (D & A). apply ascii_scalar in A. destruct (text_is_element _ _ A D) as (-> & ->).
    unfold from_xml_element, from_xml_elements. now rewrite same_parse.
  Qed.
  (** an element and its text are read alike *)
  Theorem C81_element_or_text e : lxml_element e -> from_xml_text (tostring e) = from_xml_element e /\ from_xml_texts (tostring e) = from_xml_elements e.
  Proof. apply text_like_element. Qed.

  (** ** locations *)
  Definition good_name (n : pystr) : bool :=
    let no := fun _ : char => false in
    match n with c :: r => is_name_start no c && N.ltb c 128 && forallb (fun c => is_name_char no no c && N.ltb c 128) r | [] => false end.
  Lemma good_name_spec n : good_name n = true -> name_text high_name_start high_name_char n /\ ascii n.
  Proof.
    assert (K1 : forall c, is_name_start (fun _ => false) c = true -> is_name_start high_name_start c = true).
    { intros c. unfold is_name_start. destruct (N.ltb c 128); [auto|discriminate]. }
    assert (K2 : forall c, is_name_char (fun _ => false) (fun _ => false) c = true -> is_name_char high_name_start high_name_char c = true).
    { intros c. unfold is_name_char. rewrite !orb_true_iff. intros [H|H]; [left; auto|]. right. destruct (N.ltb c 128); [auto|discriminate]. }
    destruct n as [|c r]; [discriminate|]. cbn [good_name]. intros H. apply andb_true_iff in H as (H & R). apply andb_true_iff in H as (H & L). apply N.ltb_lt in L. rewrite forallb_forall in R. split.
    - exists c, r. split; [reflexivity|]. split; [apply name_start_spec; auto|]. apply Forall_forall. intros x I. apply R, andb_true_iff in I as (I & _). apply name_char_spec. auto.
    - constructor; [exact L|]. apply Forall_forall. intros x I. apply R, andb_true_iff in I as (_ & I). now apply N.ltb_lt.
  Qed.
  Lemma lxml_intro n l text cs : good_name n = true -> NoDup (map fst l) ->
    Forall (fun kv => name_text high_name_start high_name_char (fst kv) /\ ascii (fst kv) /\ Forall referable (snd kv)) l ->
    (forall t, text = Some t -> Forall referable t) -> Forall lxml_element cs -> lxml_element (Element n l text cs).
  Proof. intros G. apply good_name_spec in G as (N0 & A). now constructor. Qed.
  Lemma written_as_lxml n v x : good_name n = true -> (forall t, v = Some t -> Forall (fun c => c <= 1114111)%N t) -> written_as n v x -> lxml_element x.
  Proof.
    intros G F W. destruct v as [t|]; cbn [written_as] in W.
    - destruct W as (X & ->). apply lxml_intro; [exact G|constructor|constructor| |constructor]. intros t' E. injection E as <-. specialize (F _ eq_refl). unfold xml_text, all in X.
      rewrite Forall_forall in *. intros c I. split; [apply xml_char_spec; auto|auto].
    - subst x. apply lxml_intro; [exact G| | |intros ? [=]|constructor].
      + cbn [map fst]. constructor; [|repeat constructor; easy]. intros [K|[]]. discriminate K.
      + assert (R : forall v, forallb (fun c => is_xml_char c && N.leb c 1114111)%bool v = true -> Forall referable v).
        { intros v H. rewrite forallb_forall in H. apply Forall_forall. intros c I. apply H in I. apply andb_true_iff in I as (I & J). split; [now apply xml_char_spec|now apply N.leb_le]. }
        constructor; [|constructor; [|constructor]]; cbn [fst snd]; (match goal with |- S_XmlText.name_text _ _ ?k /\ _ => destruct (good_name_spec k) as (? & ?); [vm_compute; reflexivity|split; [assumption|split; [assumption|apply R; vm_compute; reflexivity]]] end).
  Qed.
  Lemma location_lxml l x : python_texts l -> to_xml_element l = Ok x -> lxml_element x.
  Proof.
    intros P H. apply C47_written_form in H as (layers & sg & el & q & -> & F & S1 & S2 & S3).
    assert (PT : forall o, In o (location_texts l) -> forall t, o = Some t -> Forall (fun c => c <= 1114111)%N t) by (intros o I t ->; now apply P).
    assert (T : forall o, In o [lo_segment l; lo_element l; lo_qualifier l] -> forall t, o = Some t -> Forall (fun c => c <= 1114111)%N t) by (intros o I; apply PT; unfold location_texts; apply in_app_iff; now right).
    apply lxml_intro; [vm_compute; reflexivity|constructor|constructor|intros ? [=]|]. constructor; [|constructor; [|constructor; [|constructor; [|constructor]]]].
    - apply lxml_intro; [vm_compute; reflexivity|constructor|constructor|intros ? [=]|].
      assert (TL : forall y, In y (lo_layers l) -> forall o, In o [ly_key y; Some (ly_opening y); ly_qualifier y] -> forall t, o = Some t -> Forall (fun c => c <= 1114111)%N t).
      { intros y I o J. apply PT. unfold location_texts. apply in_app_iff. left. apply in_flat_map. now exists y. }
      clear -F TL. induction F as [|y x ys xs (k & o & q & -> & K1 & K2 & K3) F IH]; constructor; [|apply IH; intros y0 I; apply TL; now right].
      apply lxml_intro; [vm_compute; reflexivity|constructor|constructor|intros ? [=]|]. constructor; [|constructor; [|constructor; [|constructor]]].
      + apply (written_as_lxml (u "segment_group_key") (ly_key y)); [vm_compute; reflexivity|apply (TL y); [now left|cbn; auto]|exact K1].
      + apply (written_as_lxml (u "opening_segment_code") (Some (ly_opening y))); [vm_compute; reflexivity|apply (TL y); [now left|cbn; auto]|exact K2].
      + apply (written_as_lxml (u "opening_qualifier") (ly_qualifier y)); [vm_compute; reflexivity|apply (TL y); [now left|cbn; auto]|exact K3].
    - apply (written_as_lxml (u "segment_code") (lo_segment l)); [vm_compute; reflexivity|apply T; cbn; auto|exact S1].
    - apply (written_as_lxml (u "data_element_id") (lo_element l)); [vm_compute; reflexivity|apply T; cbn; auto|exact S2].
    - apply (written_as_lxml (u "qualifier") (lo_qualifier l)); [vm_compute; reflexivity|apply T; cbn; auto|exact S3].
  Qed.
  (** what can be written can be written as text, and the text is a document that is read like the element *)
  Theorem C81_locations_as_text l x : python_texts l -> to_xml_element l = Ok x ->
    ascii (tostring x) /\ (exists e, xml_document e (tostring x)) /\ from_xml_text (tostring x) = from_xml_element x.
  Proof.
    intros P H. pose proof (location_lxml l x P H) as L. destruct (C81_written x L) as (D & A). split; [exact A|]. split; [now exists (without_empty_texts x)|]. now apply text_like_element.
  Qed.
  (** locations survive as texts *)
  Theorem C81_round_trip l :
    valid_location l -> 2 <= List.length (lo_layers l) -> nothing_to_trim l -> python_texts l ->
    (forall q, lo_qualifier l = Some q -> xml_text q) ->
    exists x, to_xml_element l = Ok x /\ from_xml_text (tostring x) = Ok l.
  Proof.
    intros V L T P X. destruct (C47_round_trip l V L T X) as (x & E & R). exists x. split; [exact E|]. rewrite <- R. apply text_like_element. exact (location_lxml l x P E).
  Qed.
  Theorem C81_list_round_trip ls :
    ls <> [] ->
    Forall (fun l => valid_location l /\ 2 <= List.length (lo_layers l) /\ nothing_to_trim l /\ python_texts l
                     /\ forall q, lo_qualifier l = Some q -> xml_text q) ls ->
    exists x, to_xml_elements ls = Ok x /\ from_xml_texts (tostring x) = Ok ls.
  Proof.
    intros NE F. destruct (C47_list_round_trip ls NE) as (x & E & R).
    { eapply Forall_impl; [|exact F]. cbn beta. intros l (V & L & T & _ & X). auto. }
    exists x. split; [exact E|]. rewrite <- R. apply text_like_element. unfold to_xml_elements in E. apply bind_ok in E as (xs & M & E). injection E as <-.
    apply lxml_intro; [vm_compute; reflexivity|constructor|constructor|intros ? [=]|]. apply mapM_ok in M. clear -M F. induction M as [|l x ls xs H M IH]; [constructor|]. inversion F as [|? ? (_ & _ & _ & P & _) F']; subst.
    constructor; [exact (location_lxml l x P H)|now apply IH].
  Qed.
End C81.
Print Assumptions C81_accepted.
Print Assumptions C81_one_reading.
Print Assumptions C81_rejected.
Print Assumptions C81_text_is_read_as_its_element.
Print Assumptions C81_what_can_be_read.
Print Assumptions C81_errors.
Print Assumptions C81_written.
Print Assumptions C81_element_or_text.
Print Assumptions C81_locations_as_text.
Print Assumptions C81_round_trip.
Print Assumptions C81_list_round_trip.

(** *** instances *)
Definition no_high (_ : char) : bool := false.
Definition ex_declaration (s : pystr) : bool := str_eqb s (u " version=""1.0""").
Definition ex_doctype (_ : pystr) : result element := Raise ValueError.
Definition ex_document : pystr :=
  u "<?xml version=""1.0""?>" ++ [13; 10]%N ++ u "<!-- a - b --><?go on?><a b='1 &lt; &#50;' c = ""'"" >x" ++ [13; 10]%N
  ++ u "<b/>&amp;<![CDATA[<]]&>]]><c d=""" ++ [9%N] ++ u """></c > &#x41;</a> <!---->".
Definition ex_element : element :=
  Element (u "a") [(u "b", u "1 < 2"); (u "c", u "'")] (Some (u "x" ++ [10%N] ++ u "&<]]&> A"))
    [Element (u "b") [] None []; Element (u "c") [(u "d", u " ")] None []].
Example C81_instance : xml_document no_high no_high ex_declaration ex_element ex_document.
Proof.
  assert (H : scan_document no_high no_high ex_declaration ex_doctype ex_document = Ok ex_element) by (vm_compute; reflexivity).
  apply scan_document_sound in H as [H|(_ & H)]; [exact H|discriminate].
Qed.
(** two hyphens in a comment, two attributes of the same name, an element that is not closed *)
Example C81_rejected_instance :
  Forall (fun t => ~ has_doctype no_high no_high ex_declaration t /\ (forall e, ~ xml_document no_high no_high ex_declaration e t)
                   /\ Forall scalar_value t)
    [u "<!-- a -- --><a/>"; u "<a b='1' b='2'/>"; u "<a><b></a>"; u "<a>]]></a>"; u "<a>&nbsp;</a>"; []].
Proof.
  assert (K : forall t, (forall d, scan_document no_high no_high ex_declaration d t = Raise ExpatError) -> forallb is_scalar t = true ->
                ~ has_doctype no_high no_high ex_declaration t /\ (forall e, ~ xml_document no_high no_high ex_declaration e t) /\ Forall scalar_value t).
  { intros t H B. split; [|split].
    - intros D. apply (scan_document_doctype _ _ _ ex_doctype) in D. rewrite H in D. discriminate.
    - intros e D. apply (scan_document_complete _ _ _ ex_doctype) in D. rewrite H in D. discriminate.
    - rewrite forallb_forall in B. apply Forall_forall. intros c I. apply is_scalar_spec. auto. }
  repeat (constructor; [apply K; [intros d|]; vm_compute; reflexivity|]). constructor.
Qed.
Example C81_doctype_instance : has_doctype no_high no_high ex_declaration (u "<?xml version=""1.0""?> <!DOCTYPE a><a/>").
Proof.
  exists (u "<?xml version=""1.0""?>"), (u " "), (u " a><a/>"). split; [vm_compute; reflexivity|]. split.
  - exists [], (u "<?xml version=""1.0""?>"). split; [vm_compute; reflexivity|]. split; [now left|]. right. exists (u " version=""1.0"""). split; [vm_compute; reflexivity|].
    split; [|split; [vm_compute; reflexivity|]].
    + intros c r E. injection E as <- _. intros H. apply name_char_spec in H. discriminate H.
    + intros H. apply contains_spec in H. discriminate H.
  - apply misc_end. repeat constructor.
Qed.
Example C81_location_instance : python_texts ex_location.
Proof.
  assert (K : forallb (fun o => match o with Some t => forallb (fun c => N.leb c 1114111) t | None => true end) (location_texts ex_location) = true) by (vm_compute; reflexivity).
  intros t I. rewrite forallb_forall in K. apply K in I. rewrite forallb_forall in I. apply Forall_forall. intros c J. apply N.leb_le. now apply I.
Qed.
Example C81_text_instance :
  match to_xml_element (mkLocation false [mkLayer None (u "UNH") None] None None (Some (u "<" ++ [228%N]))) with
  | Ok x => tostring x = u "<ahbLocation><layers><ahbLocationLayer><segment_group_key xmlns:ns0=""xsi"" ns0:nil=""true""/>"
              ++ u "<opening_segment_code>UNH</opening_segment_code><opening_qualifier xmlns:ns0=""xsi"" ns0:nil=""true""/></ahbLocationLayer></layers>"
              ++ u "<segment_code xmlns:ns0=""xsi"" ns0:nil=""true""/><data_element_id xmlns:ns0=""xsi"" ns0:nil=""true""/><qualifier>&lt;&#228;</qualifier></ahbLocation>"
  | Raise _ => False
  end.
Proof. vm_compute. reflexivity. Qed.
