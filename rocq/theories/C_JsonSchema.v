(** Property C88: the published JSON schema and the documents that the library writes and reads. *)
From Coq Require Import Ascii String List NArith ZArith Bool.
From Verif Require Import PyBase PyStr M_Components M_Ahb M_Schema M_JsonText M_JsonSchema
  S_Text S_DeepAhb S_Json S_JsonSchema S_JsonText L_Base L_ValuePool C_Json C_Matching.
Import ListNotations.
Local Open Scope list_scope.

Notation P := published_schema.
Theorem C88_published_text float_value : loads float_value published_text = Ok published_schema.
Proof. vm_compute. reflexivity. Qed.
Print Assumptions C88_published_text.

Definition def (name : pystr) : list (pystr * json) :=
  match P with
  | JObj o => match dict_get (u "definitions") o with
              | Some (JObj d) => match dict_get name d with Some (JObj s) => s | _ => [] end
              | _ => []
              end
  | _ => []
  end.
Lemma plain root s j : dict_get (u "$ref") s = None ->
  conforms root (JObj s) j <->
  type_keyword s j /\ enum_keyword s j /\ required_keyword s j /\ additional_keyword s j
  /\ (forall o k p v, j = JObj o -> dict_get k (properties_of s) = Some p -> dict_get k o = Some v -> conforms root p v)
  /\ (forall l i x, j = JList l -> dict_get (u "items") s = Some i -> In x l -> conforms root i x).
Proof.
  intros N. split.
  - intros C. inversion C as [? ? ? ? R|]; subst; [congruence|auto 12].
  - intros (A & B & C & D & E & F). now apply conforms_keywords.
Qed.
Lemma by_reference root s r t j : dict_get (u "$ref") s = Some (JStr r) -> points_to root r t -> conforms root (JObj s) j <-> conforms root t j.
Proof.
  intros N T. split; [|now apply conforms_reference with (r := r)].
  intros C. inversion C as [? r' t' ? R T'|]; subst; [|congruence]. assert (r' = r) as -> by congruence.
  destruct T as (o & d & n & E1 & E2 & E3 & E4), T' as (o' & d' & n' & E1' & E2' & E3' & E4'). subst r root. injection E1' as <-.
  apply app_inv_head in E3'. congruence.
Qed.
Lemma string_schema t j : conforms P (JObj [(u "title", t); (u "type", JStr (u "string"))]) j <-> exists s, j = JStr s.
Proof.
  rewrite plain by (vm_compute; reflexivity). split.
  - intros (A & _). unfold type_keyword in A. assert (dict_get (u "type") [(u "title", t); (u "type", JStr (u "string"))] = Some (JStr (u "string"))) as E by (vm_compute; reflexivity).
    rewrite E in A. clear E. destruct j; cbn [has_type] in A; try (vm_compute in A; discriminate A); [|eauto]. destruct A as [A|A]; vm_compute in A; discriminate A.
  - intros (s & ->). split; [vm_compute; reflexivity|]. split; [exact I|]. split; [exact I|]. split; [exact I|]. split; intros; discriminate.
Qed.
Lemma ref_definition s name j : dict_get (u "$ref") s = Some (JStr (u "#/definitions/" ++ name)) ->
  def name <> [] -> conforms P (JObj s) j <-> conforms P (JObj (def name)) j.
Proof.
  intros R N. apply (by_reference P s (u "#/definitions/" ++ name)); [exact R|]. unfold def in *. destruct P as [| | | | | |o]; try congruence.
  destruct (dict_get (u "definitions") o) as [[| | | | | |d]|] eqn:E; try congruence. destruct (dict_get name d) as [[| | | | | |t]|] eqn:E'; try congruence.
  exists o, d, name. auto.
Qed.
Lemma array_schema t (ts : list (pystr * json)) name j :
  dict_get (u "$ref") ts = None -> dict_get (u "type") ts = Some t -> (t = JStr (u "array") \/ t = JList [JStr (u "array"); JStr (u "null")]) ->
  dict_get (u "enum") ts = None -> dict_get (u "required") ts = None -> dict_get (u "additionalProperties") ts = None -> dict_get (u "properties") ts = None ->
  dict_get (u "items") ts = Some (JObj [(u "$ref", JStr (u "#/definitions/" ++ name)); (u "type", JStr (u "object"))]) -> def name <> [] ->
  conforms P (JObj ts) j <-> (exists l, j = JList l /\ forall x, In x l -> conforms P (JObj (def name)) x) \/ (j = JNull /\ t <> JStr (u "array")).
Proof.
  intros R T Ht E1 E2 E3 E4 It N. rewrite plain by exact R. unfold type_keyword, enum_keyword, required_keyword, additional_keyword, properties_of. rewrite T, E1, E2, E3, E4, It.
  assert (D : forall x, conforms P (JObj [(u "$ref", JStr (u "#/definitions/" ++ name)); (u "type", JStr (u "object"))]) x <-> conforms P (JObj (def name)) x).
  { intros x. apply ref_definition; [reflexivity|exact N]. }
  split.
  - intros (A & _ & _ & _ & _ & F).
    assert (K : has_type j (u "array") \/ (has_type j (u "null") /\ t <> JStr (u "array"))).
    { destruct Ht as [-> | ->]; [auto|]. destruct A as (x & [A|[A|[]]] & B); injection A as <-; [auto|right; split; [exact B|discriminate]]. }
    destruct K as [K|[K Nt]]; destruct j; cbn [has_type] in K; try (vm_compute in K; discriminate K); try (destruct K as [K|K]; vm_compute in K; discriminate K).
    + left. exists l. split; [reflexivity|]. intros x Hx. apply D. exact (F l _ x eq_refl eq_refl Hx).
    + right. auto.
  - intros K. split; [|split; [exact I|split; [exact I|split; [exact I|split]]]].
    + destruct K as [(l & -> & _)|[-> Nt]]; destruct Ht as [-> | ->].
      * reflexivity.
      * exists (u "array"). split; [now left|reflexivity].
      * congruence.
      * exists (u "null"). split; [right; now left|reflexivity].
    + intros o k p v _ H. discriminate H.
    + intros l i x -> Ei Hx. injection Ei as <-. destruct K as [(l' & E & F)|[E _]]; [|discriminate]. injection E as <-. apply D, F, Hx.
Qed.

(** ** the definitions *)
Ltac value := vm_compute; reflexivity.
Lemma closed_object s props req o :
  dict_get (u "$ref") s = None -> dict_get (u "type") s = Some (JStr (u "object")) -> dict_get (u "enum") s = None ->
  match dict_get (u "required") s with Some r => r = JList (map JStr req) | None => req = [] end ->
  dict_get (u "additionalProperties") s = Some (JBool false) -> properties_of s = props -> NoDup (map fst props) ->
  conforms P (JObj s) (JObj o) <->
  (forall k, In k req -> dict_get k o <> None) /\ only_keys (map fst props) o
  /\ Forall (fun kp => forall v, dict_get (fst kp) o = Some v -> conforms P (snd kp) v) props.
Proof.
  intros R T E Q A Ep N. rewrite plain by exact R. unfold type_keyword, enum_keyword, required_keyword, additional_keyword. rewrite T, E, A, Ep.
  assert (Kq : match dict_get (u "required") s with Some (JList l) => forall k, In (JStr k) l -> dict_get k o <> None | _ => True end <-> (forall k, In k req -> dict_get k o <> None)).
  { destruct (dict_get (u "required") s) as [r|]; [|subst req; split; [intros _ k []|auto]]. subst r. split; intros H k Hk; apply H.
    - now apply in_map.
    - apply in_map_iff in Hk as (x & Ex & Hx). injection Ex as <-. exact Hx. }
  assert (Ka : (forall k, dict_get k o <> None -> dict_get k props <> None) <-> only_keys (map fst props) o).
  { unfold only_keys. split; intros H k Hk.
    - destruct (in_dec str_dec k (map fst props)) as [Hi|Hi]; [exact Hi|]. exfalso. apply dict_get_None in Hi. apply (H k); [|exact Hi]. intros K. apply dict_get_None in K. contradiction.
    - intros K. apply dict_get_None in K. apply K, H. destruct (in_dec str_dec k (map fst o)) as [Hi|Hi]; [exact Hi|]. exfalso. apply Hk. now apply dict_get_None. }
  split.
  - intros (_ & _ & B & C & D & _). split; [apply Kq; destruct (dict_get (u "required") s) as [[]|]; exact B|]. split; [now apply Ka|].
    apply Forall_forall. intros [k p] Hin v Hv. apply (D o k p v); auto. now apply dict_get_NoDup.
  - intros (B & C & D). split; [reflexivity|]. split; [exact I|]. split; [apply Kq in B; destruct (dict_get (u "required") s) as [[]|]; exact B|]. split; [now apply Ka|]. split.
    + intros o' k p v Eo Hp Hv. injection Eo as <-. rewrite Forall_forall in D. apply (D (k, p)); [now apply dict_get_NoDup|exact Hv].
    + intros l i x H. discriminate H.
Qed.
Fixpoint distinctb (l : list pystr) : bool := match l with [] => true | x :: r => negb (str_in x r) && distinctb r end.
Lemma distinct l : distinctb l = true -> NoDup l.
Proof.
  induction l as [|x r IH]; [constructor|]. cbn [distinctb]. intros H. apply andb_true_iff in H as [A B]. constructor; [|now apply IH].
  intros K. apply str_in_In in K. rewrite K in A. discriminate.
Qed.
(** the schema of a string, by its title *)
Definition string_property (k : pystr) : pystr * json := (k, JObj [(u "title", JStr k); (u "type", JStr (u "string"))]).
Lemma string_at o k s : text o k s -> forall v, dict_get k o = Some v -> conforms P (snd (string_property k)) v.
Proof. unfold text, field. intros H v Hv. apply string_schema. exists s. congruence. Qed.
Definition list_property (k name : pystr) (t : json) : pystr * json :=
  (k, JObj [(u "items", JObj [(u "$ref", JStr (u "#/definitions/" ++ name)); (u "type", JStr (u "object"))]); (u "title", JStr k); (u "type", t)]).
Lemma list_at name k t : def name <> [] -> (t = JStr (u "array") \/ t = JList [JStr (u "array"); JStr (u "null")]) -> forall j,
  conforms P (snd (list_property k name t)) j <-> (exists l, j = JList l /\ forall x, In x l -> conforms P (JObj (def name)) x) \/ (j = JNull /\ t <> JStr (u "array")).
Proof. intros N Ht j. unfold list_property. cbn [snd]. apply array_schema; auto; reflexivity. Qed.

Lemma meta_schema o : conforms P (JObj (def (u "AhbMetaInformationSchema"))) (JObj o) <->
  (exists s, text o (u "pruefidentifikator") s) /\ only_keys [u "pruefidentifikator"] o.
Proof.
  rewrite (closed_object _ [string_property (u "pruefidentifikator")] [u "pruefidentifikator"]); try value; [|apply distinct; value]. split.
  - intros (A & B & C). split; [|exact B]. destruct (dict_get (u "pruefidentifikator") o) as [v|] eqn:E; [|exfalso; apply (A (u "pruefidentifikator")); [now left|exact E]].
    inversion C as [|? ? C1 _]; subst. specialize (C1 v E). apply string_schema in C1 as (x & ->). exists x. exact E.
  - intros ((x & Hx) & B). split; [|split; [exact B|]].
    + intros k [<-|[]]. unfold text, field in Hx. congruence.
    + constructor; [|constructor]. exact (string_at _ _ _ Hx).
Qed.
Lemma element_schema o : conforms P (JObj (def (u "_FreeTextOrValuePoolSchema"))) (JObj o) -> only_keys [u "free_text"; u "value_pool"] o.
Proof.
  set (sub := fun name => JObj [(u "$ref", JStr (u "#/definitions/" ++ name)); (u "type", JStr (u "object"))]).
  rewrite (closed_object _ [(u "free_text", sub (u "DataElementFreeTextSchema")); (u "value_pool", sub (u "DataElementValuePoolSchema"))] []); try value; [|apply distinct; value].
  intros (_ & H & _). exact H.
Qed.
Definition plain_segment (s : json) : Prop :=
  exists o, s = JObj o /\ field o (u "data_elements") (JList []) /\ dict_get (u "segment_id") o = None.
Lemma is_element_object ca j d : describes_element ca j d -> ~ conforms P (JObj (def (u "_FreeTextOrValuePoolSchema"))) j.
Proof.
  intros (o & -> & _ & H) C. apply element_schema in C.
  assert (K : exists i, text o (u "data_element_id") i) by (destruct d; [destruct H as (_ & _ & H & _)|destruct H as (_ & _ & H & _)]; eauto).
  destruct K as (i & K). unfold text, field in K. apply dict_get_In in K. apply (in_map fst) in K. apply C in K. cbn [fst] in K.
  destruct K as [K|[K|[]]]; vm_compute in K; discriminate K.
Qed.
Definition segment_properties : list (pystr * json) :=
  [string_property (u "ahb_expression"); list_property (u "data_elements") (u "_FreeTextOrValuePoolSchema") (JStr (u "array"));
   string_property (u "discriminator"); string_property (u "section_name")].
Lemma segment_schema ca j s : describes_segment ca j s -> conforms P (JObj (def (u "SegmentSchema"))) j <-> plain_segment j.
Proof.
  intros (o & -> & K & D & E & L & Sn & Si & _ & _).
  rewrite (closed_object _ segment_properties [u "ahb_expression"; u "discriminator"]); try value; [|apply distinct; value]. split.
  - intros (_ & B & C). exists o. split; [reflexivity|]. destruct L as [js Fl F2]. split.
    + inversion C as [|? ? _ C2]; subst. inversion C2 as [|? ? C3 _]; subst. specialize (C3 _ Fl). apply list_at in C3; [|vm_compute; discriminate|now left].
      destruct C3 as [(l & El & Hl)|[_ Nt]]; [|congruence]. injection El as <-. destruct js as [|x js]; [exact Fl|]. exfalso.
      inversion F2 as [|? d ? ? De _]; subst. apply (is_element_object ca x d De), Hl. now left.
    + destruct (dict_get (u "segment_id") o) as [v|] eqn:Ev; [|reflexivity]. exfalso. apply dict_get_In in Ev. apply (in_map fst) in Ev. apply B in Ev. cbn [fst] in Ev.
      vm_compute in Ev. repeat (destruct Ev as [Ev|Ev]; [discriminate Ev|]). exact Ev.
  - intros (o' & Eo & A & B). injection Eo as <-. split; [|split].
    + unfold text, field in D, E. intros k [<-|[<-|[]]]; congruence.
    + intros k Hk. specialize (K k Hk). cbn [In] in K. change (In k [u "ahb_expression"; u "data_elements"; u "discriminator"; u "section_name"]). cbn [In].
      destruct K as [<-|[<-|[<-|[<-|[<-|[]]]]]]; auto. exfalso. apply dict_get_None in B. contradiction.
    + constructor; [exact (string_at _ _ _ E)|]. constructor; [|constructor; [exact (string_at _ _ _ D)|constructor; [|constructor]]].
      * intros v Hv. unfold field in A. cbn [fst list_property] in Hv. rewrite A in Hv. injection Hv as <-. apply list_at; [vm_compute; discriminate|now left|]. left. exists []. split; [reflexivity|intros x []].
      * destruct (seg_section s) as [n|]; [exact (string_at _ _ _ Sn)|]. intros v Hv. cbn [fst string_property] in Hv. congruence.
Qed.
Definition nullable_array : json := JList [JStr (u "array"); JStr (u "null")].
Definition group_properties : list (pystr * json) :=
  [string_property (u "ahb_expression"); string_property (u "discriminator");
   list_property (u "segment_groups") (u "SegmentGroupSchema") nullable_array; list_property (u "segments") (u "SegmentSchema") nullable_array].
(** a key that is missing, null or has a list of conforming values *)
Lemma opt_list_at {A} (R : json -> A -> Prop) name k o xs : def name <> [] -> opt_list_field R o k xs ->
  (forall v, dict_get k o = Some v -> conforms P (snd (list_property k name nullable_array)) v) <->
  (forall l x, field o k (JList l) -> In x l -> conforms P (JObj (def name)) x).
Proof.
  intros N H. assert (La := fun j => list_at name k nullable_array N (or_intror eq_refl) j). split.
  - intros C l x Fl Hx. specialize (C _ Fl). apply La in C as [(l' & E & C)|[E _]]; [|discriminate]. injection E as <-. now apply C.
  - intros C v Hv. apply La. destruct H as [[H|H]|js xs H _]; unfold field in H.
    + congruence.
    + right. split; [congruence|unfold nullable_array; discriminate].
    + left. exists js. split; [congruence|]. intros x Hx. exact (C js x H Hx).
Qed.
Lemma forall2_in_l {A B} (R : A -> B -> Prop) l m x : Forall2 R l m -> In x l -> exists y, In y m /\ R x y.
Proof. induction 1 as [|a b l m H _ IH]; [intros []|]. intros [<-|Hx]; [exists b; split; [now left|exact H]|]. destruct (IH Hx) as (y & A1 & A2). exists y. split; [now right|exact A2]. Qed.
Lemma segment_def : def (u "SegmentSchema") <> []. Proof. vm_compute. discriminate. Qed.
Lemma group_def : def (u "SegmentGroupSchema") <> []. Proof. vm_compute. discriminate. Qed.
Lemma group_schema ca g : forall j, describes_group ca j g ->
  conforms P (JObj (def (u "SegmentGroupSchema"))) j <-> forall s, segment_value j s -> plain_segment s.
Proof.
  induction g as [d e i ss gs IH] using group_ind'. intros j H. inversion H as [o d' e' ss' gs' K D E Ne Ls Lg]; subst.
  rewrite (closed_object _ group_properties [u "ahb_expression"; u "discriminator"]); try value; [|apply distinct; value].
  assert (Cs : (forall v, dict_get (u "segments") o = Some v -> conforms P (snd (list_property (u "segments") (u "SegmentSchema") nullable_array)) v)
    <-> forall l x, field o (u "segments") (JList l) -> In x l -> plain_segment x).
  { rewrite (opt_list_at _ _ _ _ _ segment_def Ls). split; intros C l x Fl Hx; specialize (C l x Fl Hx);
      (inversion Ls as [[N|N]|js xs Fj F2]; subst; unfold field in *; try congruence; assert (js = l) as -> by congruence; destruct (forall2_in_l _ _ _ _ F2 Hx) as (y & _ & Dy));
      [now apply (segment_schema ca x y)|now apply (segment_schema ca x y)]. }
  assert (Cg : (forall v, dict_get (u "segment_groups") o = Some v -> conforms P (snd (list_property (u "segment_groups") (u "SegmentGroupSchema") nullable_array)) v)
    <-> forall l x s, field o (u "segment_groups") (JList l) -> In x l -> segment_value x s -> plain_segment s).
  { rewrite (opt_list_at _ _ _ _ _ group_def Lg).
    assert (Kx : forall l x, field o (u "segment_groups") (JList l) -> In x l -> conforms P (JObj (def (u "SegmentGroupSchema"))) x <-> forall s, segment_value x s -> plain_segment s).
    { intros l x Fl Hx. inversion Lg as [[N|N]|js xs Fj F2]; subst; unfold field in *; try congruence. assert (js = l) as -> by congruence. destruct (forall2_in_l _ _ _ _ F2 Hx) as (y & Hy & Dy).
      cbn [olist] in IH. rewrite Forall_forall in IH. now apply (IH y). }
    split.
    - intros C l x s Fl Hx. apply (Kx l x Fl Hx). exact (C l x Fl Hx).
    - intros C l x Fl Hx. apply (Kx l x Fl Hx). intros s. exact (C l x s Fl Hx). }
  split.
  - intros (_ & _ & C) s Hs. inversion C as [|? ? _ C1]; subst. inversion C1 as [|? ? _ C2]; subst. inversion C2 as [|? ? G C3]; subst. inversion C3 as [|? ? Sg _]; subst.
    inversion Hs as [? l ? Fl Hi|? l g' ? Fl Hi Hd]; subst; [exact (proj1 Cs Sg l s Fl Hi)|exact (proj1 Cg G l g' s Fl Hi Hd)].
  - intros C. split; [|split].
    + unfold text, field in D, E. intros k [<-|[<-|[]]]; congruence.
    + intros k Hk. specialize (K k Hk). cbn [In] in K. change (In k [u "ahb_expression"; u "discriminator"; u "segment_groups"; u "segments"]). cbn [In]. tauto.
    + constructor; [exact (string_at _ _ _ E)|]. constructor; [exact (string_at _ _ _ D)|]. constructor; [|constructor; [|constructor]].
      * apply Cg. intros l x s Fl Hx Hd. apply C. now apply (deeper_segment o l x s).
      * apply Cs. intros l x Fl Hx. apply C. now apply (own_segment o l x).
Qed.
Definition deep_properties : list (pystr * json) :=
  [list_property (u "lines") (u "SegmentGroupSchema") (JStr (u "array"));
   (u "meta", JObj [(u "$ref", JStr (u "#/definitions/" ++ u "AhbMetaInformationSchema")); (u "type", JStr (u "object"))])].

(** ** C88 *)
(** a document that the library reads as a deep AHB conforms to the published schema exactly if it says
    nothing about the meta information but the Pruefidentifikator, and no segment has data elements or
    a segment id *)
Theorem C88_conforming_documents class_attribute j a : load_deep class_attribute j = Ok a ->
  conforms published_schema published_schema j <->
  (forall k, meta_key j k -> k = u "pruefidentifikator")
  /\ forall s, segment_value_of j s ->
       exists o, s = JObj o /\ field o (u "data_elements") (JList []) /\ dict_get (u "segment_id") o = None.
Proof.
  intros H. apply C46_deep_ahb in H as (o & -> & K & (jm & Fm & Dm) & [js Fl F2]). change (let Q := published_schema in conforms Q P (JObj o) <-> (forall k, meta_key (JObj o) k -> k = u "pruefidentifikator") /\ forall s, segment_value_of (JObj o) s -> plain_segment s). cbv zeta.
  assert (R : forall j, conforms P P j <-> conforms P (JObj (def (u "DeepAnwendungshandbuchSchema"))) j).
  { intros j. assert (E : exists s, P = JObj s /\ dict_get (u "$ref") s = Some (JStr (u "#/definitions/" ++ u "DeepAnwendungshandbuchSchema"))) by (eexists; split; [reflexivity|value]).
    destruct E as (s & E & Es). rewrite E at 2. apply ref_definition; [exact Es|vm_compute; discriminate]. }
  rewrite R. clear R. rewrite (closed_object _ deep_properties []); try value; [|apply distinct; value].
  destruct Dm as (om & -> & Km & Pm & _).
  assert (Cm : conforms P (JObj [(u "$ref", JStr (u "#/definitions/" ++ u "AhbMetaInformationSchema")); (u "type", JStr (u "object"))]) (JObj om)
     <-> forall k, meta_key (JObj o) k -> k = u "pruefidentifikator").
  { rewrite (ref_definition _ (u "AhbMetaInformationSchema")); [|value|vm_compute; discriminate]. rewrite meta_schema. split.
    - intros (_ & Hk) k (o' & m & Eo & Fm' & Hk'). injection Eo as <-. unfold field in *. assert (m = om) as -> by congruence.
      destruct (in_dec str_dec k (map fst om)) as [Hi|Hi]; [|exfalso; apply Hk'; now apply dict_get_None]. destruct (Hk k Hi) as [<-|[]]. reflexivity.
    - intros Hk. split; [eauto|]. intros k Hi. left. symmetry. apply Hk. exists o, om. split; [reflexivity|]. split; [exact Fm|]. intros Hn. apply dict_get_None in Hn. contradiction. }
  assert (Cl : conforms P (snd (list_property (u "lines") (u "SegmentGroupSchema") (JStr (u "array")))) (JList js) <-> forall s, segment_value_of (JObj o) s -> plain_segment s).
  { rewrite list_at; [|vm_compute; discriminate|now left]. split.
    - intros [(l & El & C)|[_ Nt]]; [|congruence]. injection El as <-. intros s (o' & l & g & Eo & Fl' & Hg & Hs). injection Eo as <-. unfold field in *. assert (l = js) as -> by congruence.
      destruct (forall2_in_l _ _ _ _ F2 Hg) as (y & _ & Dy). exact (proj1 (group_schema _ _ _ Dy) (C g Hg) s Hs).
    - intros C. left. exists js. split; [reflexivity|]. intros g Hg. destruct (forall2_in_l _ _ _ _ F2 Hg) as (y & _ & Dy). apply (group_schema _ _ _ Dy). intros s Hs. apply C. exists o, js, g. auto. }
  rewrite <- Cm, <- Cl. split.
  - intros (_ & _ & C). inversion C as [|? ? C1 C2]; subst. inversion C2 as [|? ? C3 _]; subst. split; [exact (C3 _ Fm)|exact (C1 _ Fl)].
  - intros (A & B). split; [intros k []|]. split; [intros k Hk; specialize (K k Hk); change (In k [u "lines"; u "meta"]); cbn [In] in *; tauto|].
    unfold field in *. constructor; [|constructor; [|constructor]]; intros v Hv; cbn [fst list_property] in Hv; [assert (v = JList js) as -> by congruence|assert (v = JObj om) as -> by congruence]; assumption.
Qed.
Print Assumptions C88_conforming_documents.

(** no deep AHB is written as a document that conforms to the published schema *)
Theorem C88_written_documents_never_conform a : ~ conforms published_schema published_schema (dump_deep a).
Proof.
  intros C. assert (E : exists s, P = JObj s /\ dict_get (u "$ref") s = Some (JStr (u "#/definitions/" ++ u "DeepAnwendungshandbuchSchema"))) by (eexists; split; [reflexivity|value]).
  destruct E as (s & E & Es). assert (C' : conforms P (JObj s) (dump_deep a)) by (rewrite <- E; exact C). clear C.
  apply (ref_definition s (u "DeepAnwendungshandbuchSchema")) in C'; [|exact Es|vm_compute; discriminate].
  unfold dump_deep in C'. apply (closed_object _ deep_properties []) in C'; try value; [|apply distinct; value].
  destruct C' as (_ & _ & C). inversion C as [|? ? _ C2]; subst. inversion C2 as [|? ? C3 _]; subst. specialize (C3 (dump_meta (da_meta a)) eq_refl).
  cbn [snd] in C3. apply (ref_definition _ (u "AhbMetaInformationSchema")) in C3; [|value|vm_compute; discriminate].
  unfold dump_meta in C3. apply meta_schema in C3 as (_ & K). specialize (K (u "direction") (or_intror (or_intror (or_intror (or_introl eq_refl))))).
  destruct K as [K|[]]. vm_compute in K. discriminate K.
Qed.
Print Assumptions C88_written_documents_never_conform.


Lemma forall2_in_r {A B} (R : A -> B -> Prop) l m y : Forall2 R l m -> In y m -> exists x, In x l /\ R x y.
Proof. induction 1 as [|a b l m H _ IH]; [intros []|]. intros [<-|Hx]; [exists a; split; [now left|exact H]|]. destruct (IH Hx) as (x & A1 & A2). exists x. split; [now right|exact A2]. Qed.
(** the value of a group is in the value of the group around it *)
Lemma value_inside ca g h : inside g h -> forall j, describes_group ca j g ->
  exists jh, describes_group ca jh h /\ forall s, segment_value jh s -> segment_value j s.
Proof.
  induction 1 as [|h k l _ IH El Hk]; intros j D; [eauto|]. destruct (IH j D) as (jh & Dh & Sh). inversion Dh as [o d e ss gs _ _ _ _ _ Lg]; subst. cbn [g_groups] in El. subst gs.
  inversion Lg as [|js xs Fj F2]; subst. destruct (forall2_in_r _ _ _ _ F2 Hk) as (jk & Hj & Dk). exists jk. split; [exact Dk|]. intros s Hs. apply Sh. now apply (deeper_segment o js jk).
Qed.
(** a document that conforms and can be read is an AHB without data elements *)
Theorem C88_no_data_elements class_attribute j a : load_deep class_attribute j = Ok a -> conforms published_schema published_schema j ->
  forall s, segment_of a s -> seg_elements s = [].
Proof.
  intros H C. apply (C88_conforming_documents _ _ _ H) in C as [_ C]. apply C46_deep_ahb in H as (o & -> & _ & _ & [js Fl F2]).
  intros s (h & (g & Hg & Hi) & (l & El & Hs)). destruct (forall2_in_r _ _ _ _ F2 Hg) as (jg & Hj & Dg). destruct (value_inside _ _ _ Hi _ Dg) as (jh & Dh & Sh).
  inversion Dh as [oh d e ss gs _ _ _ _ Ls _]; subst. cbn [g_segments] in El. subst ss. inversion Ls as [|jss xs Fj F3]; subst.
  destruct (forall2_in_r _ _ _ _ F3 Hs) as (x & Hx & Dx). destruct (C x) as (ox & -> & Fe & _).
  - exists o, js, jg. split; [reflexivity|]. split; [exact Fl|]. split; [exact Hj|]. apply Sh. now apply (own_segment oh jss).
  - destruct Dx as (o' & Eo & _ & _ & _ & [es Fe' Fs] & _). injection Eo as <-. unfold field in *. assert (es = []) as -> by congruence. inversion Fs. reflexivity.
Qed.
Print Assumptions C88_no_data_elements.

(** ** examples *)
Definition ex_conforming : json :=
  JObj [(u "meta", JObj [(u "pruefidentifikator", JStr (u "11042"))]);
        (u "lines", JList [JObj [(u "discriminator", JStr (u "SG4")); (u "ahb_expression", JStr (u "Muss"));
          (u "segments", JList [JObj [(u "discriminator", JStr (u "IDE")); (u "ahb_expression", JStr (u "Muss")); (u "data_elements", JList [])]]);
          (u "segment_groups", JNull)]])].
(** a document that conforms and is read as an AHB with a segment *)
Example C88_instance : exists a, load_deep (fun _ => None) ex_conforming = Ok a
  /\ conforms published_schema published_schema ex_conforming /\ exists s, segment_of a s.
Proof.
  destruct (load_deep (fun _ => None) ex_conforming) as [a|e] eqn:E; [|vm_compute in E; discriminate E]. exists a. split; [reflexivity|]. split.
  - apply (C88_conforming_documents _ _ _ E). split.
    + intros k (o & m & Eo & Fm & Hk). injection Eo as <-. vm_compute in Fm. injection Fm as <-. destruct (str_dec k (u "pruefidentifikator")) as [->|N]; [reflexivity|].
      exfalso. apply Hk. apply dict_get_None. intros [K|[]]. apply N. symmetry. exact K.
    + intros s (o & l & g & Eo & Fl & Hg & Hs). injection Eo as <-. vm_compute in Fl. injection Fl as <-. destruct Hg as [<-|[]].
      inversion Hs as [? l ? F Hi|? l g ? F Hi _]; subst; vm_compute in F; [|discriminate F]. injection F as <-. destruct Hi as [<-|[]].
      eexists. split; [reflexivity|]. split; vm_compute; reflexivity.
  - vm_compute in E. injection E as <-. eexists. eexists. split.
    + eexists. split; [now left|apply inside_self].
    + eexists. split; [reflexivity|now left].
Qed.
(** a written document that is read again, but does not conform *)
Example C88_instance_written : exists a a', ex_deep ex_deep_lines = Ok a /\ load_deep (fun _ => None) (dump_deep a) = Ok a'
  /\ ~ conforms published_schema published_schema (dump_deep a).
Proof.
  destruct (ex_deep ex_deep_lines) as [a|e] eqn:E; [|vm_compute in E; discriminate E]. exists a. destruct (load_deep (fun _ => None) (dump_deep a)) as [a'|e] eqn:E'.
  - exists a'. split; [reflexivity|]. split; [reflexivity|]. apply C88_written_documents_never_conform.
  - exfalso. vm_compute in E. injection E as <-. vm_compute in E'. discriminate E'.
Qed.
