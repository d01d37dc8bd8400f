(** Specification vocabulary: MIGs as XML. *)
From Coq Require Import Ascii String List NArith ZArith Bool Sorted.
From Verif Require Import PyBase PyStr M_Components M_Navigation M_Xml S_Text.
Import ListNotations.
Local Open Scope list_scope.

(** ** references to qualifiers, e.g. QTY:1:1[1:0=265|1:0=Z10] *)

(** a non-empty string of characters of a class *)
Definition word (p : char -> bool) (s : pystr) : Prop := s <> [] /\ all p s.
Definition number : pystr -> Prop := word is_decimal.
Definition qualifier_text : pystr -> Prop := word (fun c => is_AZ c || is_decimal c).
(** 1 or (1,2) *)
Definition place (m : pystr) : Prop :=
  number m \/ exists a b, number a /\ number b /\ m = u "(" ++ a ++ u "," ++ b ++ u ")".
(** CODE:n:m[inner], possibly with a line feed behind it *)
Definition bracketed (s inner : pystr) : Prop :=
  exists code n m tail, word is_AZ code /\ number n /\ place m /\ maybe_newline tail
    /\ s = code ++ u ":" ++ n ++ u ":" ++ m ++ u "[" ++ inner ++ u "]" ++ tail.
(** a:b or a:b:c, ..., possibly with a colon at the end; the names are words *)
Definition colon_path (path : pystr) : Prop :=
  exists ws w end_, ws <> [] /\ Forall (word is_word) ws /\ word is_word w /\ (end_ = [] \/ end_ = u ":")
    /\ path = flat_map (fun x => x ++ u ":") ws ++ w ++ end_.
(** the shape with one qualifier *)
Definition one_qualifier (s q : pystr) : Prop :=
  exists path, colon_path path /\ qualifier_text q /\ bracketed s (path ++ u "=" ++ q).
(** e.g. 1:0=265 or LOC:1:0=Z10 *)
Definition item (i q : pystr) : Prop :=
  exists p a b, (p = [] \/ exists c, word is_AZ c /\ p = c ++ u ":") /\ number a /\ number b /\ qualifier_text q
    /\ i = p ++ a ++ u ":" ++ b ++ u "=" ++ q.
Fixpoint joined (sep : pystr) (l : list pystr) : pystr :=
  match l with
  | [] => []
  | [x] => x
  | x :: r => x ++ sep ++ joined sep r
  end.
(** the shape with many qualifiers, separated by | *)
Definition many_qualifiers (s : pystr) (qs : list pystr) : Prop :=
  exists items, items <> [] /\ Forall2 item items qs /\ bracketed s (joined (u "|") items).
(** a reference to the qualifiers [qs] *)
Definition refers_to (s : pystr) (qs : list pystr) : Prop :=
  (exists q, one_qualifier s q /\ qs = [q]) \/ many_qualifiers s qs.

(** what the code accepts in addition: the separators behind the items are optional *)
Definition loose_items (inner : pystr) : Prop :=
  exists items : list (pystr * pystr), items <> [] /\ Forall (fun x => (exists q, item (fst x) q) /\ (snd x = [] \/ snd x = u "|")) items
    /\ inner = flat_map (fun x => fst x ++ snd x) items.
Definition loose_reference (s inner : pystr) : Prop := loose_items inner /\ bracketed s inner.
(** the text between the first and the second "=" *)
Definition behind_equals (piece q : pystr) : Prop :=
  exists a rest, piece = a ++ u "=" ++ q ++ rest /\ ~ In (ch "=") a /\ ~ In (ch "=") q
    /\ (rest = [] \/ exists r, rest = u "=" ++ r).
(** [pieces] are the parts of [s] between the separators *)
Definition parts_of (sep : char) (s : pystr) (pieces : list pystr) : Prop :=
  pieces <> [] /\ s = joined [sep] pieces /\ Forall (fun p => ~ In sep p) pieces.

(** ** elements *)

(** the value of an attribute (an attribute occurs once in a document) *)
Definition carries (e : element) (key value : pystr) : Prop :=
  exists before after, el_attrib e = before ++ (key, value) :: after /\ ~ In key (map fst before).
Definition lacks (e : element) (key : pystr) : Prop := ~ In key (map fst (el_attrib e)).

(** ** names *)

(** what does not matter in a name: spaces, dashes and line feeds *)
Definition is_separator (c : char) : bool := (N.eqb c 32 || N.eqb c 45 || N.eqb c 10)%N%bool.
Definition letters (s : pystr) : pystr := filter (fun c => negb (is_separator c)) s.
Definition sharp_s : char := 223%N.
(** the only letter whose lower case depends on its neighbours *)
Definition capital_sigma : char := 931%N.
(** lower case, with ss for sharp s *)
Definition folded (c : char) : pystr := if str_eqb (lower [c]) [sharp_s] then u "ss" else lower [c].
Definition no_name (x : option pystr) : Prop := x = None \/ x = Some [].

(** ** trees that differ in names only; [f] tells how the names are changed *)
Inductive same_but_names (f : pystr -> pystr) : element -> element -> Prop :=
| same_but tag attributes attributes' text children children' :
    Forall2 (fun a a' => fst a = fst a'
               /\ (fst a = u "name" \/ fst a = u "ahbName" -> snd a' = f (snd a))
               /\ (fst a <> u "name" -> fst a <> u "ahbName" -> snd a' = snd a)) attributes attributes' ->
    Forall2 (same_but_names f) children children' ->
    same_but_names f (Element tag attributes text children) (Element tag attributes' text children').
(** as in every XML document an element has no attribute twice *)
Inductive unique_attributes : element -> Prop :=
| unique tag attributes text children :
    NoDup (map fst attributes) -> Forall unique_attributes children ->
    unique_attributes (Element tag attributes text children).

(** ** positions: the indices of the children on the way from the root *)

(** [es]: the elements on the way to the position, without the root *)
Inductive way : element -> list nat -> list element -> Prop :=
| way_end e : way e [] []
| way_step e i c p es : nth_error (el_children e) i = Some c -> way c p es -> way e (i :: p) (c :: es).

(** ** stacks *)

(** the value of the first of the attributes that the element has *)
Definition first_carried (keys : list pystr) (e : element) (v : pystr) : Prop :=
  exists before k after, keys = before ++ k :: after /\ Forall (lacks e) before /\ carries e k v.
Definition name_attributes (e : element) : list pystr :=
  if str_eqb (el_tag e) (u "class") then [u "migName"; u "ahbName"; u "name"] else [u "ahbName"; u "name"; u "migName"].
Definition nameless (e : element) : Prop := Forall (lacks e) (name_attributes e).
(** the levels that belong to the elements; an element without a name inherits [above] *)
Inductive levels_for : option pystr -> list element -> list StackLevel -> Prop :=
| no_levels above : levels_for above [] []
| named above e n g es ls :
    first_carried (name_attributes e) e n -> (g = true <-> el_tag e = u "class") -> levels_for (Some n) es ls ->
    levels_for above (e :: es) (mkLevel n g None :: ls)
| inherited n e g es ls :
    nameless e -> (g = true <-> el_tag e = u "class") -> levels_for (Some n) es ls ->
    levels_for (Some n) (e :: es) (mkLevel n g None :: ls).

(** ** finding the element of a location *)

Inductive at_position : element -> list nat -> element -> Prop :=
| at_root e : at_position e [] e
| at_child e i c p f : nth_error (el_children e) i = Some c -> at_position c p f -> at_position e (i :: p) f.

(** the qualifiers that the code reads from an attribute value *)
Definition qualifiers_in (s : pystr) (qs : list pystr) : Prop :=
  (exists q, one_qualifier s q /\ qs = [q])
  \/ ((forall q, ~ one_qualifier s q)
      /\ exists inner pieces, loose_reference s inner /\ parts_of (ch "|") inner pieces /\ Forall2 behind_equals pieces qs).
(** the last separator has nothing behind it *)
Definition unreadable (s : pystr) : Prop :=
  (forall q, ~ one_qualifier s q) /\ exists inner, loose_reference s (inner ++ u "|").
(** the qualifier is among those of the attribute *)
Definition mentions (e : element) (key q : pystr) : Prop :=
  exists s qs, carries e key s /\ qualifiers_in s qs /\ In q qs.
Definition mentions_at (root : element) (p : list nat) (key : pystr) (q : option pystr) : Prop :=
  exists e v, at_position root p e /\ q = Some v /\ mentions e key v.
Definition readable (e : element) (key : pystr) : Prop := forall s, carries e key s -> ~ unreadable s.
Definition readable_at (root : element) (p : list nat) (key : pystr) : Prop := forall e, at_position root p e -> readable e key.

(** the children of the element at [p] with the tag and the attribute, in document order *)
Definition children_with (root : element) (p : list nat) (tag key value : pystr) (is : list nat) : Prop :=
  StronglySorted lt is
  /\ forall i, In i is <-> exists c, at_position root (p ++ [i]) c /\ el_tag c = tag /\ carries c key value.
Definition classes (root : element) (p : list nat) (ref : pystr) : list nat -> Prop := children_with root p (u "class") (u "ref") ref.

(** the first of the children whose key mentions the qualifier *)
Definition first_mentioning (root : element) (p : list nat) (q : option pystr) (is : list nat) (i : nat) : Prop :=
  exists a b, is = a ++ i :: b /\ mentions_at root (p ++ [i]) (u "key") q /\ Forall (fun j => ~ mentions_at root (p ++ [j]) (u "key") q) a.
Definition none_mentioning (root : element) (p : list nat) (q : option pystr) (is : list nat) : Prop :=
  Forall (fun j => ~ mentions_at root (p ++ [j]) (u "key") q) is.
Definition all_readable (root : element) (p : list nat) (key : pystr) (is : list nat) : Prop :=
  Forall (fun j => readable_at root (p ++ [j]) key) is.

(** the value of ref that belongs to a layer *)
Definition ref_of_layer (y : Layer) : pystr :=
  match ly_key y with
  | None => u "UNH"
  | Some [] => u "UNH"
  | Some k => k
  end.
(** the way through the group classes: the only class with the key of the layer, or the
    first one that mentions the opening qualifier if there are several *)
Inductive enters (root : element) : list nat -> list Layer -> list nat -> Prop :=
| arrived p : enters root p [] p
| the_only_class p y ys i q :
    classes root p (ref_of_layer y) [i] -> enters root (p ++ [i]) ys q -> enters root p (y :: ys) q
| one_of_the_classes p y ys is i q :
    classes root p (ref_of_layer y) is -> List.length is >= 2 ->
    first_mentioning root p (ly_qualifier y) is i -> all_readable root p (u "key") is ->
    enters root (p ++ [i]) ys q -> enters root p (y :: ys) q.

(** the class of the segment below the group [g], or the group itself; [clear]: there is
    no competing class of the segment *)
Inductive segment_class (root : element) (l : Location) (g : list nat) : list nat -> bool -> Prop :=
| no_segment : lo_segment l = None \/ lo_segment l = Some (u "UNH") -> segment_class root l g g true
| no_class code : lo_segment l = Some code -> code <> u "UNH" -> classes root g code [] -> segment_class root l g g true
| one_class code i : lo_segment l = Some code -> code <> u "UNH" -> classes root g code [i] -> segment_class root l g (g ++ [i]) true
| many_classes code is i ys y :
    lo_segment l = Some code -> code <> u "UNH" -> classes root g code is -> List.length is >= 2 ->
    lo_layers l = ys ++ [y] -> first_mentioning root g (ly_qualifier y) is i ->
    (forall a b, is = a ++ i :: b -> all_readable root g (u "key") (a ++ [i])) ->
    segment_class root l g (g ++ [i]) false
| no_mentioning_class code is ys y :
    lo_segment l = Some code -> code <> u "UNH" -> classes root g code is -> List.length is >= 2 ->
    lo_layers l = ys ++ [y] -> none_mentioning root g (ly_qualifier y) is -> all_readable root g (u "key") is ->
    segment_class root l g g true.

(** the field with the data element ID: the only one, or the only one that mentions the
    qualifier *)
Inductive field_of (root : element) (l : Location) (id : pystr) (s : list nat) : list nat -> Prop :=
| the_only_field k : children_with root s (u "field") (u "meta.id") id [k] -> field_of root l id s (s ++ [k])
| the_mentioning_field ks k q :
    children_with root s (u "field") (u "meta.id") id ks -> List.length ks >= 2 -> lo_qualifier l = Some q ->
    In k ks -> (forall k', In k' ks -> mentions_at root (s ++ [k']) (u "ref") (Some q) <-> k' = k) -> all_readable root s (u "ref") ks ->
    field_of root l id s (s ++ [k]).

(** the element that belongs to a location *)
Definition described (root : element) (l : Location) (p : list nat) : Prop :=
  exists slash g s clear,
    classes root [] (u "/") [slash] /\ enters root [slash] (lo_layers l) g /\ segment_class root l g s clear
    /\ match lo_element l with
       | None => clear = true /\ p = g
       | Some id => field_of root l id s p
       end.

(** every key and every ref of the document can be read *)
Definition readable_document (root : element) : Prop :=
  forall p e, at_position root p e -> readable e (u "key") /\ readable e (u "ref").

(** ** descending by tags and attributes: from [p] to [q] there is a child for every
    (tag, attribute, value) *)
Inductive descends (root : element) : list nat -> list (pystr * pystr * pystr) -> list nat -> Prop :=
| stays p : descends root p [] p
| goes_down p i c tag key value rest q :
    at_position root (p ++ [i]) c -> el_tag c = tag -> carries c key value ->
    descends root (p ++ [i]) rest q -> descends root p ((tag, key, value) :: rest) q.
Definition class_with (ref : pystr) : pystr * pystr * pystr := (u "class", u "ref", ref).
Definition field_with (id : pystr) : pystr * pystr * pystr := (u "field", u "meta.id", id).
(** what lies between the group and the element that belongs to the location *)
Definition behind_group (l : Location) (rest : list (pystr * pystr * pystr)) : Prop :=
  match lo_element l with
  | None => rest = []
  | Some id => rest = [field_with id] \/ exists code, lo_segment l = Some code /\ rest = [class_with code; field_with id]
  end.
