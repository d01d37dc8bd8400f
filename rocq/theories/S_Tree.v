(** Specification vocabulary: texts in the .tree format ([node], a file or directory, is defined in M_Tree.v). *)
From Coq Require Import Ascii String List NArith Bool.
From Verif Require Import PyStr S_Text S_DeepAhb M_Tree.
Import ListNotations.
Local Open Scope list_scope.

(** one or more texts of the kind [P], with [sep] between them *)
Definition joined (sep : pystr) (P : pystr -> Prop) (w : pystr) : Prop :=
  exists x l, P x /\ Forall P l /\ w = x ++ concat (map (fun y => sep ++ y) l).

(** 0 to 9 *)
Definition numeral (w : pystr) : Prop := w <> [] /\ all is_09 w.
(** e.g. SG12 *)
Definition group_key (w : pystr) : Prop := w = u "UNH" \/ w = u "UNB" \/ exists n, numeral n /\ w = u "SG" ++ n.
(** e.g. NAD *)
Definition segment_key (w : pystr) : Prop := 3 <= List.length w /\ all is_AZ w.
Definition mark (w : pystr) : Prop := In w (map u ["M"; "R"; "N"; "C"; "D"; "O"]%string).
Definition character_set (w : pystr) : Prop := In w (map u ["an"; "nn"; "np"; "aa"]%string).
(** letters, digits, dash and underscore, e.g. H2_ENGY *)
Definition entry (w : pystr) : Prop :=
  w <> [] /\ Forall (fun c => is_AZ c = true \/ is_az c = true \/ is_decimal c = true \/ [c] = u "-" \/ [c] = u "_") w.

(** e.g. {EM.FX.TE} *)
Definition entries (w : pystr) : Prop := exists v, joined (u ".") entry v /\ w = u "{" ++ v ++ u "}".
(** e.g. M, Man, Man3, Man3{EM.FX.TE} *)
Definition composite (w : pystr) : Prop :=
  exists m s n e, w = m ++ s ++ n ++ e /\ mark m
    /\ (s = [] \/ character_set s)
    /\ (n = [] \/ s <> [] /\ numeral n)
    /\ (e = [] \/ n <> [] /\ entries e).
(** e.g. C*Man3+R*Man35*N *)
Definition data_elements : pystr -> Prop := joined (u "+") (joined (u "*") composite).

(** e.g. NAD#1#0=MR, NAD#1#0!=MR *)
Definition comparison (w : pystr) : Prop :=
  exists k i j n e, w = k ++ u "#" ++ i ++ u "#" ++ j ++ n ++ u "=" ++ e
    /\ segment_key k /\ numeral i /\ numeral j /\ (n = [] \/ n = u "!") /\ entry e.
(** e.g. (NAD#1#0=MR)C*Man3|, where the bar may be left out *)
Definition conditioned (w : pystr) : Prop :=
  exists c d b, w = u "(" ++ c ++ u ")" ++ d ++ b
    /\ joined (u "|") comparison c /\ data_elements d /\ (b = [] \/ b = u "|").
(** some (or no) conditioned data elements, then data elements without a condition (or none) *)
Definition part (w : pystr) : Prop :=
  exists l d, w = concat l ++ d /\ Forall conditioned l /\ (d = [] \/ data_elements d).
(** e.g. NAD[M;M;C*Man3;R*Man3] *)
Definition segment (w : pystr) : Prop :=
  exists k b, w = k ++ u "[" ++ b ++ u "]" /\ segment_key k /\ joined (u ";") part b.
(** e.g. SG2[C;R] *)
Definition reference (w : pystr) : Prop :=
  exists k a b, w = k ++ u "[" ++ a ++ u ";" ++ b ++ u "]" /\ group_key k /\ mark a /\ mark b.

(** e.g. SG2:NAD[M;M;C*Man3;R*Man3],SG3[C;C] *)
Definition group_line (w : pystr) : Prop :=
  exists h s l, w = h ++ s ++ concat (map (fun x => u "," ++ x) l)
    /\ (h = [] \/ exists k, group_key k /\ (h = k \/ h = k ++ u ":"))
    /\ segment s /\ Forall (fun x => segment x \/ reference x) l.
(** /: and then lines *)
Definition tree_text (w : pystr) : Prop := exists v, w = u "/:" ++ v /\ joined [chr_newline] group_line v.

(** blank, tab, form feed, carriage return, line feed *)
Definition layout (c : char) : Prop := In c [32; 9; 12; 13; 10]%N.

(** the name ends with .tree *)
Definition tree_name (name : pystr) : Prop := exists base, name = base ++ u ".tree".
(** the entry with the last of these names, compared by code points *)
Definition last_tree (entries : list (pystr * node)) (name : pystr) (n : node) : Prop :=
  In (name, n) entries /\ tree_name name
  /\ forall name' n', In (name', n') entries -> tree_name name' -> (name', n') = (name, n) \/ code_point_less name' name.
