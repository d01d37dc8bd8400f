(** The grammar of JSON texts (RFC 8259, plus NaN, Infinity and -Infinity) and of UTF-8. *)
From Coq Require Import Ascii String List NArith ZArith Bool.
From Verif Require Import PyBase PyStr M_Components M_Schema S_Text S_FlatAhb S_Csv.
Import ListNotations.
Local Open Scope list_scope.

(** ** JSON texts *)

(** spaces, tabs, line feeds and carriage returns *)
Definition whitespace (w : pystr) : Prop := Forall (fun c => In c [32; 9; 10; 13]%N) w.

(** *** strings *)

(** four hexadecimal digits and their value *)
Inductive hex_digit_is : char -> N -> Prop :=
| hex_09 c : (48 <= c <= 57)%N -> hex_digit_is c (c - 48)
| hex_af c : (97 <= c <= 102)%N -> hex_digit_is c (c - 87)
| hex_AF c : (65 <= c <= 70)%N -> hex_digit_is c (c - 55).
Inductive hex_digits_are : pystr -> N -> Prop :=
| four_digits a b c d x y z w : hex_digit_is a x -> hex_digit_is b y -> hex_digit_is c z -> hex_digit_is d w ->
    hex_digits_are [a; b; c; d] (x * 4096 + y * 256 + z * 16 + w).
(** the escapes with a single letter: the character after the backslash and what it stands for *)
Definition short_escapes : list (char * char) :=
  [(ch """", 34); (ch "\", 92); (ch "/", 47); (ch "b", 8); (ch "f", 12); (ch "n", 10); (ch "r", 13); (ch "t", 9)]%N.
Definition high (n : N) : Prop := (55296 <= n <= 56319)%N.
Definition low (n : N) : Prop := (56320 <= n <= 57343)%N.
(** the text between two quotes and the string it stands for; a high and a low surrogate that follow each other
    as escapes stand for one character *)
Inductive string_text : pystr -> pystr -> Prop :=
| string_end : string_text [] []
| string_char c s t : (32 <= c)%N -> c <> ch """" -> c <> ch "\" -> string_text s t -> string_text (c :: s) (c :: t)
| string_short e c s t : In (e, c) short_escapes -> string_text s t -> string_text (c :: s) (ch "\" :: e :: t)
| string_pair x y n m s t : hex_digits_are x n -> hex_digits_are y m -> high n -> low m -> string_text s t ->
    string_text (65536 + (n - 55296) * 1024 + (m - 56320) :: s)%N (u "\u" ++ x ++ u "\u" ++ y ++ t)
| string_escape x n s t : hex_digits_are x n ->
    ~ (high n /\ exists y m t', hex_digits_are y m /\ low m /\ t = u "\u" ++ y ++ t') ->
    string_text s t -> string_text (n :: s) (u "\u" ++ x ++ t).

(** *** numbers *)
Definition ascii_digits (d : pystr) : Prop := Forall (fun c => 48 <= c <= 57)%N d.
(** the value of decimal digits *)
Inductive decimal_value : pystr -> N -> Prop :=
| no_digits : decimal_value [] 0
| last_digit d n c : decimal_value d n -> decimal_value (d ++ [c]) (10 * n + (c - 48)).
(** no leading zeros *)
Definition integer_digits (d : pystr) : Prop :=
  d = u "0" \/ exists c r, d = c :: r /\ (49 <= c <= 57)%N /\ ascii_digits r.
Definition fraction_text (t : pystr) : Prop := exists d, t = u "." ++ d /\ d <> [] /\ ascii_digits d.
Definition exponent_text (t : pystr) : Prop :=
  exists e sign d, t = e ++ sign ++ d /\ (e = u "e" \/ e = u "E") /\ (sign = [] \/ sign = u "+" \/ sign = u "-")
    /\ d <> [] /\ ascii_digits d.
Definition integer_text (t : pystr) (z : Z) : Prop :=
  exists d n, integer_digits d /\ decimal_value d n /\ (t = d /\ z = Z.of_N n \/ t = u "-" ++ d /\ z = Z.opp (Z.of_N n)).
Definition float_text (t : pystr) : Prop :=
  exists sign d f e, t = sign ++ d ++ f ++ e /\ (sign = [] \/ sign = u "-") /\ integer_digits d
    /\ (fraction_text f /\ (e = [] \/ exponent_text e) \/ f = [] /\ exponent_text e).

(** *** values *)
Section Values.
  (** int(float(literal)), None if that is infinite *)
  Variable float_value : pystr -> option Z.

  Inductive json_text : json -> pystr -> Prop :=
  | text_null : json_text JNull (u "null")
  | text_true : json_text (JBool true) (u "true")
  | text_false : json_text (JBool false) (u "false")
  | text_nan t : In t [u "NaN"; u "Infinity"; u "-Infinity"] -> json_text (JFloat None) t
  | text_integer t z : integer_text t z -> json_text (JInt z) t
  | text_float t : float_text t -> json_text (JFloat (float_value t)) t
  | text_string s t : string_text s t -> json_text (JStr s) (u """" ++ t ++ u """")
  | text_empty_list w : whitespace w -> json_text (JList []) (u "[" ++ w ++ u "]")
  | text_list l t : elements_text l t -> json_text (JList l) (u "[" ++ t ++ u "]")
  | text_empty_object w : whitespace w -> json_text (JObj []) (u "{" ++ w ++ u "}")
  | text_object members o t : members_text members t -> last_wins members o -> json_text (JObj o) (u "{" ++ t ++ u "}")
  (** one or more values, separated by commas *)
  with elements_text : list json -> pystr -> Prop :=
  | last_element v w t w' : whitespace w -> json_text v t -> whitespace w' -> elements_text [v] (w ++ t ++ w')
  | more_elements v w t w' l t' : whitespace w -> json_text v t -> whitespace w' -> elements_text l t' ->
      elements_text (v :: l) (w ++ t ++ w' ++ u "," ++ t')
  (** one or more keys with values, separated by commas *)
  with members_text : list (pystr * json) -> pystr -> Prop :=
  | last_member m w t w' : whitespace w -> member_text m t -> whitespace w' -> members_text [m] (w ++ t ++ w')
  | more_members m w t w' l t' : whitespace w -> member_text m t -> whitespace w' -> members_text l t' ->
      members_text (m :: l) (w ++ t ++ w' ++ u "," ++ t')
  with member_text : pystr * json -> pystr -> Prop :=
  | member k kt w w' v t : string_text k kt -> whitespace w -> whitespace w' -> json_text v t ->
      member_text (k, v) (u """" ++ kt ++ u """" ++ w ++ u ":" ++ w' ++ t).

  Definition document_text (j : json) (t : pystr) : Prop :=
    exists w v w', t = w ++ v ++ w' /\ whitespace w /\ json_text j v /\ whitespace w'.
End Values.

(** ** UTF-8 (RFC 3629) *)

(** code points but surrogates *)
Definition scalar_value (c : char) : Prop := (c < 55296 \/ 57344 <= c < 1114112)%N.
(** [c] in 7, 11, 16 or 21 bits, in the shortest form *)
Inductive utf8_char : char -> list N -> Prop :=
| one_byte c : (c < 128)%N -> utf8_char c [c]
| two_bytes a b : (a < 32)%N -> (b < 64)%N -> (128 <= a * 64 + b)%N -> utf8_char (a * 64 + b)%N [192 + a; 128 + b]%N
| three_bytes a b d : (a < 16)%N -> (b < 64)%N -> (d < 64)%N -> (2048 <= a * 4096 + b * 64 + d)%N ->
    scalar_value (a * 4096 + b * 64 + d)%N -> utf8_char (a * 4096 + b * 64 + d)%N [224 + a; 128 + b; 128 + d]%N
| four_bytes a b d e : (a < 8)%N -> (b < 64)%N -> (d < 64)%N -> (e < 64)%N ->
    (65536 <= a * 262144 + b * 4096 + d * 64 + e)%N -> scalar_value (a * 262144 + b * 4096 + d * 64 + e)%N ->
    utf8_char (a * 262144 + b * 4096 + d * 64 + e)%N [240 + a; 128 + b; 128 + d; 128 + e]%N.
Inductive utf8_text : pystr -> list N -> Prop :=
| utf8_end : utf8_text [] []
| utf8_more c s b b' : utf8_char c b -> utf8_text s b' -> utf8_text (c :: s) (b ++ b').

(** the strings in a JSON value, at any depth, keys included *)
Inductive string_in : json -> pystr -> Prop :=
| in_string s : string_in (JStr s) s
| in_list l j s : In j l -> string_in j s -> string_in (JList l) s
| in_key o k v : In (k, v) o -> string_in (JObj o) k
| in_value o k v s : In (k, v) o -> string_in v s -> string_in (JObj o) s.
(** all characters of all strings can be written in UTF-8 *)
Definition encodable (j : json) : Prop := forall s, string_in j s -> Forall scalar_value s.

(** ** line ends *)

(** the text with all line ends (CR LF, CR, LF) replaced by line feeds *)
Inductive line_feeds : pystr -> pystr -> Prop :=
| feeds_end : line_feeds [] []
| feeds_crlf s t : line_feeds s t -> line_feeds (13 :: 10 :: s)%N (10 :: t)%N
| feeds_cr s t : (forall r, s <> 10%N :: r) -> line_feeds s t -> line_feeds (13 :: s)%N (10 :: t)%N
| feeds_other c s t : c <> 13%N -> line_feeds s t -> line_feeds (c :: s) (c :: t).

(** ** the layout of written texts *)

(** how a character of a string is written: as it is, with the short escape if there is one (but not for the slash), or
    with the hexadecimal number (in lower case) of a control character *)
Inductive written_char : char -> pystr -> Prop :=
| written_as_is c : (32 <= c)%N -> c <> ch """" -> c <> ch "\" -> written_char c [c]
| written_short c e : In (e, c) short_escapes -> e <> ch "/" -> written_char c [ch "\"; e]
| written_control c x y : (c < 32)%N -> (forall e, ~ In (e, c) short_escapes) -> hex_digits_are (u "00" ++ [x; y]) c ->
    ~ (65 <= y <= 70)%N -> written_char c (u "\u00" ++ [x; y]).
Definition written_string (s t : pystr) : Prop := exists ts, Forall2 written_char s ts /\ t = u """" ++ concat ts ++ u """".
(** all lines but the first one moved two characters to the right *)
Definition moved (t : pystr) : pystr := flat_map (fun c => if N.eqb c 10 then [10; 32; 32]%N else [c]) t.
(** items, each on lines of its own and moved to the right, separated by commas *)
Fixpoint item_lines (ts : list pystr) : pystr :=
  match ts with
  | [] => []
  | [t] => moved (10%N :: t)
  | t :: r => moved (10%N :: t) ++ u "," ++ item_lines r
  end.
Inductive laid_out : json -> pystr -> Prop :=
| lay_null : laid_out JNull (u "null")
| lay_true : laid_out (JBool true) (u "true")
| lay_false : laid_out (JBool false) (u "false")
| lay_integer z t : integer_text t z -> t <> u "-0" -> laid_out (JInt z) t
| lay_string s t : written_string s t -> laid_out (JStr s) t
| lay_empty_list : laid_out (JList []) (u "[]")
| lay_list l ts : l <> [] -> Forall2 laid_out l ts -> laid_out (JList l) (u "[" ++ item_lines ts ++ [10%N] ++ u "]")
| lay_empty_object : laid_out (JObj []) (u "{}")
| lay_object o ks vs : o <> [] -> Forall2 written_string (map fst o) ks -> Forall2 laid_out (map snd o) vs ->
    laid_out (JObj o) (u "{" ++ item_lines (map (fun kv => fst kv ++ u ": " ++ snd kv) (combine ks vs)) ++ [10%N] ++ u "}").
