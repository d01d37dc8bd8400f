(** Model of src/maus/reader/tree_to_sgh.py, with the parts of lark 1.2.2 it uses.

    All names of the grammar but [start] are upper case, that is terminals, so lark makes one regular expression of
    them: every terminal is written out where it is used, [x?], [\[x\]] become (?:x)?, x* becomes (?:x)*, and the
    alternatives are sorted by their widths (lark/load_grammar.py TerminalTreeToPattern).  No search order matters
    for the theorems about this module but that of the outermost repetitions. *)
From Coq Require Import Ascii String List NArith Bool.
From Verif Require Import PyBase PyStr PyRe M_JsonText.
Import ListNotations.
Local Open Scope list_scope.

(** ** tree_to_sgh.py:17-42 [GRAMMAR] *)

(** tree_to_sgh.py:17-42 the terminals and operators of the grammar *)
Definition chr (a : ascii) : re := RChar (N.eqb (ch a)).
(** tree_to_sgh.py:17-42 *)
Fixpoint RAlts (a : re) (l : list re) : re :=
  match l with [] => a | b :: r => RAlt a (RAlts b r) end.

(** tree_to_sgh.py:39 lark/grammars/common.lark [INT]: DIGIT+, [DIGIT]: "0".."9" *)
Definition INT : re := RPlus (RChar is_09).
(** tree_to_sgh.py:38 *)
Definition SEGMENT_GROUP_KEY : re := RAlts (RSeq (RLit (u "SG")) INT) [RLit (u "UNH"); RLit (u "UNB")].
(** tree_to_sgh.py:36 *)
Definition OBLIG_MARK : re := RAlts (chr "M") [chr "R"; chr "N"; chr "C"; chr "D"; chr "O"].
(** tree_to_sgh.py:35 *)
Definition CHARACTER_SET : re := RAlts (RLit (u "an")) [RLit (u "nn"); RLit (u "np"); RLit (u "aa")].
(** tree_to_sgh.py:34 *)
Definition COMPOSITE_LENGTH : re := INT.
(** tree_to_sgh.py:33 /[A-Za-z\d\-_]+/ *)
Definition is_entry_letter (c : char) : bool :=
  is_AZ c || is_az c || is_decimal c || N.eqb c (ch "-") || N.eqb c (ch "_").
(** tree_to_sgh.py:33 *)
Definition VALUE_POOL_ENTRY : re := RPlus (RChar is_entry_letter).
(** tree_to_sgh.py:32 *)
Definition VALUE_POOL : re :=
  RSeq (chr "{") (RSeq VALUE_POOL_ENTRY (RSeq (RStar true (RSeq (chr ".") VALUE_POOL_ENTRY)) (chr "}"))).
(** tree_to_sgh.py:31 *)
Definition COMPOSITE : re :=
  RSeq OBLIG_MARK (ROpt (RSeq CHARACTER_SET (ROpt (RSeq COMPOSITE_LENGTH (ROpt VALUE_POOL))))).
(** tree_to_sgh.py:30 *)
Definition COMPOSITE_CHAIN : re := RSeq COMPOSITE (RStar true (RSeq (chr "*") COMPOSITE)).
(** tree_to_sgh.py:29 *)
Definition MULTIPLE_DATA_ELEMENTS : re := RSeq COMPOSITE_CHAIN (RStar true (RSeq (chr "+") COMPOSITE_CHAIN)).
(** tree_to_sgh.py:28 /[A-Z]{3,}/ *)
Definition SEGMENT_KEY : re := RSeq (RRep 3 (RChar is_AZ)) (RStar true (RChar is_AZ)).
(** tree_to_sgh.py:27 *)
Definition CONDITION_BODY : re :=
  RSeq SEGMENT_KEY (RSeq (chr "#") (RSeq INT (RSeq (chr "#") (RSeq INT (RSeq (ROpt (chr "!"))
    (RSeq (chr "=") VALUE_POOL_ENTRY)))))).
(** tree_to_sgh.py:26 *)
Definition CONDITION : re :=
  RSeq (chr "(") (RSeq CONDITION_BODY (RSeq (RStar true (RSeq (chr "|") CONDITION_BODY)) (chr ")"))).
(** tree_to_sgh.py:25 *)
Definition CONDITIONED_DATA_ELEMENTS_SWITCH : re :=
  RSeq CONDITION (RSeq MULTIPLE_DATA_ELEMENTS (ROpt (chr "|"))).
(** tree_to_sgh.py:24 *)
Definition INTERNATIONAL_BDEW_TUPLE : re :=
  RSeq (RAlt (RSeq MULTIPLE_DATA_ELEMENTS (chr ";")) (RStar true CONDITIONED_DATA_ELEMENTS_SWITCH))
       (RAlt MULTIPLE_DATA_ELEMENTS (RStar true CONDITIONED_DATA_ELEMENTS_SWITCH)).
(** tree_to_sgh.py:23 *)
Definition INTERNATIONAL_BDEW_TUPLE_CHAIN : re :=
  RSeq INTERNATIONAL_BDEW_TUPLE (RStar true (RSeq (chr ";") INTERNATIONAL_BDEW_TUPLE)).
(** tree_to_sgh.py:22 *)
Definition SEGMENT : re := RSeq SEGMENT_KEY (RSeq (chr "[") (RSeq INTERNATIONAL_BDEW_TUPLE_CHAIN (chr "]"))).
(** tree_to_sgh.py:21 *)
Definition SEGMENT_GROUP_REFERENCE : re :=
  RSeq SEGMENT_GROUP_KEY (RSeq (chr "[") (RSeq OBLIG_MARK (RSeq (chr ";") (RSeq OBLIG_MARK (chr "]"))))).
(** tree_to_sgh.py:20 *)
Definition SEGMENT_GROUP : re :=
  RSeq (ROpt (RSeq SEGMENT_GROUP_KEY (ROpt (chr ":"))))
       (RSeq SEGMENT (RStar true (RSeq (chr ",") (RAlt SEGMENT SEGMENT_GROUP_REFERENCE)))).
(** tree_to_sgh.py:37 *)
Definition ROOT_NODE : re := chr "/".
(** tree_to_sgh.py:19 *)
Definition SEGMENT_GROUP_CHAIN : re :=
  RSeq ROOT_NODE (RSeq (chr ":") (RSeq SEGMENT_GROUP (RStar true (RSeq (RChar (N.eqb chr_newline)) SEGMENT_GROUP)))).
(** tree_to_sgh.py:40-41, lark/grammars/common.lark [WS]: /[ \t\f\r\n]/+ *)
Definition is_ws (c : char) : bool :=
  N.eqb c 32 || N.eqb c 9 || N.eqb c 12 || N.eqb c 13 || N.eqb c 10.

(** ** lark *)

(** tree_to_sgh.py:40-41 WS.match: the whitespace is as long as possible *)
Fixpoint skip_ws (s : pystr) : pystr :=
  match s with [] => [] | c :: r => if is_ws c then skip_ws r else s end.

(** tree_to_sgh.py:43, 60 lark/parsers/xearley.py [Parser._parse] and lark/parsers/earley.py [Parser.parse] for the grammar with the only
    rule [?start: SEGMENT_GROUP_CHAIN], of which [?] leaves the token: at every position the expected terminal is
    matched by [re.match] (one match per position, since the lexer is "dynamic"); ignored whitespace carries the
    expectation, or the finished start symbol, to its end.  A text without a parse raises UnexpectedCharacters or
    UnexpectedEOF, both LarkErrors.  In front of whitespace the terminal is tried as well, but it begins with "/". *)
Definition lark_parse (text : pystr) : result pystr :=
  let s := skip_ws text in
  match re_match SEGMENT_GROUP_CHAIN s with
  | None => Raise LarkError
  | Some st => match skip_ws (st_rest st) with [] => Ok (firstn (st_pos st) s) | _ => Raise LarkError end
  end.

(** ** the file system *)

(** tree_to_sgh.py:54-55, 81-88 a file with its bytes, or a directory with its entries (of distinct names) *)
Inductive node : Type :=
| File (bytes : list N)
| Directory (entries : list (pystr * node)).

(** tree_to_sgh.py:53-55 open(path, "r", encoding="utf-8") and read(); [None]: there is no such file.  Opening a
    directory raises IsADirectoryError, an OSError. *)
Definition read_text (n : option node) : result pystr :=
  match n with
  | None => Raise FileNotFoundError
  | Some (Directory _) => Raise OSError
  | Some (File b) => let* s := decode_utf8 b in Ok (universal_newlines s)
  end.

(** ** tree_to_sgh.py:46-61 [read_tree] *)

(** tree_to_sgh.py:46-61 the argument: a path (with what is there), a string, or something else *)
Inductive tree_argument : Type :=
| TreePath (n : option node)
| TreeStr (s : pystr)
| TreeOther.

(** tree_to_sgh.py:46-61 *)
Definition read_tree (tree : tree_argument) : result pystr :=
  let* tree_str := match tree with
                   | TreePath n => read_text n
                   | TreeStr s => Ok s
                   | TreeOther => Raise ValueError
                   end in
  lark_parse tree_str.

(** tree_to_sgh.py:67-72 [check_file_can_be_parsed_as_tree] *)
Definition check_file_can_be_parsed_as_tree (file : option node) : result unit :=
  let* _ := read_tree (TreePath file) in Ok tt.

(** tree_to_sgh.py:85 sorted(paths, reverse=True) of the paths of one directory: paths are compared part by part, so that the names
    decide, by code points; names are distinct *)
Fixpoint insert_reverse (e : pystr * node) (l : list (pystr * node)) : list (pystr * node) :=
  match l with
  | [] => [e]
  | x :: r => if str_leb (fst x) (fst e) then e :: l else x :: insert_reverse e r
  end.
(** tree_to_sgh.py:85 *)
Fixpoint sorted_reverse (l : list (pystr * node)) : list (pystr * node) :=
  match l with [] => [] | e :: r => insert_reverse e (sorted_reverse r) end.

(** tree_to_sgh.py:75-89 [check_youngest_tree_is_parseable]; dir_path.glob("*.tree") yields the entries, of any kind,
    whose names end with .tree *)
Definition check_youngest_tree_is_parseable (dir_path : option node) : result unit :=
  match dir_path with
  | None => Ok tt
  | Some (File _) => Raise ValueError
  | Some (Directory entries) =>
      match sorted_reverse (filter (fun e => endswith (fst e) (u ".tree")) entries) with
      | [] => Ok tt
      | e :: _ => check_file_can_be_parsed_as_tree (Some (snd e))
      end
  end.
