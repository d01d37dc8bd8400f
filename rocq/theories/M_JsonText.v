(** Model of the json module and of text files (CPython 3.11), as far as src/maus/cli.py and
    src/maus/maus_provider.py use them: json.dump(..., indent=2, ensure_ascii=False, sort_keys=True),
    json.load, json.loads, and files opened with encoding="utf-8". *)
From Coq Require Import Ascii String List NArith ZArith Bool.
From Verif Require Import PyBase PyStr M_Components M_Schema M_Cli.
Import ListNotations.
Local Open Scope list_scope.

(** ** reading (Modules/_json.c, used by cli.py:81-84, 102-103 and maus_provider.py:62) *)

(** cli.py:81-84, 102-103 IS_WHITESPACE *)
Definition is_json_space (c : char) : bool := (N.eqb c 32 || N.eqb c 9 || N.eqb c 10 || N.eqb c 13)%bool.
(** cli.py:81-84, 102-103 *)
Fixpoint skip_space (s : pystr) : pystr :=
  match s with
  | [] => []
  | c :: r => if is_json_space c then skip_space r else s
  end.

(** cli.py:81-84, 102-103 value of a hexadecimal digit *)
Definition hex_value (c : char) : option N :=
  (if in_range 48%N 57%N c then Some (c - 48)
   else if in_range 97%N 102%N c then Some (c - 87)
   else if in_range 65%N 70%N c then Some (c - 55)
   else None)%N.
(** cli.py:81-84, 102-103 *)
Definition hex4 (a b c d : char) : option N :=
  match hex_value a, hex_value b, hex_value c, hex_value d with
  | Some a, Some b, Some c, Some d => Some (((a * 16 + b) * 16 + c) * 16 + d)%N
  | _, _, _, _ => None
  end.
(** cli.py:81-84, 102-103 Py_UNICODE_IS_HIGH_SURROGATE, Py_UNICODE_IS_LOW_SURROGATE, Py_UNICODE_JOIN_SURROGATES *)
Definition is_high_surrogate (n : N) : bool := in_range 55296%N 56319%N n.
(** cli.py:81-84, 102-103 *)
Definition is_low_surrogate (n : N) : bool := in_range 56320%N 57343%N n.
(** cli.py:81-84, 102-103 *)
Definition join_surrogates (h l : N) : char := (65536 + (h - 55296) * 1024 + (l - 56320))%N.
(** cli.py:81-84, 102-103 the character after a backslash *)
Definition simple_escape (c : char) : option char :=
  (if c =? 34 then Some 34
   else if c =? 92 then Some 92
   else if c =? 47 then Some 47
   else if c =? 98 then Some 8
   else if c =? 102 then Some 12
   else if c =? 110 then Some 10
   else if c =? 114 then Some 13
   else if c =? 116 then Some 9
   else None)%N.

(** cli.py:81-84, 102-103 one more character in front of the result *)
Definition add_char (c : char) (r : result (pystr * pystr)) : result (pystr * pystr) :=
  match r with Ok (s, rest) => Ok (c :: s, rest) | Raise e => Raise e end.
(** cli.py:81-84, 102-103 scanstring_unicode with strict=True: the text behind the opening quote; returns the string and the
    text behind the closing quote *)
Fixpoint scan_string (s : pystr) : result (pystr * pystr) :=
  match s with
  | [] => Raise ValueError
  | c :: r =>
      if N.eqb c 34 then Ok ([], r)
      else if N.eqb c 92 then
        match r with
        | [] => Raise ValueError
        | e :: r1 =>
            if N.eqb e 117 then
              match r1 with
              | h1 :: h2 :: h3 :: h4 :: r2 =>
                  match hex4 h1 h2 h3 h4 with
                  | None => Raise ValueError
                  | Some n =>
                      if is_high_surrogate n then
                        match r2 with
                        | b :: v :: g1 :: g2 :: g3 :: g4 :: r3 =>
                            if (N.eqb b 92 && N.eqb v 117)%bool then
                              match hex4 g1 g2 g3 g4 with
                              | None => Raise ValueError
                              | Some m => if is_low_surrogate m then add_char (join_surrogates n m) (scan_string r3)
                                          else add_char n (scan_string r2)
                              end
                            else add_char n (scan_string r2)
                        | _ => add_char n (scan_string r2)
                        end
                      else add_char n (scan_string r2)
                  end
              | _ => Raise ValueError
              end
            else match simple_escape e with
                 | Some x => add_char x (scan_string r1)
                 | None => Raise ValueError
                 end
        end
      else if N.ltb c 32 then Raise ValueError
      else add_char c (scan_string r)
  end.

(** cli.py:81-84, 102-103 the digits at the beginning of a text *)
Fixpoint span_digits (s : pystr) : pystr * pystr :=
  match s with
  | [] => ([], [])
  | c :: r => if is_09 c then let (d, rest) := span_digits r in (c :: d, rest) else ([], s)
  end.
(** cli.py:81-84, 102-103 the value of decimal digits 0-9 *)
Definition digits_value (d : pystr) : N := fold_left (fun acc c => acc * 10 + (c - 48))%N d 0%N.

Section Read.
  (** [float_value literal] is int(float(literal)), None if that is infinite *)
  Variable float_value : pystr -> option Z.

  (** cli.py:81-84, 102-103 _match_number_unicode *)
  Definition scan_integer (s : pystr) : result (pystr * pystr) :=
    match s with
    | [] => Raise ValueError
    | c :: r => if in_range 49%N 57%N c then Ok (span_digits s)
                else if N.eqb c 48 then Ok ([c], r)
                else Raise ValueError
    end.
  (** cli.py:81-84, 102-103 *)
  Definition scan_fraction (s : pystr) : pystr * pystr :=
    match s with
    | p :: d :: r => if (N.eqb p 46 && is_09 d)%bool then let (ds, rest) := span_digits (d :: r) in (p :: ds, rest) else ([], s)
    | _ => ([], s)
    end.
  (** cli.py:81-84, 102-103 *)
  Definition scan_exponent (s : pystr) : pystr * pystr :=
    match s with
    | e :: r =>
        if (N.eqb e 101 || N.eqb e 69)%bool then
          let (sign, r1) := match r with
                            | c :: r' => if (N.eqb c 45 || N.eqb c 43)%bool then ([c], r') else ([], r)
                            | [] => ([], r)
                            end in
          let (ds, rest) := span_digits r1 in
          match ds with [] => ([], s) | _ => (e :: sign ++ ds, rest) end
        else ([], s)
    | [] => ([], s)
    end.
  (** cli.py:81-84, 102-103 *)
  Definition scan_number (s : pystr) : result (json * pystr) :=
    let (sign, s1) := match s with c :: r => if N.eqb c 45 then ([c], r) else ([], s) | [] => ([], s) end in
    let* (digits, s2) := scan_integer s1 in
    let (fraction, s3) := scan_fraction s2 in
    let (exponent, s4) := scan_exponent s3 in
    match fraction, exponent with
    | [], [] => let n := Z.of_N (digits_value digits) in Ok (JInt (match sign with [] => n | _ => Z.opp n end), s4)
    | _, _ => Ok (JFloat (float_value (sign ++ digits ++ fraction ++ exponent)), s4)
    end.

  (** cli.py:81-84, 102-103 _scan_once_unicode, _parse_array_unicode, _parse_object_unicode.  [fuel] bounds the number of nested calls;
      every second one consumes a character (that it is never exhausted follows from C72_accepted_texts: all
      JSON texts are accepted).  [acc]: the elements or members found so far, the last one first. *)
  Fixpoint scan_once (fuel : nat) (s : pystr) : result (json * pystr) :=
    match fuel with
    | O => Raise ValueError
    | S f =>
        match s with
        | [] => Raise ValueError
        | c :: r =>
            if N.eqb c 34 then let* (v, rest) := scan_string r in Ok (JStr v, rest)
            else if N.eqb c 123 then
              match skip_space r with
              | d :: r' => if N.eqb d 125 then Ok (JObj [], r') else scan_members f [] (d :: r')
              | [] => Raise ValueError
              end
            else if N.eqb c 91 then
              match skip_space r with
              | d :: r' => if N.eqb d 93 then Ok (JList [], r') else scan_elements f [] (d :: r')
              | [] => Raise ValueError
              end
            else if startswith s (u "null") then Ok (JNull, skipn 4 s)
            else if startswith s (u "true") then Ok (JBool true, skipn 4 s)
            else if startswith s (u "false") then Ok (JBool false, skipn 5 s)
            else if startswith s (u "NaN") then Ok (JFloat None, skipn 3 s)
            else if startswith s (u "Infinity") then Ok (JFloat None, skipn 8 s)
            else if startswith s (u "-Infinity") then Ok (JFloat None, skipn 9 s)
            else scan_number s
        end
    end
  with scan_elements (fuel : nat) (acc : list json) (s : pystr) : result (json * pystr) :=
    match fuel with
    | O => Raise ValueError
    | S f =>
        let* (v, s1) := scan_once f s in
        match skip_space s1 with
        | d :: s2 => if N.eqb d 93 then Ok (JList (rev (v :: acc)), s2)
                     else if N.eqb d 44 then scan_elements f (v :: acc) (skip_space s2)
                     else Raise ValueError
        | [] => Raise ValueError
        end
    end
  with scan_members (fuel : nat) (acc : list (pystr * json)) (s : pystr) : result (json * pystr) :=
    match fuel with
    | O => Raise ValueError
    | S f =>
        match s with
        | q :: r =>
            if N.eqb q 34 then
              let* (k, s1) := scan_string r in
              match skip_space s1 with
              | d :: s2 =>
                  if N.eqb d 58 then
                    let* (v, s3) := scan_once f (skip_space s2) in
                    match skip_space s3 with
                    | d :: s4 => if N.eqb d 125 then Ok (JObj (dict_set k v acc), s4)
                                 else if N.eqb d 44 then scan_members f (dict_set k v acc) (skip_space s4)
                                 else Raise ValueError
                    | [] => Raise ValueError
                    end
                  else Raise ValueError
              | [] => Raise ValueError
              end
            else Raise ValueError
        | [] => Raise ValueError
        end
    end.

  (** cli.py:81-84, 102-103 json.loads and JSONDecoder.decode (json/__init__.py, json/decoder.py) *)
  Definition loads (s : pystr) : result json :=
    if startswith s [65279%N] then Raise ValueError
    else
      let* (j, rest) := scan_once (2 * List.length s + 2) (skip_space s) in
      match skip_space rest with [] => Ok j | _ => Raise ValueError end.
End Read.

(** ** writing (json/encoder.py, used by cli.py:98-99) *)

(** cli.py:98-99 py_encode_basestring *)
Definition encode_char (c : char) : pystr :=
  (if c =? 34 then [92; 34]
   else if c =? 92 then [92; 92]
   else if c =? 10 then [92; 110]
   else if c =? 13 then [92; 114]
   else if c =? 9 then [92; 116]
   else if c =? 12 then [92; 102]
   else if c =? 8 then [92; 98]
   else if c <? 32 then [92; 117] ++ hex 4 c
   else [c])%N.
(** cli.py:98-99 *)
Definition encode_string (s : pystr) : pystr := [34%N] ++ flat_map encode_char s ++ [34%N].
(** cli.py:98-99 *)
Definition newline_indent (level : nat) : pystr := 10%N :: repeat 32%N (2 * level).
(** cli.py:98-99 *)
Fixpoint join (sep : pystr) (l : list pystr) : pystr :=
  match l with
  | [] => []
  | [s] => s
  | s :: r => s ++ sep ++ join sep r
  end.
(** cli.py:98-99 _make_iterencode with indent 2.  A float is never dumped by the schemas. *)
Fixpoint iterencode (level : nat) (j : json) : pystr :=
  match j with
  | JNull => u "null"
  | JBool true => u "true"
  | JBool false => u "false"
  | JInt z => str_of_Z z
  | JFloat _ => []
  | JStr s => encode_string s
  | JList l =>
      match l with
      | [] => u "[]"
      | _ => u "[" ++ newline_indent (S level)
             ++ join (u "," ++ newline_indent (S level)) (map (iterencode (S level)) l)
             ++ newline_indent level ++ u "]"
      end
  | JObj o =>
      match o with
      | [] => u "{}"
      | _ => u "{" ++ newline_indent (S level)
             ++ join (u "," ++ newline_indent (S level))
                     (map (fun kv => match kv with (k, v) => encode_string k ++ u ": " ++ iterencode (S level) v end) o)
             ++ newline_indent level ++ u "}"
      end
  end.
(** cli.py:98-99 json.dumps(j, indent=2, ensure_ascii=False, sort_keys=True) *)
Definition dumps (j : json) : pystr := iterencode 0 (sort_keys j).

(** ** text files *)

(** cli.py:98-99 the UTF-8 codec with errors="strict"; a code point is below 0x110000 *)
Definition is_scalar (c : char) : bool := (N.ltb c 55296 || N.leb 57344 c && N.ltb c 1114112)%bool.
(** cli.py:98-99 *)
Definition encode_utf8_char (c : char) : list N :=
  (if c <? 128 then [c]
   else if c <? 2048 then [192 + c / 64; 128 + c mod 64]
   else if c <? 65536 then [224 + c / 4096; 128 + c / 64 mod 64; 128 + c mod 64]
   else [240 + c / 262144; 128 + c / 4096 mod 64; 128 + c / 64 mod 64; 128 + c mod 64])%N.
(** cli.py:98-99 str.encode("utf-8"): UnicodeEncodeError (a ValueError) for surrogates *)
Definition encode_utf8 (s : pystr) : result (list N) :=
  if forallb is_scalar s then Ok (flat_map encode_utf8_char s) else Raise ValueError.
(** cli.py:81-84, 102-103 a continuation byte *)
Definition is_continuation (b : N) : bool := in_range 128%N 191%N b.
(** cli.py:81-84, 102-103 bytes.decode("utf-8"): UnicodeDecodeError (a ValueError) for everything but the shortest form of a scalar value *)
Fixpoint decode_utf8 (b : list N) : result pystr :=
  match b with
  | [] => Ok []
  | b0 :: r0 =>
      (if b0 <? 128 then let* s := decode_utf8 r0 in Ok (b0 :: s)
       else if in_range 194%N 223%N b0 then
         match r0 with
         | b1 :: r1 => if is_continuation b1 then let* s := decode_utf8 r1 in Ok ((b0 - 192) * 64 + (b1 - 128) :: s)
                       else Raise ValueError
         | _ => Raise ValueError
         end
       else if in_range 224%N 239%N b0 then
         match r0 with
         | b1 :: b2 :: r2 =>
             if is_continuation b1 && is_continuation b2 then
               let c := (b0 - 224) * 4096 + (b1 - 128) * 64 + (b2 - 128) in
               if (2048 <=? c) && is_scalar c then let* s := decode_utf8 r2 in Ok (c :: s) else Raise ValueError
             else Raise ValueError
         | _ => Raise ValueError
         end
       else if in_range 240%N 244%N b0 then
         match r0 with
         | b1 :: b2 :: b3 :: r3 =>
             if is_continuation b1 && is_continuation b2 && is_continuation b3 then
               let c := (b0 - 240) * 262144 + (b1 - 128) * 4096 + (b2 - 128) * 64 + (b3 - 128) in
               if (65536 <=? c) && is_scalar c then let* s := decode_utf8 r3 in Ok (c :: s) else Raise ValueError
             else Raise ValueError
         | _ => Raise ValueError
         end
       else Raise ValueError)%N
  end.
(** cli.py:81-84, 102-103 reading with newline=None: all line ends become line feeds *)
Fixpoint universal_newlines (s : pystr) : pystr :=
  match s with
  | [] => []
  | c :: r =>
      if N.eqb c 13 then
        match r with
        | d :: r' => if N.eqb d 10 then 10%N :: universal_newlines r' else 10%N :: universal_newlines r
        | [] => [10%N]
        end
      else c :: universal_newlines r
  end.

Section TextFiles.
  Variable float_value : pystr -> option Z.
  (** what is in a file if writing the text has failed *)
  Variable left_over : pystr -> list N.

  (** cli.py:81-84, 102-103 json.load(open(path, "r", encoding="utf-8")), where [b] are the bytes of the file *)
  Definition parse_json_file (b : list N) : result json :=
    let* s := decode_utf8 b in loads float_value (universal_newlines s).
  (** cli.py:98-99 json.dump into open(path, "w", encoding="utf-8"); [j] has sorted keys (M_Cli.v).  Line feeds are
      written as they are (os.linesep of Linux). *)
  Definition write_json_file (j : json) : list N * result unit :=
    match encode_utf8 (iterencode 0 j) with
    | Ok b => (b, Ok tt)
    | Raise e => (left_over (iterencode 0 j), Raise e)
    end.
End TextFiles.
