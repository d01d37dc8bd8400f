(** Specification vocabulary: kinds of characters.  A character is a Unicode code point (a number). *)
From Coq Require Import List NArith.
Import ListNotations.
Local Open Scope N_scope.

(** A to Z, a to z, without umlauts, accents or other alphabets *)
Definition capital (c : N) : Prop := 65 <= c <= 90.
Definition small (c : N) : Prop := 97 <= c <= 122.
Definition ascii_digit (c : N) : Prop := 48 <= c <= 57.

(** the zeros of all the scripts that write numbers in the decimal system (Unicode 14); the other nine digits follow them *)
Definition zeros : list N :=
  [48; 1632; 1776; 1984; 2406; 2534; 2662; 2790; 2918; 3046; 3174; 3302; 3430; 3558; 3664; 3792; 3872; 4160; 4240; 6112;
   6160; 6470; 6608; 6784; 6800; 6992; 7088; 7232; 7248; 42528; 43216; 43264; 43472; 43504; 43600; 44016; 65296; 66720;
   68912; 69734; 69872; 69942; 70096; 70384; 70736; 70864; 71248; 71360; 71472; 71904; 72016; 72784; 73040; 73120;
   92768; 92864; 93008; 120782; 120792; 120802; 120812; 120822; 123200; 123632; 125264; 130032].
(** [c] is a decimal digit that stands for [v] *)
Definition decimal_digit (c v : N) : Prop := exists zero, In zero zeros /\ v <= 9 /\ c = zero + v.

(** tab, line feed, vertical tab, form feed, carriage return; the separators 28 to 31; space; next line; no-break space;
    ogham space; the spaces of typography; line and paragraph separators; narrow, mathematical and ideographic space *)
Definition whitespace (c : N) : Prop :=
  In c [9; 10; 11; 12; 13; 28; 29; 30; 31; 32; 133; 160; 5760; 8192; 8193; 8194; 8195; 8196; 8197; 8198; 8199; 8200; 8201;
        8202; 8232; 8233; 8239; 8287; 12288].

(** what the XML recommendation calls Char: no surrogates, no control characters but tab, line feed and carriage return *)
Definition xml_character (c : N) : Prop :=
  c = 9 \/ c = 10 \/ c = 13 \/ 32 <= c <= 55295 \/ 57344 <= c <= 65533 \/ 65536 <= c <= 1114111.
