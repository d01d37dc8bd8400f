(** Model of src/maus/division_helper.py and src/maus/edifact.py. *)
From Coq Require Import Ascii String List NArith Bool.
From Verif Require Import PyBase PyStr PyRe M_Components.
Import ListNotations.

(** ** division_helper.py *)

(** division_helper.py:9-15 [Division] *)
Inductive Division : Set := ELECTRICITY | GAS.

(** division_helper.py:31-39 [is_gas_name] called with _is_recursive=True: the second
    condition is never evaluated.  The two functions call each other with a recursion depth of
    at most one, which is why the recursive calls are definitions of their own. *)
Definition is_gas_name_recursive (field_name : pystr) : option bool :=
  if contains (lower field_name) (u "gas") then Some true else None.
(** division_helper.py:42-50 [is_electricity_name] called with _is_recursive=True *)
Definition is_electricity_name_recursive (field_name : pystr) : option bool :=
  if contains (lower field_name) (u "strom") then Some true else None.

(** division_helper.py:24-27 the test [x is True] *)
Definition is_true (x : option bool) : bool := match x with Some true => true | _ => false end.

(** division_helper.py:31-39 [is_gas_name] *)
Definition is_gas_name (field_name : pystr) : option bool :=
  if contains (lower field_name) (u "gas") then Some true
  else if is_true (is_electricity_name_recursive field_name) then Some false
  else None.
(** division_helper.py:42-50 [is_electricity_name] *)
Definition is_electricity_name (field_name : pystr) : option bool :=
  if contains (lower field_name) (u "strom") then Some true
  else if is_true (is_gas_name_recursive field_name) then Some false
  else None.

(** division_helper.py:18-28 [get_division] *)
Definition get_division (field_name : option pystr) : option Division :=
  match field_name with
  | None => None
  | Some s =>
      if negb (truthy s) then None
      else if is_true (is_gas_name s) then Some GAS
      else if is_true (is_electricity_name s) then Some ELECTRICITY
      else None
  end.

(** ** edifact.py *)

(** edifact.py:15-21 [is_edifact_boilerplate] *)
Definition is_edifact_boilerplate (segment_code : option pystr) : bool :=
  match segment_code with
  | None => true
  | Some s => if negb (truthy s) then true else str_in (strip s) [u "UNT"; u "UNZ"]
  end.

(** edifact.py:11 [_PRUEFI_REGEX] ^[1-9]\d{4}$ *)
Definition is_19 : char -> bool := in_range 49%N 57%N.
(** edifact.py:11 *)
Definition re_PRUEFI : re := RSeq RBol (RSeq (RChar is_19) (RSeq (RRep 4 (RChar is_decimal)) REol)).

Section EdiMetaData.
(** efoli.EdifactFormat and efoli.EdifactFormatVersion are enumerations of another package;
    efoli.get_format_of_pruefidentifikator is an arbitrary function that may raise *)
Variables EdifactFormat EdifactFormatVersion : Type.
Variable format_eqb : EdifactFormat -> EdifactFormat -> bool.
Variable get_format_of_pruefidentifikator : option pystr -> result EdifactFormat.

(** edifact.py:37-66 [EdiMetaData] *)
Record EdiMetaData := mkEdi {
  ed_pruefi : pystr;
  ed_format : EdifactFormat;
  ed_version : EdifactFormatVersion
}.

(** edifact.py:37-66 a keyword argument that may be left out; [Given None] is an explicit None *)
Inductive argument (A : Type) : Type := Left_out | Given (a : option A).
Arguments Left_out {A}.
Arguments Given {A} a.

(** edifact.py:25-34 [_check_that_pruefi_and_format_are_consistent] *)
Definition check_consistent (actual_format : option EdifactFormat) (value : pystr) : result unit :=
  let* expected_format := get_format_of_pruefidentifikator (Some value) in
  if negb (opt_eqb format_eqb actual_format (Some expected_format)) then Raise ValueError else Ok tt.

(** edifact.py:37-66 [EdiMetaData.__init__]: attrs sets all attributes in the order of their
    definition, computing defaults on the way, and runs the validators afterwards. *)
Definition new_EdiMetaData (pruefidentifikator : option pystr) (edifact_format : argument EdifactFormat)
    (edifact_format_version : option EdifactFormatVersion) : result EdiMetaData :=
  let* fmt := match edifact_format with
              | Left_out => let* f := get_format_of_pruefidentifikator pruefidentifikator in Ok (Some f)
              | Given f => Ok f
              end in
  let* p := check_is_str pruefidentifikator in
  let* _ := check_re re_PRUEFI p in
  let* _ := check_consistent fmt p in
  match fmt with
  | None => Raise TypeError
  | Some f =>
      match edifact_format_version with
      | None => Raise TypeError
      | Some v => Ok (mkEdi p f v)
      end
  end.
End EdiMetaData.
Arguments Left_out {A}.
Arguments Given {A} a.
Arguments mkEdi {_ _}.
Arguments ed_pruefi {_ _}.
Arguments ed_format {_ _}.
Arguments ed_version {_ _}.
Arguments new_EdiMetaData {_ _}.
