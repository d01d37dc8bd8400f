(** Model of runs of the command line tool that are interrupted or take place at the same time: cli.py:62-114 in single
    steps.  M_Cli.v describes what a run does that is alone and comes to its end.

    Files hold bytes.  A process that is writing has its own position in the file, to which the operating system writes what the
    process passes on in pieces of any size, in the order in which it has been written.  What an interrupted process has
    not passed on is lost.  Simplifications: a file is read at once; files are neither removed nor changed by other
    programs; an interruption of the operating system itself (which may lose more) is not described. *)
From Coq Require Import Ascii String List NArith ZArith Bool.
From Verif Require Import PyBase PyStr M_Components M_Ahb M_Sgh M_Navigation M_Matching M_Schema M_Xml M_MigXml M_Cli M_JsonText.
Import ListNotations.
Local Open Scope list_scope.

Section Runs.
  (** as in M_Cli.v and M_JsonText.v *)
  Variable path : Type.
  Variable path_eqb : path -> path -> bool.
  Variable float_value : pystr -> option Z.
  Variable left_over : pystr -> list N.
  Variable parse_xml : list N -> result element.
  Variable class_attribute : pystr -> option bool.
  Variable str_of_location : Location -> pystr.
  Variable open_for_writing : path -> option exn.
  Notation files := (files path (list N)).

  (** cli.py:62-68 the arguments of a run *)
  Record job := mkJob {
    jb_flat_ahb_path : path;
    jb_sgh_path : path;
    jb_template_path : path;
    jb_check_path : option path;
    jb_output_path : option path
  }.

  (** cli.py:62-114 where a run is *)
  Inductive phase :=
  | Start                                                      (* cli.py:73 *)
  | ReadsFlat                                                  (* cli.py:81 *)
  | ReadsSgh (flat_ahb : FlatAhb)                              (* cli.py:83 *)
  | ReadsTemplate (flat_ahb : FlatAhb) (sgh : Sgh)             (* cli.py:86 *)
  | Generated (maus : DeepAhb)                                 (* cli.py:91 *)
  | Writing (position : nat) (rest : list N) (r : result unit) (* cli.py:99, [rest] is yet to be written, [r] the outcome *)
  | Finished (r : result unit).

  (** cli.py:62-114 the phase behind something that may raise an exception *)
  Definition unless_raised {A} (r : result A) (next : A -> phase) : phase :=
    match r with Ok x => next x | Raise e => Finished (Raise e) end.

  (** cli.py:99 pwrite(2): the bytes [x] at a position of the file [c]; a gap is filled with zeros *)
  Definition write_at (position : nat) (x c : list N) : list N :=
    firstn position c ++ repeat 0%N (position - List.length c) ++ x ++ skipn (position + List.length x) c.
  (** cli.py:99 *)
  Definition content_of (r : result (list N)) : list N := match r with Ok c => c | Raise _ => [] end.

  (** cli.py:99 all the bytes that are to be written, and how that ends *)
  Definition to_write (maus : DeepAhb) : phase := let (b, r) := write_json_file left_over (sort_keys (dump_deep maus)) in Writing 0 b r.

  (** cli.py:62-114 *)
  Inductive step (j : job) : phase * files -> phase * files -> Prop :=
  (** cli.py:73-79 *)
  | step_options fs :
      step j (Start, fs)
        (if (is_none (jb_check_path j) && is_none (jb_output_path j)) || (is_some (jb_check_path j) && is_some (jb_output_path j))
         then Finished (Raise ClickAbort) else ReadsFlat, fs)
  (** cli.py:81-82 *)
  | step_flat fs :
      step j (ReadsFlat, fs)
        (unless_raised (let* b := fs (jb_flat_ahb_path j) in let* x := parse_json_file float_value b in load_flat x) ReadsSgh, fs)
  (** cli.py:83-84 *)
  | step_sgh flat fs :
      step j (ReadsSgh flat, fs)
        (unless_raised (let* b := fs (jb_sgh_path j) in let* x := parse_json_file float_value b in load_sgh x) (ReadsTemplate flat), fs)
  (** cli.py:86-89 *)
  | step_template flat sgh fs :
      step j (ReadsTemplate flat sgh, fs)
        (unless_raised (let* b := fs (jb_template_path j) in let* document := parse_xml b in
                        fst (to_deep_ahb (get_edifact_stack (new_MigXmlReader document)) str_of_location flat sgh)) Generated, fs)
  (** cli.py:91-93, 101-114 *)
  | step_check maus p fs :
      jb_check_path j = Some p ->
      step j (Generated maus, fs)
        (Finished (if is_some (jb_output_path j) then Raise ClickAbort
                   else check_maus path (list N) (parse_json_file float_value) class_attribute fs maus p), fs)
  (** cli.py:95-98 the file is created or emptied when it is opened *)
  | step_open maus p fs :
      jb_check_path j = None -> jb_output_path j = Some p -> open_for_writing p = None ->
      step j (Generated maus, fs)
        (to_write maus, write path path_eqb (list N) fs p [])
  | step_not_opened maus p e fs :
      jb_check_path j = None -> jb_output_path j = Some p -> open_for_writing p = Some e ->
      step j (Generated maus, fs) (Finished (Raise e), fs)
  (** cli.py:99 some bytes are passed on *)
  | step_write p position x rest r fs :
      jb_output_path j = Some p -> x <> [] ->
      step j (Writing position (x ++ rest) r, fs)
        (Writing (position + List.length x) rest r, write path path_eqb (list N) fs p (write_at position x (content_of (fs p))))
  (** cli.py:99 the file is closed *)
  | step_close position r fs : step j (Writing position [] r, fs) (Finished r, fs).

  (** cli.py:62-114 any number of steps of one run *)
  Inductive steps (j : job) : phase * files -> phase * files -> Prop :=
  | steps_none st : steps j st st
  | steps_more st st' st'' : steps j st st' -> step j st' st'' -> steps j st st''.

  (** cli.py:62-114 several runs at the same time: in every step one of them goes on *)
  Inductive world_step : list (job * phase) * files -> list (job * phase) * files -> Prop :=
  | one_goes_on before j ph behind fs ph' fs' :
      step j (ph, fs) (ph', fs') -> world_step (before ++ (j, ph) :: behind, fs) (before ++ (j, ph') :: behind, fs').
  (** cli.py:62-114 *)
  Inductive world_steps : list (job * phase) * files -> list (job * phase) * files -> Prop :=
  | world_none w : world_steps w w
  | world_more w w' w'' : world_steps w w' -> world_step w' w'' -> world_steps w w''.
End Runs.
