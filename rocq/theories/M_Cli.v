(** Model of src/maus/maus_provider.py and src/maus/cli.py on an abstract file system. *)
From Coq Require Import Ascii String List NArith ZArith Bool.
From Verif Require Import PyBase PyStr PyRe M_Components M_Ahb M_Sgh M_Navigation M_Matching M_Schema M_Xml M_MigXml.
Import ListNotations.

(** cli.py:99 json.dump(..., sort_keys=True): the items of every object are sorted by their keys *)
Fixpoint insert_key (k : pystr) (v : json) (o : list (pystr * json)) : list (pystr * json) :=
  match o with
  | [] => [(k, v)]
  | (k', v') :: r => if str_leb k k' then (k, v) :: o else (k', v') :: insert_key k v r
  end.
(** cli.py:99 *)
Fixpoint sort_items (o : list (pystr * json)) : list (pystr * json) :=
  match o with [] => [] | (k, v) :: r => insert_key k v (sort_items r) end.
(** cli.py:99 *)
Fixpoint sort_keys (j : json) : json :=
  match j with
  | JList l => JList (map sort_keys l)
  | JObj o => JObj (sort_items (map (fun kv => match kv with (k, v) => (k, sort_keys v) end) o))
  | _ => j
  end.

Section Files.
  (** paths (already resolved, so that different paths are different files) and what files contain *)
  Variable path : Type.
  Variable path_eqb : path -> path -> bool.
  Variable content : Type.
  (** json.load and json.loads, json.dump (without the sorting of keys) and etree.parse on whole
      files, including the encoding.  Writing returns what is in the file afterwards, even if it
      raises on the way. *)
  Variable parse_json : content -> result json.
  Variable write_json : json -> content * result unit.
  Variable parse_xml : content -> result element.
  (** see M_Schema.v and M_Matching.v *)
  Variable class_attribute : pystr -> option bool.
  Variable str_of_location : Location -> pystr.

  (** cli.py:81-103 what reading a file yields: FileNotFoundError if there is none *)
  Definition files := path -> result content.
  (** cli.py:98-99 *)
  Definition write (fs : files) (p : path) (c : content) : files := fun q => if path_eqb q p then Ok c else fs q.

  (** maus_provider.py:55-66 [FileBasedMausProvider.get_maus]; [full_path] is
      base_path / to_path(...), which are up to the caller *)
  Definition get_maus (fs : files) (full_path : path) : result (option DeepAhb) :=
    match (let* maus_infile := fs full_path in
           let* file_content_json := parse_json maus_infile in
           load_deep class_attribute file_content_json) with
    | Ok maus => Ok (Some maus)
    | Raise FileNotFoundError => Ok None
    | Raise e => Raise e
    end.

  (** cli.py:81-89 the deep AHB made of the files *)
  Definition generate (fs : files) (flat_ahb_path sgh_path template_path : path) : result DeepAhb :=
    let* flat_ahb_file := fs flat_ahb_path in
    let* flat_ahb_json := parse_json flat_ahb_file in
    let* flat_ahb := load_flat flat_ahb_json in
    let* sgh_file := fs sgh_path in
    let* sgh_json := parse_json sgh_file in
    let* sgh := load_sgh sgh_json in
    let* template := fs template_path in
    let* document := parse_xml template in
    fst (to_deep_ahb (get_edifact_stack (new_MigXmlReader document)) str_of_location flat_ahb sgh).

  (** cli.py:101-114 the comparison with an existing file *)
  Definition check_maus (fs : files) (maus : DeepAhb) (check_path : path) : result unit :=
    let* maus_file := fs check_path in
    let* maus_json := parse_json maus_file in
    let* expected_maus := load_deep class_attribute maus_json in
    if deep_eqb (deep_reset_index expected_maus) (deep_reset_index maus) then Ok tt else Raise ClickAbort.

  (** [open_for_writing p] is the exception of opening the file for writing, if any *)
  Variable open_for_writing : path -> option exn.

  (** cli.py:95-99 the file is emptied when it is opened *)
  Definition write_maus (fs : files) (maus : DeepAhb) (output_path : path) : result unit * files :=
    let maus_dict := dump_deep maus in
    match open_for_writing output_path with
    | Some e => (Raise e, fs)
    | None => let (c, r) := write_json (sort_keys maus_dict) in (r, write fs output_path c)
    end.

  (** cli.py:62-114 [main] *)
  Definition main (fs : files) (flat_ahb_path sgh_path template_path : path) (check_path output_path : option path)
    : result unit * files :=
    if (is_none check_path && is_none output_path) || (is_some check_path && is_some output_path)
    then (Raise ClickAbort, fs)
    else
      match generate fs flat_ahb_path sgh_path template_path with
      | Raise e => (Raise e, fs)
      | Ok maus =>
          if is_some output_path && is_some check_path then (Raise ClickAbort, fs)
          else
            let (r, fs) := match output_path with
                           | Some p => write_maus fs maus p
                           | None => (Ok tt, fs)
                           end in
            match r with
            | Raise e => (Raise e, fs)
            | Ok _ =>
                match check_path with
                | Some p => (check_maus fs maus p, fs)
                | None => (Ok tt, fs)
                end
            end
      end.

  (** cli.py:28-60 what click.Path.convert learns about a path from os.stat and os.access(path, os.R_OK); None if
      os.stat raises an OSError *)
  Record status := mkStatus { st_directory : bool; st_readable : bool }.
  Variable stat : path -> option status.
  (** cli.py:28-54 click.Path(exists=True): there has to be a file or a directory, and it has to be readable *)
  Definition accepts_input (p : path) : bool :=
    match stat p with Some st => st_readable st | None => false end.
  (** cli.py:55-60 click.Path(dir_okay=False, file_okay=True): what exists must be readable and no directory *)
  Definition accepts_output (p : path) : bool :=
    match stat p with Some st => negb (st_directory st) && st_readable st | None => true end.
  (** cli.py:26-60 the options are converted before [main] is called; click reports errors as usage errors *)
  Definition command (fs : files) (flat_ahb_path sgh_path template_path : path) (check_path output_path : option path)
    : result unit * files :=
    if accepts_input flat_ahb_path && accepts_input sgh_path && accepts_input template_path
       && match check_path with Some p => accepts_input p | None => true end
       && match output_path with Some p => accepts_output p | None => true end
    then main fs flat_ahb_path sgh_path template_path check_path output_path
    else (Raise ClickUsageError, fs).
End Files.
