(** * Process: the tool as a process, src/main.rs:34-170.

    Main.v starts with the options recognised, and its files are what is found under
    their names.  Here the arguments are the bytes the operating system passes, names
    lead to files as links have it, and others may change the files while the tool runs. *)

From Verif Require Import Base Text Main Getopts.
Open Scope N_scope.

(** ** Files *)

(** The file system behind main.rs:37, 46, 90 and 100 *)
Record disk : Type := mk_disk {
  d_entry : str -> option N;             (* the entry of a directory a name leads to, links followed *)
  d_file : N -> option N;                (* the file in an entry; some have two entries *)
  d_data : N -> list byte;               (* what is in a file *)
  d_fresh : N                            (* the next file to come into being *)
}.

(** [File::open] and reading to the end, main.rs:37 and 46 *)
Definition content (d : disk) (path : str) : option (list byte) :=
  match d_entry d path with
  | None => None
  | Some x => match d_file d x with None => None | Some i => Some (d_data d i) end
  end.

(** [File::create], main.rs:90: the file is made empty, or comes into being; [None] if
    the directory does not exist. *)
Definition create (d : disk) (path : str) : option (N * disk) :=
  match d_entry d path with
  | None => None
  | Some x =>
      match d_file d x with
      | Some i => Some (i, mk_disk (d_entry d) (d_file d) (fun j => if j =? i then [] else d_data d j) (d_fresh d))
      | None =>
          let i := d_fresh d in
          Some (i, mk_disk (d_entry d) (fun y => if y =? x then Some i else d_file d y)
                           (fun j => if j =? i then [] else d_data d j) (i + 1))
      end
  end.

(** [write_all], main.rs:100 *)
Definition append (d : disk) (i : N) (bytes : list byte) : disk :=
  mk_disk (d_entry d) (d_file d) (fun j => if j =? i then d_data d j ++ bytes else d_data d j) (d_fresh d).

(** ** main.rs:34-105.  The files are as in [d] when the input is read, and as in [d']
    when the output is created. *)

(** What is left when main.rs:126-169 has run *)
Record ended : Type := mk_ended {
  n_stdout : list byte;
  n_exit : N;
  n_disk : disk
}.

(** [println!] and [process::exit(1)], main.rs:37-65 and 90-104 *)
Definition fail_on (out : str) (d : disk) : run ended := Done (mk_ended (utf8 out) 1 d).

(** main.rs:85-104 *)
Definition write_output_on (e : env) (d : disk) (path result : str) : run ended :=
  let bytes := utf8 result in
  let not_created reason :=
    program_error e (u "Unable to create output file '" ++ path ++ u "'") ++ program_error e reason in
  let not_written reason :=
    program_error e (u "Unable to write result to output file '" ++ path ++ u "'") ++ program_error e reason in
  if str_eqb path (u "-") then
    match e_write_error e with
    | Some (reason, n) => Done (mk_ended (firstn n bytes ++ utf8 (not_written reason)) 1 d)
    | None => Done (mk_ended bytes 0 d)
    end
  else
    match e_create_error e, create d path with
    | Some reason, _ => fail_on (not_created reason) d
    | None, None => fail_on (not_created (e_not_found e)) d
    | None, Some (i, d1) =>
        match e_write_error e with
        | Some (reason, n) => fail_on (not_written reason) (append d1 i (firstn n bytes))
        | None => Done (mk_ended [] 0 (append d1 i bytes))
        end
    end.

(** main.rs:34-105 *)
Definition assemble_file_on (e : env) (d d' : disk) (input_path output_path : str) : run ended :=
  match read_input e (content d) input_path with
  | Err message => fail_on message d'
  | Ok buffer =>
      let* r := assemble_text e input_path buffer in
      match r with
      | Err message => fail_on message d'
      | Ok result => write_output_on e d' output_path result
      end
  end.

(** main.rs:135-169 *)
Definition main_on (e : env) (d d' : disk) : run ended :=
  match e_options e with
  | Err reason => fail_on (program_error e reason) d'
  | Ok m =>
      if m_help m then Done (mk_ended (utf8 (usage_text e)) 0 d')
      else if m_version m then Done (mk_ended (utf8 version_text) 0 d')
      else
        let output_path := match m_output m with Some p => p | None => u "a.hex" end in
        match m_free m with
        | [input_path] => assemble_file_on e d d' input_path output_path
        | _ => fail_on (usage_text e) d'
        end
  end.

(** ** main.rs:126-169 *)

(** [env::args().collect()], main.rs:127: an argument that is not UTF-8 makes the
    iterator panic. *)
Fixpoint collect_args (argv : list (list byte)) : run (list str) :=
  match argv with
  | [] => Done []
  | a :: r =>
      match utf8_decode a with
      | None => Crash UnwrapFailed
      | Some s => let* rest := collect_args r in Done (s :: rest)
      end
  end.

(** The command line of an environment replaced, main.rs:127-139 *)
Definition with_args (e : env) (program : str) (options : result str matches) : env :=
  mk_env program options (e_usage e) (e_open_error e) (e_read_error e) (e_create_error e) (e_write_error e)
         (e_not_found e) (e_invalid_utf8 e).

(** main.rs:126-169; [text] is getopts' text for a failure, and [e] is used for the
    operating system's part. *)
Definition tool (r : rules) (text : failure -> str) (e : env) (argv : list (list byte)) (d d' : disk) : run ended :=
  let* arguments := collect_args argv in
  match arguments with
  | [] => Crash IndexOutOfBounds         (* arguments[0], main.rs:128 *)
  | program :: rest =>
      let* parsed := command_line r rest in
      let options := match parsed with Ok m => Ok m | Err x => Err (text x) end in
      main_on (with_args e program options) d d'
  end.
