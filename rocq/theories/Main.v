(** * Main: src/main.rs *)

From Verif Require Import Base Text U12 Location Token Scanner Parser Directive Opcode
  Instruction DataRange Assembler IHex.
Open Scope N_scope.

(** ** The environment.

    What the operating system and the getopts crate answer is an arbitrary
    parameter of the model; the theorems quantify over it. *)

(** The result of [options.parse], main.rs:136: the options -h, -v, -o and the
    free arguments, or the reason of the failure. *)
Record matches : Type := mk_matches {
  m_help : bool;
  m_version : bool;
  m_output : option str;
  m_free : list str
}.

(** A file system: the contents of the files which exist. *)
Definition fs := str -> option (list byte).
(** main.rs:90,100: a file is created or truncated, and written *)
Definition fs_set (f : fs) (path : str) (bytes : list byte) : fs :=
  fun p => if str_eqb p path then Some bytes else f p.

(** Reasons for the four operations to fail, [None] meaning success.  A failed
    write may have written any number of bytes first. *)
Record env : Type := mk_env {
  e_program : str;                       (* argv[0] *)
  e_options : result str matches;
  e_usage : str -> str;                  (* getopts: Options::usage *)
  e_open_error : option str;
  e_read_error : option str;
  e_create_error : option str;
  e_write_error : option (str * nat);
  e_not_found : str;                     (* the text of the OS error *)
  e_invalid_utf8 : str
}.

(** What a run of the tool leaves behind. *)
Record outcome : Type := mk_outcome {
  o_stdout : list byte;
  o_exit : N;
  o_fs : fs
}.

(** [println!("{}: error: {}", program, reason)], main.rs:137 and 167 *)
Definition program_error (e : env) (reason : str) : str :=
  e_program e ++ u ": error: " ++ reason ++ [10].

(** main.rs:40,49,58,64,79,93,103,138,161: a message and [process::exit(1)] *)
Definition fail (out : str) (f : fs) : run outcome := Done (mk_outcome (utf8 out) 1 f).

(** main.rs:37-50: open, then read as UTF-8 *)
Definition read_input (e : env) (f : fs) (path : str) : result str str :=
  let not_opened reason :=
    program_error e (u "Unable to open input file '" ++ path ++ u "'")
      ++ program_error e reason in
  let not_read reason :=
    program_error e (u "Unable to read contents of input file '" ++ path ++ u "'")
      ++ program_error e reason in
  match e_open_error e, f path with
  | Some reason, _ => Err (not_opened reason)
  | None, None => Err (not_opened (e_not_found e))
  | None, Some bytes =>
      match e_read_error e, utf8_decode bytes with
      | Some reason, _ => Err (not_read reason)
      | None, None => Err (not_read (e_invalid_utf8 e))
      | None, Some buffer => Ok buffer
      end
  end.

(** main.rs:74-77 *)
Fixpoint overlap_report (e : env) (l : list (data_range * data_range)) : run str :=
  match l with
  | [] => Done []
  | (a, b) :: r =>
      let* sa := range_fmt a in
      let* sb := range_fmt b in
      let* rest := overlap_report e r in
      Done (program_error e (u "  range " ++ sa ++ u " overlaps with:")
              ++ program_error e (u "  range " ++ sb) ++ rest)
  end.

(** main.rs:34-105 without the file operations at either end: the text to write,
    or the text printed before [process::exit(1)]. *)
Definition assemble_text (e : env) (path buffer : str) : run (result str str) :=
  let* tokens := scan path buffer in
  let* parsed := parse tokens in
  match parsed with
  | Err message => let* s := parse_error_fmt message in Done (Err (s ++ [10]))
  | Ok syntax_list =>
      let* assembled := assemble syntax_list in
      match assembled with
      | Err message => Done (Err (semantic_error_fmt message ++ [10]))
      | Ok data_ranges =>
          let overlapping := find_overlapping_ranges data_ranges in
          if Nat.ltb 0 (length overlapping) then
            let* s := overlap_report e overlapping in
            Done (Err (program_error e (u "Input file specifies overlapping data ranges.")
                         ++ program_error e
                              (u "Data from one section has overflowed into the adjacent.")
                         ++ s))
          else
            let* result := ihex_representation data_ranges in
            Done (Ok result)
      end
  end.

(** main.rs:85-104 *)
Definition write_output (e : env) (f : fs) (path result : str) : run outcome :=
  let bytes := utf8 result in
  let not_written reason :=
    program_error e (u "Unable to write result to output file '" ++ path ++ u "'")
      ++ program_error e reason in
  if str_eqb path (u "-") then
    match e_write_error e with
    | Some (reason, n) =>
        Done (mk_outcome (firstn n bytes ++ utf8 (not_written reason)) 1 f)
    | None => Done (mk_outcome bytes 0 f)
    end
  else
    match e_create_error e with
    | Some reason =>
        fail (program_error e (u "Unable to create output file '" ++ path ++ u "'")
                ++ program_error e reason) f
    | None =>
        match e_write_error e with
        | Some (reason, n) =>
            fail (not_written reason) (fs_set f path (firstn n bytes))
        | None => Done (mk_outcome [] 0 (fs_set f path bytes))
        end
    end.

(** main.rs:34-105 *)
Definition assemble_file (e : env) (f : fs) (input_path output_path : str) : run outcome :=
  match read_input e f input_path with
  | Err message => fail message f
  | Ok buffer =>
      let* r := assemble_text e input_path buffer in
      match r with
      | Err message => fail message f
      | Ok result => write_output e f output_path result
      end
  end.

(** main.rs:114-117 *)
Definition usage_text (e : env) : str :=
  e_usage e (u "USAGE: " ++ e_program e ++ u " [options] <input>").

(** main.rs:122-124; the version is that of Cargo.toml:3 *)
Definition version_text : str := u "c8s version 0.1.3" ++ [10].

(** main.rs:126-169 *)
Definition main (e : env) (f : fs) : run outcome :=
  match e_options e with
  | Err reason => fail (program_error e reason) f
  | Ok m =>
      if m_help m then Done (mk_outcome (utf8 (usage_text e)) 0 f)
      else if m_version m then Done (mk_outcome (utf8 version_text) 0 f)
      else
        let output_path := match m_output m with Some p => p | None => u "a.hex" end in
        match m_free m with
        | [input_path] => assemble_file e f input_path output_path
        | _ => fail (usage_text e) f
        end
  end.
