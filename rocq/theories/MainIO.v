(** * MainIO: src/main.rs step by step, with the standard output as a stream.

    Main.v gives the result of a run on a standard output which takes everything.  Here
    the operations of main.rs happen one after the other, and the standard output is what
    Rust's standard library makes of it: [io::stdout] is buffered by lines, [println!] and
    [print!] panic when they cannot write, and what is still held back at the end of the
    process is written then, without looking at the result. *)

From Verif Require Import Base Text U12 Location Token Scanner Parser Directive Opcode
  Instruction DataRange Assembler IHex Main.
Open Scope N_scope.

(** The device behind the standard output takes [w_room] more bytes, and then none. *)
Record world : Type := mk_world {
  w_room : nat;
  w_out : list byte;                     (* what it has taken *)
  w_held : list byte;                    (* the unfinished line *)
  w_fs : fs
}.

(** How a step ends: with a value, in [process::exit], or in a panic. *)
Inductive step (A : Type) : Type :=
| Next (a : A)
| Exited (status : N)
| Panicked.
Arguments Next {A} a.
Arguments Exited {A} status.
Arguments Panicked {A}.

(** A piece of [main], main.rs:126-169, acting on the world it runs in *)
Definition io (A : Type) : Type := world -> step A * world.

(** A piece that only has a value, main.rs:126-169 *)
Definition give {A : Type} (a : A) : io A := fun w => (Next a, w).
(** [process::exit], main.rs:40, 49, 58, 64, 79, 93, 103, 138 and 161 *)
Definition exit_with {A : Type} (status : N) : io A := fun w => (Exited status, w).
(** One statement after another, main.rs:126-169 *)
Definition and_then {A B : Type} (m : io A) (k : A -> io B) : io B :=
  fun w =>
    match m w with
    | (Next a, w') => k a w'
    | (Exited status, w') => (Exited status, w')
    | (Panicked, w') => (Panicked, w')
    end.
Notation "'do*' x := m 'in' k" := (and_then m (fun x => k)) (at level 200, x pattern, right associativity).

(** A panic in the assembler proper. *)
Definition lift {A : Type} (r : run A) : io A :=
  match r with
  | Done a => give a
  | Crash _ => fun w => (Panicked, w)
  end.

(** ** The standard output *)

(** What precedes and follows the last newline. *)
Fixpoint cut_lines (l : list byte) : list byte * list byte :=
  match l with
  | [] => ([], [])
  | c :: r =>
      let (before, after) := cut_lines r in
      match before with
      | [] => if c =? 10 then ([c], after) else ([], c :: after)
      | _ => (c :: before, after)
      end
  end.

(** The device takes what it has room for. *)
Definition deliver (bytes : list byte) (w : world) : bool * world :=
  if Nat.leb (length bytes) (w_room w)
  then (true, mk_world (w_room w - length bytes) (w_out w ++ bytes) (w_held w) (w_fs w))
  else (false, mk_world 0 (w_out w ++ firstn (w_room w) bytes) (w_held w) (w_fs w)).

(** What standard output has been given and has not passed on, main.rs:57, 63, 99, 123, 137 and 167 *)
Definition hold (bytes : list byte) (w : world) : world := mk_world (w_room w) (w_out w) bytes (w_fs w).

(** [Stdout::write_all]: the complete lines go out, the rest is held back.  After a
    failure the device has no room, and what is held does not matter any more. *)
Definition put (bytes : list byte) (w : world) : bool * world :=
  let (lines, rest) := cut_lines (w_held w ++ bytes) in
  let (ok, w') := deliver lines w in
  (ok, hold (if ok then rest else []) w').

(** [print!] and [println!], the latter with the newline in the text. *)
Definition say (text : str) : io unit :=
  fun w => let (ok, w') := put (utf8 text) w in (if ok then Next tt else Panicked, w').

(** The closure [log_program_error], main.rs:166-168. *)
Definition log_error (e : env) (reason : str) : io unit := say (program_error e reason).

(** ** main.rs:34-105 *)

(** main.rs:37-41 *)
Definition open_input (e : env) (path : str) : io (list byte) :=
  let failed reason :=
    do* _ := log_error e (u "Unable to open input file '" ++ path ++ u "'") in
    do* _ := log_error e reason in
    exit_with 1 in
  fun w =>
    match e_open_error e, w_fs w path with
    | Some reason, _ => failed reason w
    | None, None => failed (e_not_found e) w
    | None, Some bytes => give bytes w
    end.

(** main.rs:43-50 *)
Definition read_to_string (e : env) (path : str) (bytes : list byte) : io str :=
  let failed reason :=
    do* _ := log_error e (u "Unable to read contents of input file '" ++ path ++ u "'") in
    do* _ := log_error e reason in
    exit_with 1 in
  match e_read_error e, utf8_decode bytes with
  | Some reason, _ => failed reason
  | None, None => failed (e_invalid_utf8 e)
  | None, Some buffer => give buffer
  end.

(** main.rs:74-77 *)
Fixpoint log_overlaps (e : env) (l : list (data_range * data_range)) : io unit :=
  match l with
  | [] => give tt
  | (a, b) :: r =>
      do* sa := lift (range_fmt a) in
      do* _ := log_error e (u "  range " ++ sa ++ u " overlaps with:") in
      do* sb := lift (range_fmt b) in
      do* _ := log_error e (u "  range " ++ sb) in
      log_overlaps e r
  end.

(** main.rs:52-83 *)
Definition translate (e : env) (path buffer : str) : io str :=
  do* tokens := lift (scan path buffer) in
  do* parsed := lift (parse tokens) in
  do* syntax_list :=
    match parsed with
    | Ok syntax_list => give syntax_list
    | Err message =>
        do* s := lift (parse_error_fmt message) in
        do* _ := say (s ++ [10]) in
        exit_with 1
    end in
  do* assembled := lift (assemble syntax_list) in
  do* data_ranges :=
    match assembled with
    | Ok data_ranges => give data_ranges
    | Err message =>
        do* _ := say (semantic_error_fmt message ++ [10]) in
        exit_with 1
    end in
  let overlapping := find_overlapping_ranges data_ranges in
  do* _ :=
    if Nat.ltb 0 (length overlapping) then
      do* _ := log_error e (u "Input file specifies overlapping data ranges.") in
      do* _ := log_error e (u "Data from one section has overflowed into the adjacent.") in
      do* _ := log_overlaps e overlapping in
      exit_with 1
    else give tt in
  lift (ihex_representation data_ranges).

(** [File::create]: the file is there, and empty. *)
Definition set_file (path : str) (bytes : list byte) : io unit :=
  fun w => (Next tt, mk_world (w_room w) (w_out w) (w_held w) (fs_set (w_fs w) path bytes)).

(** main.rs:85-104; [full] is the reason given by a standard output which takes no more. *)
Definition write_result (e : env) (full : str) (path result : str) : io unit :=
  let failed reason :=
    do* _ := log_error e (u "Unable to write result to output file '" ++ path ++ u "'") in
    do* _ := log_error e reason in
    exit_with 1 in
  if str_eqb path (u "-") then
    fun w => let (ok, w') := put (utf8 result) w in if ok then give tt w' else failed full w'
  else
    do* _ :=
      match e_create_error e with
      | Some reason =>
          do* _ := log_error e (u "Unable to create output file '" ++ path ++ u "'") in
          do* _ := log_error e reason in
          exit_with 1
      | None => set_file path []
      end in
    match e_write_error e with
    | Some (reason, n) =>
        do* _ := set_file path (firstn n (utf8 result)) in
        failed reason
    | None => set_file path (utf8 result)
    end.

(** main.rs:34-105 *)
Definition assemble_file_io (e : env) (full : str) (input_path output_path : str) : io unit :=
  do* bytes := open_input e input_path in
  do* buffer := read_to_string e input_path bytes in
  do* result := translate e input_path buffer in
  write_result e full output_path result.

(** main.rs:126-169 *)
Definition main_io (e : env) (full : str) : io unit :=
  match e_options e with
  | Err reason => do* _ := say (program_error e reason) in exit_with 1
  | Ok m =>
      if m_help m then say (usage_text e)
      else if m_version m then say version_text
      else
        let output_path := match m_output m with Some p => p | None => u "a.hex" end in
        match m_free m with
        | [input_path] => assemble_file_io e full input_path output_path
        | _ => do* _ := say (usage_text e) in exit_with 1
        end
  end.

(** The end of the process: what is held back is written as far as possible.  A panic
    gives the status 101. *)
Definition process (m : io unit) (room : nat) (f : fs) : outcome :=
  let (s, w) := m (mk_world room [] [] f) in
  let w' := snd (deliver (w_held w) w) in
  mk_outcome (w_out w')
    (match s with Next _ => 0 | Exited status => status | Panicked => 101 end)
    (w_fs w').
