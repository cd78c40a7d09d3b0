(** * Calls: src/main.rs:34-170 by its calls of the operating system.

    In Main.v a file is read or written at once.  Here the standard library's loops around the calls are
    modelled too: a read gives some bytes and a write takes some, calls may be interrupted by a signal, and
    between any two calls the process may come to its end.  The answers of the operating system are a list; the
    process is in the state it has reached when the list is used up.

    The standard output takes everything (C71 has the other case). *)

From Verif Require Import Base Text Main.
Open Scope N_scope.

(** What a call comes back with. *)
Inductive answer : Type :=
| Opened                                 (* open: there is a file *)
| Got (bytes : list byte)                (* read: the next bytes of the file; none at its end *)
| Took (n : nat)                         (* write: the first [n] of the bytes are written *)
| Interrupted                            (* EINTR *)
| Failed (reason : str).                 (* any other error *)

(** The call the process waits for. *)
Inductive state : Type :=
| Opening (input output : str)
| Reading (input output : str) (got : list byte)
| Creating (output : str) (result : list byte)
| Writing (output : str) (written rest : list byte)
| Over (stdout : list byte) (status : N) (file : option (str * list byte))
                                         (* the file made, with what is in it *)
| Broken.                                (* a panic *)

(** [println!] and [process::exit(1)], main.rs:37-65 and 90-104 *)
Definition quit (message : str) (file : option (str * list byte)) : state := Over (utf8 message) 1 file.

(** main.rs:85-104, up to the first call *)
Definition begin_output (output result : str) : state :=
  if str_eqb output (u "-") then Over (utf8 result) 0 None else Creating output (utf8 result).

(** main.rs:46-83, when [read_to_end] is done: [read_to_string] looks at the bytes only now *)
Definition go_on (e : env) (input output : str) (got : list byte) : state :=
  match utf8_decode got with
  | None =>
      quit (program_error e (u "Unable to read contents of input file '" ++ input ++ u "'")
              ++ program_error e (e_invalid_utf8 e)) None
  | Some buffer =>
      match assemble_text e input buffer with
      | Crash _ => Broken
      | Done (Err message) => quit message None
      | Done (Ok result) => begin_output output result
      end
  end.

(** [write_all]: the loop ends when nothing is left *)
Definition begin_writing (output : str) (written rest : list byte) : state :=
  match rest with
  | [] => Over [] 0 (Some (output, written))
  | _ => Writing output written rest
  end.

(** One answer.  [None]: no call of this kind is waiting.  [zero] is the standard library's reason for a
    write that takes nothing ("failed to write whole buffer"). *)
Definition answered (e : env) (zero : str) (s : state) (a : answer) : option state :=
  match s, a with
  (* [File::open], main.rs:37-41; an interrupted call is made again *)
  | Opening input output, Interrupted => Some s
  | Opening input output, Opened => Some (Reading input output [])
  | Opening input output, Failed reason =>
      Some (quit (program_error e (u "Unable to open input file '" ++ input ++ u "'") ++ program_error e reason) None)
  (* [read_to_end] in [read_to_string], main.rs:46-50 *)
  | Reading input output got, Interrupted => Some s
  | Reading input output got, Got [] => Some (go_on e input output got)
  | Reading input output got, Got bytes => Some (Reading input output (got ++ bytes))
  | Reading input output got, Failed reason =>
      Some (quit (program_error e (u "Unable to read contents of input file '" ++ input ++ u "'")
                    ++ program_error e reason) None)
  (* [File::create], main.rs:90-94 *)
  | Creating output result, Interrupted => Some s
  | Creating output result, Opened => Some (begin_writing output [] result)
  | Creating output result, Failed reason =>
      Some (quit (program_error e (u "Unable to create output file '" ++ output ++ u "'") ++ program_error e reason) None)
  (* [write_all], main.rs:100-104 *)
  | Writing output written rest, Interrupted => Some s
  | Writing output written rest, Took O =>
      Some (quit (program_error e (u "Unable to write result to output file '" ++ output ++ u "'") ++ program_error e zero)
                 (Some (output, written)))
  | Writing output written rest, Took n =>
      if Nat.leb n (length rest) then Some (begin_writing output (written ++ firstn n rest) (skipn n rest)) else None
  | Writing output written rest, Failed reason =>
      Some (quit (program_error e (u "Unable to write result to output file '" ++ output ++ u "'") ++ program_error e reason)
                 (Some (output, written)))
  | _, _ => None
  end.

(** main.rs:126-169, up to the first call *)
Definition begin_main (e : env) : state :=
  match e_options e with
  | Err reason => quit (program_error e reason) None
  | Ok m =>
      if m_help m then Over (utf8 (usage_text e)) 0 None
      else if m_version m then Over (utf8 version_text) 0 None
      else
        let output_path := match m_output m with Some p => p | None => u "a.hex" end in
        match m_free m with
        | [input_path] => Opening input_path output_path
        | _ => quit (usage_text e) None
        end
  end.

(** Several answers in a row, main.rs:36-105 *)
Fixpoint after (e : env) (zero : str) (s : state) (answers : list answer) : option state :=
  match answers with
  | [] => Some s
  | a :: r => match answered e zero s a with Some s' => after e zero s' r | None => None end
  end.

(** The process after these answers. *)
Definition process_after (e : env) (zero : str) (answers : list answer) : option state := after e zero (begin_main e) answers.
