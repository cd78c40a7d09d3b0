(** * SpecDistinct: what the message of an error says.

    Of the code only the error types and the texts of messages are used. *)

From Verif Require Import Base Text Location Token Scanner Parser Directive Instruction DataRange Assembler SpecCode.
Open Scope N_scope.

(** Why a text is refused. *)
Inductive refusal : Type :=
| Syntax (e : parse_error)
| Semantic (e : semantic_error).

(** The code refuses the text for this reason. *)
Definition refused (file s : str) (r : refusal) : Prop :=
  match r with
  | Syntax e => exists ts, scan file s = Done ts /\ parse ts = Done (Err e)
  | Semantic e => exists p, parsed file s p /\ assemble p = Done (Err e)
  end.

(** What is printed. *)
Definition message (r : refusal) : run str :=
  match r with
  | Syntax e => parse_error_fmt e
  | Semantic e => Done (semantic_error_fmt e)
  end.

(** Three details are not said: the digits of a binary number out of range, the text of a
    comment, and which bytes a '.db' has, of which only the number is. *)
Definition said_reason (e : scan_error) : scan_error :=
  match e with BinaryLiteralOutOfRange _ => BinaryLiteralOutOfRange [] | _ => e end.

Definition said_token (t : token) : token :=
  match t with
  | SingleLineComment _ l => SingleLineComment [] l
  | ErrorToken e l => ErrorToken (said_reason e) l
  | _ => t
  end.

Definition said_directive (d : directive) : directive :=
  match d with Db bytes => Db (repeat 0 (length bytes)) | _ => d end.

Definition said (r : refusal) : refusal :=
  match r with
  | Syntax (UnexpectedToken expected t) => Syntax (UnexpectedToken expected (said_token t))
  | Semantic (DirectiveTooLarge l d) => Semantic (DirectiveTooLarge l (said_directive d))
  | Semantic (DirectiveWouldOverflow l d) => Semantic (DirectiveWouldOverflow l (said_directive d))
  | _ => r
  end.

(** The report of overlapping ranges says where each starts and how many bytes it has. *)
Definition said_range (r : data_range) : N * N := (dr_start r, N.of_nat (length (dr_data r))).
Definition said_ranges (l : list (data_range * data_range)) : list ((N * N) * (N * N)) :=
  map (fun '(a, b) => (said_range a, said_range b)) l.
