(** * SpecRun: running a program, from its text and from memory.

    The processor is a parameter: what its instructions do to its state is left open, and so are
    the differences between CHIP-8 machines.  Only how an instruction is found differs between
    the two: among the statements of the program, or in the two bytes at the program counter. *)

From Verif Require Import Base Text Parser SpecOpcode SpecDisasm SpecLayout.
Open Scope N_scope.

(** ** What an instruction says *)

Inductive operand : Type :=
| Register (r : N)
| Number (v : N)
| Fixed (name : string).

(** The name of an instruction, and its operands. *)
Definition meaning : Type := string * list operand.

(** An operand of a statement. *)
Definition denotes (lookup : str -> option N) (column : string) (f : field) (o : operand) : Prop :=
  fits column f /\
  match f with
  | FRegister r => o = Register r
  | FNumeric v => o = Number v
  | FIdentifier label => exists v, lookup label = Some v /\ o = Number v
  | _ => o = Fixed column
  end.

Inductive denote_all (lookup : str -> option N) : list string -> list field -> list operand -> Prop :=
| denote_none : denote_all lookup [] [] []
| denote_more : forall c cs f fs o os, denotes lookup c f o -> denote_all lookup cs fs os ->
    denote_all lookup (c :: cs) (f :: fs) (o :: os).

(** The statement [m fields] reads as a line of the README's tables. *)
Definition statement_says (lookup : str -> option N) (m : str) (fields : list field) (i : meaning) : Prop :=
  exists pattern name columns os,
    In (pattern, name, columns) table /\ named m name /\ denote_all lookup columns fields os /\ i = (name, os).

(** An operand in a word. *)
Definition operand_in (w : N) (column : string) : operand :=
  if String.eqb column "Vx" then Register (w / 256 mod 16)
  else if String.eqb column "Vy" then Register (w / 16 mod 16)
  else if String.eqb column "V0" then Register 0
  else if String.eqb column "addr" then Number (w mod 4096)
  else if String.eqb column "nn" then Number (w mod 256)
  else if String.eqb column "n" then Number (w mod 16)
  else Fixed column.

(** The word reads as a line of the README's tables. *)
Definition word_says (w : N) (i : meaning) : Prop :=
  exists pattern name columns,
    In (pattern, name, columns) table /\ matches pattern w /\ i = (name, map (operand_in w) columns).

(** ** Processors *)

Record processor : Type := mk_processor {
  state : Type;
  pc : state -> N;
  mem : state -> N -> byte;
  exec : meaning -> state -> state
}.

(** A step of the processor. *)
Definition machine_step (P : processor) (s s' : state P) : Prop :=
  exists i, word_says (256 * mem P s (pc P s) + mem P s (pc P s + 1)) i /\ s' = exec P i s.

(** A step through the program [p]: the statement at the program counter. *)
Definition program_step (P : processor) (p : list node) (s s' : state P) : Prop :=
  exists k l m fields i,
    nth_error p k = Some (NInstruction l m fields) /\ pc P s = address p k /\
    statement_says (lookup p) m fields i /\ s' = exec P i s.

(** The program counter is at an instruction of the program. *)
Definition at_statement (P : processor) (p : list node) (s : state P) : Prop :=
  exists k l m fields, nth_error p k = Some (NInstruction l m fields) /\ pc P s = address p k.

(** The bytes [image] are in memory. *)
Definition loaded (P : processor) (image : list (N * byte)) (s : state P) : Prop :=
  forall a b, In (a, b) image -> mem P s a = b.

(** Runs all of whose states but the last satisfy [inv]. *)
Inductive runs {S : Type} (step : S -> S -> Prop) (inv : S -> Prop) : S -> S -> Prop :=
| runs_done : forall s, runs step inv s s
| runs_step : forall s s' s'', inv s -> step s s' -> runs step inv s' s'' -> runs step inv s s''.
