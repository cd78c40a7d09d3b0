(** * SpecOpcode: the instruction tables of the README, and their reading.

    [table] is README.md's "Standard Set" and "Extended Set for FPC8", row by row and
    in order, with the mnemonic column split at the commas, followed by the
    undocumented NOP.  Nothing here refers to opcode.rs or instruction.rs. *)

From Verif Require Import Base Parser SpecLex.
Open Scope N_scope.

Definition table : list (string * string * list string) :=
  [ ("00E0", "CLS", []);
    ("00EE", "RET", []);
    ("1nnn", "JP", ["addr"]);
    ("2nnn", "CALL", ["addr"]);
    ("3xkk", "SE", ["Vx"; "nn"]);
    ("4xkk", "SNE", ["Vx"; "nn"]);
    ("5xy0", "SE", ["Vx"; "Vy"]);
    ("6xkk", "LD", ["Vx"; "nn"]);
    ("7xkk", "ADD", ["Vx"; "nn"]);
    ("8xy0", "LD", ["Vx"; "Vy"]);
    ("8xy1", "OR", ["Vx"; "Vy"]);
    ("8xy2", "AND", ["Vx"; "Vy"]);
    ("8xy3", "XOR", ["Vx"; "Vy"]);
    ("8xy4", "ADD", ["Vx"; "Vy"]);
    ("8xy5", "SUB", ["Vx"; "Vy"]);
    ("8xy6", "SHR", ["Vx"]);
    ("8xy7", "SUBN", ["Vx"; "Vy"]);
    ("8xyE", "SHL", ["Vx"]);
    ("9xy0", "SNE", ["Vx"; "Vy"]);
    ("Annn", "LD", ["I"; "addr"]);
    ("Bnnn", "JP", ["V0"; "addr"]);
    ("Cxkk", "RND", ["Vx"; "nn"]);
    ("Dxyn", "DRW", ["Vx"; "Vy"; "n"]);
    ("Ex9E", "SKP", ["Vx"]);
    ("ExA1", "SKNP", ["Vx"]);
    ("Fx07", "LD", ["Vx"; "DT"]);
    ("Fx0A", "LD", ["Vx"; "K"]);
    ("Fx15", "LD", ["DT"; "Vx"]);
    ("Fx18", "LD", ["ST"; "Vx"]);
    ("Fx1E", "ADD", ["I"; "Vx"]);
    ("Fx29", "LD", ["F"; "Vx"]);
    ("Fx33", "LD", ["B"; "Vx"]);
    ("Fx55", "LD", ["[I]"; "Vx"]);
    ("Fx65", "LD", ["Vx"; "[I]"]);
    ("00F8", "LD", ["I"; "[I]"]);
    ("00F9", "TRAPRET", []);
    ("00FA", "TRAP", []);
    ("0000", "NOP", []) ]%string.

(** ** Names, without regard to letter case *)

Definition upper (c : char) : char := if (97 <=? c) && (c <=? 122) then c - 32 else c.

Definition named (m : str) (name : string) : Prop := map upper m = u name.

(** ** Operands

    Labels are given by what they are defined as, [lookup]. *)

(** A field that can stand for a number. *)
Definition is_value (f : field) : bool :=
  match f with FNumeric _ | FIdentifier _ => true | _ => false end.

(** The number a field stands for. *)
Definition value_of (lookup : str -> option N) (f : field) : option N :=
  match f with
  | FNumeric v => Some v
  | FIdentifier label => lookup label
  | _ => None
  end.

(** The most a value operand can be. *)
Definition limit (operand : string) : N :=
  if String.eqb operand "addr" then 4095
  else if String.eqb operand "nn" then 255
  else 15.

Definition value_operand (operand : string) : Prop := In operand ["addr"; "nn"; "n"]%string.

(** [fits operand f]: the field [f] is of the kind the table's operand asks for. *)
Inductive fits : string -> field -> Prop :=
| fits_x : forall r, fits "Vx" (FRegister r)
| fits_y : forall r, fits "Vy" (FRegister r)
| fits_0 : fits "V0" (FRegister 0)
| fits_i : fits "I" FIndex
| fits_indirect : fits "[I]" FIndexIndirect
| fits_dt : fits "DT" FDelayTimer
| fits_st : fits "ST" FSoundTimer
| fits_k : fits "K" FKeypad
| fits_f : fits "F" FSprite
| fits_b : fits "B" FBcd
| fits_value : forall o f, value_operand o -> is_value f = true -> fits o f.

(** [row_for m fields row]: the row's mnemonic and operands are those given. *)
Definition row_for (m : str) (fields : list field) (row : string * string * list string) : Prop :=
  let '(_, name, operands) := row in
  In row table /\ named m name /\ Forall2 fits operands fields.

(** ** Encoding *)

(** [binds lookup x y v operand f]: with the nibbles [x] and [y] and the number [v],
    the operand is the field. *)
Definition binds (lookup : str -> option N) (x y v : N) (operand : string) (f : field) : Prop :=
  (operand = "Vx"%string -> f = FRegister x) /\
  (operand = "Vy"%string -> f = FRegister y) /\
  (value_operand operand -> value_of lookup f = Some v /\ v <= limit operand).

(** One hexadecimal digit of the opcode column.  [place] counts the digits to its
    right. *)
Definition nibble (x y v place : N) (c : char) : N :=
  if c =? c_ "x" then x
  else if c =? c_ "y" then y
  else if (c =? c_ "n") || (c =? c_ "k") then (v / 16 ^ place) mod 16
  else digit c.

Fixpoint word (x y v : N) (pattern : str) : N :=
  match pattern with
  | [] => 0
  | c :: r =>
      let place := N.of_nat (length r) in
      nibble x y v place c * 16 ^ place + word x y v r
  end.

(** The word an instruction stands for. *)
Definition encodes (lookup : str -> option N) (m : str) (fields : list field) (w : N) : Prop :=
  exists pattern name operands x y v,
    row_for m fields (pattern, name, operands) /\
    Forall2 (binds lookup x y v) operands fields /\
    (~ In "Vy"%string operands -> y = 0) /\
    w = word x y v (u pattern).

(** The fields a program can contain: parsed registers are nibbles, numbers 12 bits. *)
Definition field_ok (f : field) : Prop :=
  match f with
  | FRegister r => r <= 15
  | FNumeric n => n <= 4095
  | _ => True
  end.

Definition ascii (s : str) : Prop := Forall (fun c => c < 128) s.
