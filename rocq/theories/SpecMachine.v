(** * SpecMachine: a machine that reads a text one character at a time, and remembers little.

    It knows the grammar of parser.rs and the lexemes of the scanner, but builds no tokens and no list: all it keeps is
    where in a statement it is, where in a lexeme, and the value of the number it is in. *)

From Verif Require Import Base Text Location Token SpecLex.
Open Scope N_scope.

(** Where in a statement. *)
Inductive place : Set :=
| Start                                  (* a statement can begin, or the text end *)
| AfterDot                               (* a name must follow *)
| Literals                               (* a literal or the end of the line must follow *)
| AfterLiteral                           (* as at the start, but a comma can follow *)
| AfterName                              (* of an instruction or of a label *)
| Fields                                 (* an operand or the end of the line must follow *)
| AfterField.                            (* as at the start, but a comma can follow *)

Definition fresh (k : kind) : option place :=
  match k with
  | KNewline | KComment => Some Start
  | KDot => Some AfterDot
  | KIdentifier | KIndirect => Some AfterName
  | _ => None
  end.

Definition operands (k : kind) : option place :=
  match k with
  | KNewline | KComment => Some Start
  | KHex | KBin | KDec | KIdentifier | KIndirect => Some AfterField
  | _ => None
  end.

(** Where a lexeme leads to, if it can stand there. *)
Definition onward (y : place) (k : kind) : option place :=
  match y with
  | Start => fresh k
  | AfterDot => match k with KIdentifier | KIndirect => Some Literals | _ => None end
  | Literals => match k with KNewline => Some Start | KString | KHex | KBin | KDec => Some AfterLiteral | _ => None end
  | AfterLiteral => match k with KComma => Some Literals | _ => fresh k end
  | AfterName => match k with KColon => Some Start | _ => operands k end
  | Fields => operands k
  | AfterField => match k with KComma => Some Fields | _ => fresh k end
  end.

(** The text can end here. *)
Definition may_end (y : place) : bool :=
  match y with Start | AfterLiteral | AfterField => true | _ => false end.

(** Where in a lexeme. *)
Inductive spot : Set :=
| Between
| InName
| InDecimal (n : N)                      (* its value so far *)
| AtHex                                  (* the sign has been read *)
| InHex1                                 (* one digit has been read *)
| InHex2
| AtBinary
| InBinary (n : N)                       (* its value so far, but for what a word cannot hold *)
| InText                                 (* of a string *)
| Escaped                                (* after a backslash in a string *)
| InRemark                               (* in a comment *)
| AtBracket
| InBracket.

Inductive memory : Set :=
| Refused
| At (y : place) (q : spot).

Definition begin_as (y : place) (k : kind) (q : spot) : memory :=
  match onward y k with Some y' => At y' q | None => Refused end.

(** Between lexemes: the first character shows what kind of lexeme begins. *)
Definition between (y : place) (c : char) : memory :=
  if blank c then At y Between
  else if c =? LF then begin_as y KNewline Between
  else if c =? c_ ";" then begin_as y KComment InRemark
  else if c =? c_ "." then begin_as y KDot Between
  else if c =? c_ ":" then begin_as y KColon Between
  else if c =? c_ "," then begin_as y KComma Between
  else if c =? QUOTE then begin_as y KString InText
  else if among "$#" c then begin_as y KHex AtHex
  else if c =? c_ "%" then begin_as y KBin AtBinary
  else if c =? c_ "[" then begin_as y KIndirect AtBracket
  else if among decimal_digits c then begin_as y KDec (InDecimal (digit c))
  else if among letters c || among "_" c then begin_as y KIdentifier InName
  else Refused.

Definition read (w : memory) (c : char) : memory :=
  match w with
  | Refused => Refused
  | At y q =>
      match q with
      | Between => between y c
      | InName => if among letters c || among decimal_digits c || among "_" c then At y InName else between y c
      | InDecimal n =>
          if among decimal_digits c
          then if 10 * n + digit c <=? 4095 then At y (InDecimal (10 * n + digit c)) else Refused
          else between y c
      | AtHex => if among hexadecimal_digits c then At y InHex1 else Refused
      | InHex1 => if among hexadecimal_digits c then At y InHex2 else between y c
      | InHex2 => if among hexadecimal_digits c then At y Between else between y c
      | AtBinary => if among "01." c then At y (InBinary (if c =? c_ "1" then 1 else 0)) else Refused
      | InBinary n =>
          if among "01." c then At y (InBinary ((2 * n + (if c =? c_ "1" then 1 else 0)) mod 2 ^ 64))
          else if n <=? 4095 then between y c else Refused
      | InText => At y (if c =? QUOTE then Between else if c =? BACKSLASH then Escaped else InText)
      | Escaped => if c =? LF then Refused else At y InText
      | InRemark => if c =? LF then between y c else At y InRemark
      | AtBracket => if among "iI" c then At y InBracket else Refused
      | InBracket => if c =? c_ "]" then At y Between else Refused
      end
  end.

(** What is remembered after a text. *)
Definition remembered (w : memory) (s : str) : memory := fold_left read s w.
Definition at_first : memory := At Start Between.

(** The text can end here, and the lexeme too. *)
Definition content (w : memory) : bool :=
  match w with
  | Refused => false
  | At y q =>
      may_end y &&
      match q with
      | Between | InName | InDecimal _ | InHex1 | InHex2 | InRemark => true
      | InBinary n => n <=? 4095
      | AtHex | AtBinary | InText | Escaped | AtBracket | InBracket => false
      end
  end.

(** ** How much is remembered: a number of 69 bits. *)
Definition place_number (y : place) : N :=
  match y with
  | Start => 0 | AfterDot => 1 | Literals => 2 | AfterLiteral => 3 | AfterName => 4 | Fields => 5 | AfterField => 6
  end.

Definition spot_number (q : spot) : N :=
  match q with
  | Between => 0 | InName => 1 | AtHex => 2 | InHex1 => 3 | InHex2 => 4 | AtBinary => 5 | InText => 6 | Escaped => 7
  | InRemark => 8 | AtBracket => 9 | InBracket => 10
  | InDecimal n => 11 + 2 * n
  | InBinary n => 12 + 2 * n
  end.

Definition memory_number (w : memory) : N :=
  match w with
  | Refused => 7
  | At y q => place_number y + 8 * spot_number q
  end.

(** ** Machines in general *)

(** A machine whose memory is of the type [A], and which says yes or no about texts. *)
Record machine (A : Type) : Type := mk_machine {
  m_first : A;
  m_read : A -> char -> A;
  m_says : A -> bool
}.
Arguments m_first {A}. Arguments m_read {A}. Arguments m_says {A}.

Definition m_after {A : Type} (m : machine A) (s : str) : A := fold_left (m_read m) s (m_first m).
