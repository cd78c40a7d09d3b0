(** * Parser: src/assembler/parser.rs *)

From Verif Require Import Base Text U12 Location Token.
Open Scope N_scope.

(** parser.rs:23-28 *)
Inductive parse_error : Type :=
| UnexpectedEndOfFile (expected : list str)
| UnexpectedToken (expected : list str) (encountered : token).

(** parser.rs:49-79.  [expected[0]] and [join] as in the three arms of each case. *)
Definition parse_error_fmt (e : parse_error) : run str :=
  match e with
  | UnexpectedEndOfFile expected =>
      match expected with
      | [] => Crash ExplicitPanic
      | [x] => Done (u "error: Unexpected end-of-file reached, expecting " ++ x ++ u ".")
      | _ => Done (u "error: Unexpected end-of-file reached, expecting one of: "
                     ++ join (u ", ") expected ++ u ".")
      end
  | UnexpectedToken expected (ErrorToken reason location) =>
      let first_line := loc_fmt location ++ u ": error: Encountered syntax error: "
                          ++ scan_error_fmt reason ++ [10] in
      match expected with
      | [] => Crash ExplicitPanic
      | [x] => Done (first_line ++ loc_fmt location ++ u ": error: Expecting " ++ x ++ u ".")
      | _ => Done (first_line ++ loc_fmt location ++ u ": error: Expecting one of: "
                     ++ join (u ", ") expected ++ u ".")
      end
  | UnexpectedToken expected found =>
      let l := token_location found in
      match expected with
      | [] => Crash ExplicitPanic
      | [x] => Done (loc_fmt l ++ u ": error: Unexpected token found: " ++ token_fmt found
                       ++ u ", expecting " ++ x ++ u ".")
      | _ => Done (loc_fmt l ++ u ": error: Unexpected token found: " ++ token_fmt found
                     ++ u ", expecting one of: " ++ join (u ", ") expected ++ u ".")
      end
  end.

(** parser.rs:95-100 *)
Inductive literal : Type :=
| LString (s : str)
| LNumeric (n : N).

(** parser.rs:121-142 *)
Inductive field : Type :=
| FNumeric (n : U12)
| FRegister (r : byte)
| FDelayTimer
| FSoundTimer
| FKeypad
| FIndex
| FIndexIndirect
| FIdentifier (id : str)
| FBcd
| FSprite.

(** parser.rs:85-92, 103-118, 145-152 *)
Inductive node : Type :=
| NDirective (l : loc) (identifier : str) (arguments : list literal)
| NLabel (l : loc) (identifier : str)
| NInstruction (l : loc) (mnemonic : str) (fields : list field).

(** parser.rs:171-184 *)
Definition field_fmt (f : field) : str :=
  match f with
  | FNumeric v => u "literal:$" ++ fmt_hex false v
  | FRegister r => u "register:" ++ fmt_hex false r
  | FDelayTimer => u "register:delay-timer"
  | FSoundTimer => u "register:sound-timer"
  | FKeypad => u "register:keypad"
  | FIndex => u "register:index"
  | FIndexIndirect => u "register-indirect:[index]"
  | FIdentifier id => u "identifier:" ++ id
  | FBcd => u "bcd"
  | FSprite => u "sprite"
  end.

(** parser.rs:156-163; the iterator is the list of the tokens it has still to
    deliver. *)
Record parser : Type := mk_parser {
  p_scanner : list token;
  p_current : option token;
  p_next : option token
}.

(** [Iterator::next] *)
Definition iter_next (l : list token) : option token * list token :=
  match l with
  | [] => (None, [])
  | t :: r => (Some t, r)
  end.

(** parser.rs:193-201 and [prime], 209-212 *)
Definition parser_new (tokens : list token) : parser :=
  let '(cur, r) := iter_next tokens in
  let '(nxt, r) := iter_next r in
  mk_parser r cur nxt.

(** parser.rs:219-223 *)
Definition consume_token (p : parser) : option token * parser :=
  let '(t, r) := iter_next (p_scanner p) in
  (p_current p, mk_parser r (p_next p) t).

(** parser.rs:230-236 *)
Definition syntax_error (found : option token) (expected : list str) : parse_error :=
  match found with
  | Some t => UnexpectedToken expected t
  | None => UnexpectedEndOfFile expected
  end.

(** [Result<A, Error>], and the parser after it, parser.rs:245-498 *)
Definition presult (A : Type) := run (result parse_error (A * parser)).

(** parser.rs:245-253 *)
Definition parse_identifier (p : parser) : presult (str * loc) :=
  match consume_token p with
  | (Some (Identifier id l), p') => Done (Ok ((id, l), p'))
  | (unexpected, _) => Done (Err (syntax_error unexpected [dn_identifier]))
  end.

(** parser.rs:260-280 *)
Definition parse_literal (p : parser) : presult literal :=
  match p_current p with
  | Some (StringLiteral s _) => Done (Ok (LString s, snd (consume_token p)))
  | Some (NumericLiteral n _) => Done (Ok (LNumeric n, snd (consume_token p)))
  | cur => Done (Err (syntax_error cur [dn_numeric_literal; dn_string_literal]))
  end.

(** parser.rs:288-307; recursion bounded by fuel *)
Fixpoint parse_literal_list (fuel : nat) (p : parser) (acc : list literal)
  : presult (list literal) :=
  match fuel with
  | O => Crash OutOfFuel
  | S n =>
      match p_current p with
      | Some (Newline _) => Done (Ok (acc, p))
      | _ =>
          try* (lit, p) := parse_literal p in
          let acc := acc ++ [lit] in
          match p_current p with
          | Some (Comma _) => parse_literal_list n (snd (consume_token p)) acc
          | _ => Done (Ok (acc, p))
          end
      end
  end.

(** parser.rs:314-328 *)
Definition parse_directive (fuel : nat) (p : parser) : presult node :=
  match consume_token p with
  | (Some (DirectiveMarker _), p) =>
      try* (id, l, p) := parse_identifier p in
      try* (params, p) := parse_literal_list fuel p [] in
      Done (Ok (NDirective l id params, p))
  | (unexpected, _) => Done (Err (syntax_error unexpected [dn_directive_marker]))
  end.

(** parser.rs:335-348 *)
Definition parse_label (p : parser) : presult node :=
  try* (id, l, p) := parse_identifier p in
  match consume_token p with
  | (Some (LabelMarker _), p) => Done (Ok (NLabel l id, p))
  | (unexpected, _) => Done (Err (syntax_error unexpected [dn_label_marker]))
  end.

(** parser.rs:377-403: what an identifier means as an operand *)
Definition identifier_field (id : str) : run field :=
  if str_eqb id (u "dt") || str_eqb id (u "DT") then Done FDelayTimer
  else if str_eqb id (u "st") || str_eqb id (u "ST") then Done FSoundTimer
  else if str_eqb id (u "i") || str_eqb id (u "I") then Done FIndex
  else if str_eqb id (u "[i]") || str_eqb id (u "[I]") then Done FIndexIndirect
  else if str_eqb id (u "k") || str_eqb id (u "K") then Done FKeypad
  else if str_eqb id (u "b") || str_eqb id (u "B") then Done FBcd
  else if str_eqb id (u "f") || str_eqb id (u "F") then Done FSprite
  else if Nat.eqb (length id) 2 && (starts_with id (u "v") || starts_with id (u "V"))
  then
    let* numeric_portion := drop_bytes id (len_utf8 (c_ "v")) in
    match from_str_radix u8_bits 16 numeric_portion with
    | Some value => Done (FRegister value)
    | None => Done (FIdentifier id)
    end
  else Done (FIdentifier id).

(** parser.rs:366-416: one field *)
Definition parse_field (p : parser) : presult field :=
  match p_current p with
  | Some (NumericLiteral number _) =>
      Done (Ok (FNumeric (u12_unchecked_into number), snd (consume_token p)))
  | Some (Identifier id _) =>
      let* f := identifier_field id in
      Done (Ok (f, snd (consume_token p)))
  | cur => Done (Err (syntax_error cur [dn_instruction_field]))
  end.

(** parser.rs:358-430; recursion bounded by fuel *)
Fixpoint parse_field_list (fuel : nat) (p : parser) (acc : list field)
  : presult (list field) :=
  match fuel with
  | O => Crash OutOfFuel
  | S n =>
      match p_current p with
      | Some (Newline _) | Some (SingleLineComment _ _) => Done (Ok (acc, p))
      | _ =>
          try* (f, p) := parse_field p in
          let acc := acc ++ [f] in
          match p_current p with
          | Some (Comma _) => parse_field_list n (snd (consume_token p)) acc
          | _ => Done (Ok (acc, p))
          end
      end
  end.

(** parser.rs:437-443 *)
Definition parse_instruction (fuel : nat) (p : parser) : presult node :=
  try* (mnemonic, l, p) := parse_identifier p in
  try* (fields, p) := parse_field_list fuel p [] in
  Done (Ok (NInstruction l mnemonic fields, p)).

(** parser.rs:450-470 *)
Definition parse_statement (fuel : nat) (p : parser) : presult node :=
  match p_current p, p_next p with
  | Some (DirectiveMarker _), _ => parse_directive fuel p
  | Some (Identifier _ _), Some (LabelMarker _) => parse_label p
  | Some (Identifier _ _), _ => parse_instruction fuel p
  | cur, _ => Done (Err (syntax_error cur [dn_directive_marker; dn_identifier]))
  end.

(** parser.rs:477-498; loop bounded by fuel *)
Fixpoint parse_statement_list (fuel : nat) (p : parser) (acc : list node)
  : run (result parse_error (list node)) :=
  match fuel with
  | O => Crash OutOfFuel
  | S n =>
      match p_current p with
      | None => Done (Ok acc)
      | Some (SingleLineComment _ _) | Some (Newline _) =>
          parse_statement_list n (snd (consume_token p)) acc
      | Some _ =>
          try* (nd, p) := parse_statement (S n) p in
          parse_statement_list n p (acc ++ [nd])
      end
  end.

(** parser.rs:510-512 *)
Definition parse (tokens : list token) : run (result parse_error (list node)) :=
  parse_statement_list (S (length tokens)) (parser_new tokens) [].
