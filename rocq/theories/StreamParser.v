(** * StreamParser: src/assembler/parser.rs over an iterator.

    [Parser.v] runs over the list of all tokens.  Here the parser is modelled once more
    with the iterator it has in the code, from which it pulls one token at a time
    (parser.rs:209-223): [I] is the type of its states and [next] is [Iterator::next],
    which can panic.  C57 relates the two. *)

From Verif Require Import Base Text U12 Location Token Scanner Parser Directive Instruction DataRange Assembler
  IHex Main.
Open Scope N_scope.

(** parser.rs:156-163 *)
Record stream (I : Type) : Type := mk_stream {
  s_scanner : I;
  s_current : option token;
  s_next : option token
}.
Arguments mk_stream {I}.
Arguments s_scanner {I}.
Arguments s_current {I}.
Arguments s_next {I}.

(** The same, over an iterator. *)
Definition sresult (I A : Type) := run (result parse_error (A * stream I)).

(** parser.rs:193-201 and [prime], 209-212 *)
Definition stream_new {I : Type} (next : I -> run (option token * I)) (i : I) : run (stream I) :=
  let* (cur, i) := next i in
  let* (nxt, i) := next i in
  Done (mk_stream i cur nxt).

(** parser.rs:219-223 *)
Definition stream_consume {I : Type} (next : I -> run (option token * I)) (p : stream I)
  : run (option token * stream I) :=
  let* (t, i) := next (s_scanner p) in
  Done (s_current p, mk_stream i (s_next p) t).

(** parser.rs:245-253 *)
Definition stream_identifier {I : Type} (next : I -> run (option token * I)) (p : stream I)
  : sresult I (str * loc) :=
  let* (t, p) := stream_consume next p in
  match t with
  | Some (Identifier id l) => Done (Ok ((id, l), p))
  | unexpected => Done (Err (syntax_error unexpected [dn_identifier]))
  end.

(** parser.rs:260-280 *)
Definition stream_literal {I : Type} (next : I -> run (option token * I)) (p : stream I)
  : sresult I literal :=
  match s_current p with
  | Some (StringLiteral s _) => let* (_, p) := stream_consume next p in Done (Ok (LString s, p))
  | Some (NumericLiteral n _) => let* (_, p) := stream_consume next p in Done (Ok (LNumeric n, p))
  | cur => Done (Err (syntax_error cur [dn_numeric_literal; dn_string_literal]))
  end.

(** parser.rs:288-307 *)
Fixpoint stream_literal_list {I : Type} (next : I -> run (option token * I)) (fuel : nat) (p : stream I)
         (acc : list literal) : sresult I (list literal) :=
  match fuel with
  | O => Crash OutOfFuel
  | S n =>
      match s_current p with
      | Some (Newline _) => Done (Ok (acc, p))
      | _ =>
          try* (lit, p) := stream_literal next p in
          let acc := acc ++ [lit] in
          match s_current p with
          | Some (Comma _) => let* (_, p) := stream_consume next p in stream_literal_list next n p acc
          | _ => Done (Ok (acc, p))
          end
      end
  end.

(** parser.rs:314-328 *)
Definition stream_directive {I : Type} (next : I -> run (option token * I)) (fuel : nat) (p : stream I)
  : sresult I node :=
  let* (t, p) := stream_consume next p in
  match t with
  | Some (DirectiveMarker _) =>
      try* (id, l, p) := stream_identifier next p in
      try* (params, p) := stream_literal_list next fuel p [] in
      Done (Ok (NDirective l id params, p))
  | unexpected => Done (Err (syntax_error unexpected [dn_directive_marker]))
  end.

(** parser.rs:335-348 *)
Definition stream_label {I : Type} (next : I -> run (option token * I)) (p : stream I) : sresult I node :=
  try* (id, l, p) := stream_identifier next p in
  let* (t, p) := stream_consume next p in
  match t with
  | Some (LabelMarker _) => Done (Ok (NLabel l id, p))
  | unexpected => Done (Err (syntax_error unexpected [dn_label_marker]))
  end.

(** parser.rs:366-416 *)
Definition stream_field {I : Type} (next : I -> run (option token * I)) (p : stream I) : sresult I field :=
  match s_current p with
  | Some (NumericLiteral number _) =>
      let* (_, p) := stream_consume next p in
      Done (Ok (FNumeric (u12_unchecked_into number), p))
  | Some (Identifier id _) =>
      let* f := identifier_field id in
      let* (_, p) := stream_consume next p in
      Done (Ok (f, p))
  | cur => Done (Err (syntax_error cur [dn_instruction_field]))
  end.

(** parser.rs:358-430 *)
Fixpoint stream_field_list {I : Type} (next : I -> run (option token * I)) (fuel : nat) (p : stream I)
         (acc : list field) : sresult I (list field) :=
  match fuel with
  | O => Crash OutOfFuel
  | S n =>
      match s_current p with
      | Some (Newline _) | Some (SingleLineComment _ _) => Done (Ok (acc, p))
      | _ =>
          try* (f, p) := stream_field next p in
          let acc := acc ++ [f] in
          match s_current p with
          | Some (Comma _) => let* (_, p) := stream_consume next p in stream_field_list next n p acc
          | _ => Done (Ok (acc, p))
          end
      end
  end.

(** parser.rs:437-443 *)
Definition stream_instruction {I : Type} (next : I -> run (option token * I)) (fuel : nat) (p : stream I)
  : sresult I node :=
  try* (mnemonic, l, p) := stream_identifier next p in
  try* (fields, p) := stream_field_list next fuel p [] in
  Done (Ok (NInstruction l mnemonic fields, p)).

(** parser.rs:450-470 *)
Definition stream_statement {I : Type} (next : I -> run (option token * I)) (fuel : nat) (p : stream I)
  : sresult I node :=
  match s_current p, s_next p with
  | Some (DirectiveMarker _), _ => stream_directive next fuel p
  | Some (Identifier _ _), Some (LabelMarker _) => stream_label next p
  | Some (Identifier _ _), _ => stream_instruction next fuel p
  | cur, _ => Done (Err (syntax_error cur [dn_directive_marker; dn_identifier]))
  end.

(** parser.rs:477-498 *)
Fixpoint stream_statement_list {I : Type} (next : I -> run (option token * I)) (fuel : nat) (p : stream I)
         (acc : list node) : run (result parse_error (list node)) :=
  match fuel with
  | O => Crash OutOfFuel
  | S n =>
      match s_current p with
      | None => Done (Ok acc)
      | Some (SingleLineComment _ _) | Some (Newline _) =>
          let* (_, p) := stream_consume next p in
          stream_statement_list next n p acc
      | Some _ =>
          try* (nd, p) := stream_statement next (S n) p in
          stream_statement_list next n p (acc ++ [nd])
      end
  end.

(** parser.rs:510-512 *)
Definition stream_parse {I : Type} (next : I -> run (option token * I)) (fuel : nat) (i : I)
  : run (result parse_error (list node)) :=
  let* p := stream_new next i in
  stream_statement_list next fuel p [].

(** main.rs:34-105 again, with the scanner handed to the parser (main.rs:53-59). *)
Definition assemble_stream (e : env) (path buffer : str) : run (result str str) :=
  let* parsed := stream_parse next_token (S (length buffer)) (scanner_new path buffer) in
  match parsed with
  | Err message => let* s := parse_error_fmt message in Done (Err (s ++ [10]))
  | Ok syntax_list =>
      let* assembled := assemble syntax_list in
      match assembled with
      | Err message => Done (Err (semantic_error_fmt message ++ [10]))
      | Ok data_ranges =>
          let overlapping := find_overlapping_ranges data_ranges in
          if Nat.ltb 0 (length overlapping) then
            let* s := overlap_report e overlapping in
            Done (Err (program_error e (u "Input file specifies overlapping data ranges.")
                         ++ program_error e
                              (u "Data from one section has overflowed into the adjacent.")
                         ++ s))
          else
            let* result := ihex_representation data_ranges in
            Done (Ok result)
      end
  end.
