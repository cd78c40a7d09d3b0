(** * DepthParser: src/assembler/parser.rs, counting how deeply its functions call each other

    Every function returns, beside its result, the largest number of activations of [parse_*]
    functions which are on the stack at once while it runs, its own included.  Loops, as in
    [parse_statement_list], take no stack.  That the results are those of Parser.v is proved in
    DepthProofs.v. *)

From Verif Require Import Base Text U12 Location Token Parser.
Open Scope N_scope.

(** The result of a function of parser.rs:245-498, and how many activations there were at once *)
Definition dresult (A : Type) := (presult A * nat)%type.

(** A call made after [m] was reached by earlier calls; [S] is the caller's own activation. *)
Definition after_call {A B : Type} (r : dresult A) (m : nat) (k : A -> parser -> nat -> dresult B) : dresult B :=
  match r with
  | (Done (Ok (x, p)), d) => k x p (Nat.max m d)
  | (Done (Err e), d) => (Done (Err e), S (Nat.max m d))
  | (Crash c, d) => (Crash c, S (Nat.max m d))
  end.

(** Return after the calls made reached [m]. *)
Definition return_ {A : Type} (r : presult A) (m : nat) : dresult A := (r, S m).

(** parser.rs:245-253 *)
Definition parse_identifier_d (p : parser) : dresult (str * loc) := return_ (parse_identifier p) 0.

(** parser.rs:260-280 *)
Definition parse_literal_d (p : parser) : dresult literal := return_ (parse_literal p) 0.

(** parser.rs:288-307 *)
Fixpoint parse_literal_list_d (fuel : nat) (p : parser) (acc : list literal) : dresult (list literal) :=
  match fuel with
  | O => return_ (Crash OutOfFuel) 0
  | S n =>
      match p_current p with
      | Some (Newline _) => return_ (Done (Ok (acc, p))) 0
      | _ =>
          after_call (parse_literal_d p) 0 (fun lit p m =>
            let acc := acc ++ [lit] in
            match p_current p with
            | Some (Comma _) =>
                after_call (parse_literal_list_d n (snd (consume_token p)) acc) m
                  (fun l p m => return_ (Done (Ok (l, p))) m)
            | _ => return_ (Done (Ok (acc, p))) m
            end)
      end
  end.

(** parser.rs:314-328 *)
Definition parse_directive_d (fuel : nat) (p : parser) : dresult node :=
  match consume_token p with
  | (Some (DirectiveMarker _), p) =>
      after_call (parse_identifier_d p) 0 (fun x p m =>
        let '(id, l) := x in
        after_call (parse_literal_list_d fuel p []) m (fun params p m =>
          return_ (Done (Ok (NDirective l id params, p))) m))
  | (unexpected, _) => return_ (Done (Err (syntax_error unexpected [dn_directive_marker]))) 0
  end.

(** parser.rs:335-348 *)
Definition parse_label_d (p : parser) : dresult node :=
  after_call (parse_identifier_d p) 0 (fun x p m =>
    let '(id, l) := x in
    match consume_token p with
    | (Some (LabelMarker _), p) => return_ (Done (Ok (NLabel l id, p))) m
    | (unexpected, _) => return_ (Done (Err (syntax_error unexpected [dn_label_marker]))) m
    end).

(** parser.rs:358-430; reading one field is part of the function *)
Fixpoint parse_field_list_d (fuel : nat) (p : parser) (acc : list field) : dresult (list field) :=
  match fuel with
  | O => return_ (Crash OutOfFuel) 0
  | S n =>
      match p_current p with
      | Some (Newline _) | Some (SingleLineComment _ _) => return_ (Done (Ok (acc, p))) 0
      | _ =>
          match parse_field p with
          | Done (Ok (f, p)) =>
              let acc := acc ++ [f] in
              match p_current p with
              | Some (Comma _) =>
                  after_call (parse_field_list_d n (snd (consume_token p)) acc) 0
                    (fun l p m => return_ (Done (Ok (l, p))) m)
              | _ => return_ (Done (Ok (acc, p))) 0
              end
          | Done (Err e) => return_ (Done (Err e)) 0
          | Crash c => return_ (Crash c) 0
          end
      end
  end.

(** parser.rs:437-443 *)
Definition parse_instruction_d (fuel : nat) (p : parser) : dresult node :=
  after_call (parse_identifier_d p) 0 (fun x p m =>
    let '(mnemonic, l) := x in
    after_call (parse_field_list_d fuel p []) m (fun fields p m =>
      return_ (Done (Ok (NInstruction l mnemonic fields, p))) m)).

(** parser.rs:450-470 *)
Definition parse_statement_d (fuel : nat) (p : parser) : dresult node :=
  let pass := fun r => after_call r 0 (fun n p m => return_ (Done (Ok (n, p))) m) in
  match p_current p, p_next p with
  | Some (DirectiveMarker _), _ => pass (parse_directive_d fuel p)
  | Some (Identifier _ _), Some (LabelMarker _) => pass (parse_label_d p)
  | Some (Identifier _ _), _ => pass (parse_instruction_d fuel p)
  | cur, _ => return_ (Done (Err (syntax_error cur [dn_directive_marker; dn_identifier]))) 0
  end.

(** parser.rs:477-498; [m] is what the calls made so far reached *)
Fixpoint parse_statement_list_d (fuel : nat) (p : parser) (acc : list node) (m : nat)
  : run (result parse_error (list node)) * nat :=
  match fuel with
  | O => (Crash OutOfFuel, S m)
  | S n =>
      match p_current p with
      | None => (Done (Ok acc), S m)
      | Some (SingleLineComment _ _) | Some (Newline _) =>
          parse_statement_list_d n (snd (consume_token p)) acc m
      | Some _ =>
          match parse_statement_d (S n) p with
          | (Done (Ok (nd, p)), d) => parse_statement_list_d n p (acc ++ [nd]) (Nat.max m d)
          | (Done (Err e), d) => (Done (Err e), S (Nat.max m d))
          | (Crash c, d) => (Crash c, S (Nat.max m d))
          end
      end
  end.

(** parser.rs:510-512 *)
Definition parse_d (tokens : list token) : run (result parse_error (list node)) * nat :=
  let '(r, d) := parse_statement_list_d (S (length tokens)) (parser_new tokens) [] 0 in (r, S d).
