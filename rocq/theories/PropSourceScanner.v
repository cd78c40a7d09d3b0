(** * C109: the text of scanner.rs and token.rs, executed.

    As C107; SrcText.v has the text.  The scanner changes itself, so a call gives back
    the next scanner too. *)

From Coq Require Import String List NArith Bool Lia.
From Verif Require Import Base Text Location Token Scanner SpecLex LexTheorems
  SrcText SrcLex SrcParse SrcRun SrcCode SrcEnc SrcFacts SrcRangeProofs SrcScannerProofs.
Import ListNotations.
Open Scope string_scope.
Open Scope list_scope.
Open Scope N_scope.

Theorem C109_new : forall file input K,
  reaches c8s (Call "Scanner::new" [VStr file; VStr input] K)
              (Back (e_scanner (scanner_new file input)) [VStr file; VStr input] K).
Proof. exact src_scanner_new. Qed.
Print Assumptions C109_new.

(** From any position, also one inside a character, where the slice panics *)
Theorem C109_next : forall sc K,
  reaches c8s (Call "Scanner::next" [e_scanner sc] K)
              match next_token sc with
              | Done (Some t, sc') => Back (VCon "Some" [("0", e_token t)]) [e_scanner sc'] K
              | Done (None, sc') => Back (VCon "None" []) [e_scanner sc'] K
              | Crash why => Panic why
              end.
Proof. intros sc K. generalize (src_next sc K). destruct (next_token sc) as [[[?|] ?]|]; exact (fun H => H). Qed.
Print Assumptions C109_next.

(** [drained self ts]: calling [next] until it answers [None] gives the values [ts] *)
Inductive drained : value -> list value -> Prop :=
| drained_none self self' :
    (forall K, reaches c8s (Call "Scanner::next" [self] K) (Back (VCon "None" []) [self'] K)) -> drained self []
| drained_some self self' t ts :
    (forall K, reaches c8s (Call "Scanner::next" [self] K) (Back (VCon "Some" [("0", t)]) [self'] K)) ->
    drained self' ts -> drained self (t :: ts).

Lemma drained_scan : forall n sc ts, scan_fuel n sc = Done ts -> drained (e_scanner sc) (map e_token ts).
Proof.
  induction n as [|n IH]; intros sc ts; cbn [scan_fuel]; [discriminate|]. intro H.
  generalize (C109_next sc). destruct (next_token sc) as [[[t|] sc']|]; cbn [bind] in H; [| |discriminate].
  - destruct (scan_fuel n sc') as [ts'|] eqn:E; cbn [bind] in H; [|discriminate]. injection H as <-. intro R.
    cbn [map]. econstructor; [exact R|]. apply IH. exact E.
  - injection H as <-. intro R. econstructor. exact R.
Qed.

(** All the tokens of all texts: those of the grammar (SpecLex.v), of which every text has
    one list. *)
Theorem C109_scan : forall file input, exists ts, lexes file [] input ts /\
  exists self, (forall K, reaches c8s (Call "Scanner::new" [VStr file; VStr input] K) (Back self [VStr file; VStr input] K)) /\
               drained self (map e_token ts).
Proof.
  intros file input. destruct (scan_total file input) as (ts & E). exists ts. split.
  - apply scan_lexes. exact E.
  - eexists. split; [exact (C109_new file input)|]. exact (drained_scan _ _ _ E).
Qed.
Print Assumptions C109_scan.

(** What a token and an error say (token.rs, scanner.rs:35-52) *)
Theorem C109_token_location : forall t K,
  reaches c8s (Call "Token::location" [e_token t] K) (Back (e_loc (token_location t)) [e_token t] K).
Proof. exact src_token_location. Qed.
Print Assumptions C109_token_location.

Theorem C109_error_fmt : forall e K,
  reaches c8s (Call "scanner::Error::fmt" [e_scan_error e; VStr []] K)
              (Back (VCon "Ok" [("0", VTup [])]) [e_scan_error e; VStr (scan_error_fmt e)] K).
Proof. exact src_scan_error_fmt. Qed.
Print Assumptions C109_error_fmt.

Theorem C109_token_fmt : forall t K, 
  reaches c8s (Call "Token::fmt" [e_token t; VStr []] K)
              (Back (VCon "Ok" [("0", VTup [])]) [e_token t; VStr (token_fmt t)] K).
Proof. exact src_token_fmt. Qed.
Print Assumptions C109_token_fmt.

(** ** Cases *)
(** All the tokens of a text, by steps *)
Fixpoint drain (p : program) (n : nat) (self : value) : list value :=
  match n with
  | O => []
  | S n =>
      match steps p 1500 (Call "Scanner::next" [self] []) with
      | Back (VCon "Some" [(_, t)]) [self'] _ => t :: drain p n self'
      | _ => []
      end
  end.
Definition tokens (p : program) (n : nat) (text : string) : list value :=
  match steps p 100 (Call "Scanner::new" [VStr (u "a.s"); VStr (u text)] []) with
  | Back self _ _ => drain p n self
  | _ => []
  end.
Definition place (column length : N) : loc := mk_loc (u "a.s") 1 column length.
Example C109_instance :
  tokens c8s 9 "x: or v0,#1F;~"
  = map e_token [Identifier (u "x") (place 1 1); LabelMarker (place 2 1); Identifier (u "or") (place 4 2);
                 Identifier (u "v0") (place 7 2); Comma (place 9 1); NumericLiteral 0x1F (place 10 3);
                 SingleLineComment (u ";~") (place 13 2)].
Proof. vm_compute. reflexivity. Qed.

(** A character that begins no token, after a character of two bytes *)
Example C109_instance_error :
  drain c8s 9 (e_scanner (scanner_new (u "a.s") [233])) = map e_token [ErrorToken (InvalidCharacter 233) (place 1 1)] /\
  match steps c8s 300 (Call "scanner::Error::fmt" [e_scan_error (InvalidCharacter 233); VStr []] []) with
  | Back _ [_; VStr s] _ => s
  | _ => []
  end = scan_error_fmt (InvalidCharacter 233).
Proof. split; vm_compute; reflexivity. Qed.

(** Another text is another program: with [+ 1] for the width of the character in
    scanner.rs:336, a comment ends too early, inside a character. *)
Definition other_text : list string :=
  map (fun l => if String.eqb l "        bytes = bytes + c.len_utf8();" then "        bytes = bytes + 1;" else l) scanner_rs.
Definition other : program :=
  Eval vm_compute in
    match read_files [("source_file_location", source_file_location_rs); ("token", token_rs); ("scanner", other_text)] with
    | Some p => p
    | None => c8s
    end.
Definition comment : list value := [e_scanner (scanner_new (u "a.s") (u ";" ++ [233]))].
Example C109_instance_other :
  read_files [("source_file_location", source_file_location_rs); ("token", token_rs); ("scanner", other_text)] = Some other /\
  steps other 1500 (Call "Scanner::next" comment []) = Panic BadSlice /\
  match steps c8s 1500 (Call "Scanner::next" comment []) with
  | Back t _ _ => t
  | _ => VTup []
  end = VCon "Some" [("0", e_token (SingleLineComment (u ";" ++ [233]) (place 1 2)))].
Proof. repeat split; vm_compute; reflexivity. Qed.
