(** * DecodeProofs: decoding follows the tables of the README. *)

From Verif Require Import Base Text U12 Opcode SpecLex SpecOpcode SpecDisasm BaseFacts OpcodeProofs InstructionProofs.
Open Scope N_scope.

(** The row of an opcode. *)
Definition row_of (o : opcode) : string * string * list string :=
  match o with
  | NOP => ("0000", "NOP", [])
  | CLS => ("00E0", "CLS", [])
  | RET => ("00EE", "RET", [])
  | DEREF_I => ("00F8", "LD", ["I"; "[I]"])
  | TRAP => ("00FA", "TRAP", [])
  | TRAPRET => ("00F9", "TRAPRET", [])
  | JP _ => ("1nnn", "JP", ["addr"])
  | CALL _ => ("2nnn", "CALL", ["addr"])
  | SE_IMMEDIATE _ _ => ("3xkk", "SE", ["Vx"; "nn"])
  | SNE_IMMEDIATE _ _ => ("4xkk", "SNE", ["Vx"; "nn"])
  | SE_REGISTER _ _ => ("5xy0", "SE", ["Vx"; "Vy"])
  | SNE_REGISTER _ _ => ("9xy0", "SNE", ["Vx"; "Vy"])
  | LD_IMMEDIATE _ _ => ("6xkk", "LD", ["Vx"; "nn"])
  | ADD_IMMEDIATE _ _ => ("7xkk", "ADD", ["Vx"; "nn"])
  | LD_REGISTER _ _ => ("8xy0", "LD", ["Vx"; "Vy"])
  | OR _ _ => ("8xy1", "OR", ["Vx"; "Vy"])
  | AND _ _ => ("8xy2", "AND", ["Vx"; "Vy"])
  | XOR _ _ => ("8xy3", "XOR", ["Vx"; "Vy"])
  | ADD_REGISTER _ _ => ("8xy4", "ADD", ["Vx"; "Vy"])
  | SUB _ _ => ("8xy5", "SUB", ["Vx"; "Vy"])
  | SHR _ _ => ("8xy6", "SHR", ["Vx"])
  | SUBN _ _ => ("8xy7", "SUBN", ["Vx"; "Vy"])
  | SHL _ _ => ("8xyE", "SHL", ["Vx"])
  | LD_I _ => ("Annn", "LD", ["I"; "addr"])
  | JP_V0 _ => ("Bnnn", "JP", ["V0"; "addr"])
  | RND _ _ => ("Cxkk", "RND", ["Vx"; "nn"])
  | DRW _ _ _ => ("Dxyn", "DRW", ["Vx"; "Vy"; "n"])
  | SE_K _ => ("Ex9E", "SKP", ["Vx"])
  | SNE_K _ => ("ExA1", "SKNP", ["Vx"])
  | LD_X_DT _ => ("Fx07", "LD", ["Vx"; "DT"])
  | LD_X_K _ => ("Fx0A", "LD", ["Vx"; "K"])
  | LD_DT_X _ => ("Fx15", "LD", ["DT"; "Vx"])
  | LD_ST_X _ => ("Fx18", "LD", ["ST"; "Vx"])
  | ADD_I_X _ => ("Fx1E", "ADD", ["I"; "Vx"])
  | SPRITE_I _ => ("Fx29", "LD", ["F"; "Vx"])
  | BCD_I _ => ("Fx33", "LD", ["B"; "Vx"])
  | SAVE_I _ => ("Fx55", "LD", ["[I]"; "Vx"])
  | RESTORE_I _ => ("Fx65", "LD", ["Vx"; "[I]"])
  end%string.

Definition pattern_of (row : string * string * list string) : string := fst (fst row).

Lemma row_of_in : forall o, In (row_of o) table.
Proof.
  intros o. set (k := match o with
    | CLS => 0 | RET => 1 | JP _ => 2 | CALL _ => 3 | SE_IMMEDIATE _ _ => 4 | SNE_IMMEDIATE _ _ => 5 | SE_REGISTER _ _ => 6
    | LD_IMMEDIATE _ _ => 7 | ADD_IMMEDIATE _ _ => 8 | LD_REGISTER _ _ => 9 | OR _ _ => 10 | AND _ _ => 11 | XOR _ _ => 12
    | ADD_REGISTER _ _ => 13 | SUB _ _ => 14 | SHR _ _ => 15 | SUBN _ _ => 16 | SHL _ _ => 17 | SNE_REGISTER _ _ => 18
    | LD_I _ => 19 | JP_V0 _ => 20 | RND _ _ => 21 | DRW _ _ _ => 22 | SE_K _ => 23 | SNE_K _ => 24 | LD_X_DT _ => 25
    | LD_X_K _ => 26 | LD_DT_X _ => 27 | LD_ST_X _ => 28 | ADD_I_X _ => 29 | SPRITE_I _ => 30 | BCD_I _ => 31
    | SAVE_I _ => 32 | RESTORE_I _ => 33 | DEREF_I => 34 | TRAPRET => 35 | TRAP => 36 | NOP => 37
    end%nat).
  apply (nth_error_In table k). destruct o; reflexivity.
Qed.

(** ** Matching, digit by digit *)

Lemma matches_nibbles : forall a b c d n3 n2 n1 n0,
  n3 <= 15 -> n2 <= 15 -> n1 <= 15 -> n0 <= 15 ->
  let w := n3 * 4096 + n2 * 256 + n1 * 16 + n0 in
  let v := n2 * 256 + n1 * 16 + n0 in
  word (x_of w) (y_of w) (w mod 4096) [a; b; c; d] =
  nibble n2 n1 v 3 a * 4096 + nibble n2 n1 v 2 b * 256 + nibble n2 n1 v 1 c * 16 + nibble n2 n1 v 0 d.
Proof.
  intros a b c d n3 n2 n1 n0 H3 H2 H1 H0 w v. unfold x_of, y_of.
  replace (w / 256 mod 16) with n2 by (unfold w; lia).
  replace (w / 16 mod 16) with n1 by (unfold w; lia).
  replace (w mod 4096) with v by (unfold w, v; lia).
  rewrite word4. lia.
Qed.

Ltac digits_in H :=
  match type of H with context [u ?s] => let l := eval compute in (u s) in change (u s) with l in H end;
  rewrite matches_nibbles in H by assumption;
  match type of H with context [nibble ?x ?y (?a + ?b + ?c) _ _] => remember (a + b + c) as v eqn:Ev in H end;
  repeat match type of H with
  | context [nibble ?x ?y ?v ?p ?c] =>
      let r := (eval cbv [nibble c_ N_of_ascii N_of_digits N.eqb Pos.eqb orb digit index_of u option_map
                          N.succ Pos.succ N.add N.mul Pos.add Pos.mul] in (nibble x y v p c)) in
      change (nibble x y v p c) with r in H
  end;
  change (16 ^ 0) with 1 in H; change (16 ^ 1) with 16 in H; change (16 ^ 2) with 256 in H; rewrite ?N.div_1_r in H.

Ltac digits :=
  match goal with |- context [u ?s] => let l := eval compute in (u s) in change (u s) with l end;
  rewrite matches_nibbles by assumption;
  match goal with |- context [nibble ?x ?y (?a + ?b + ?c) _ _] => remember (a + b + c) as v eqn:Ev end; nibbles.

Definition nibbles16 : list N := [0; 1; 2; 3; 4; 5; 6; 7; 8; 9; 10; 11; 12; 13; 14; 15].

Lemma nibbles16_all : forall n, n <= 15 -> In n nibbles16.
Proof. intros n H. unfold nibbles16. cbn [In]. lia. Qed.

Ltac is_constant n := match n with N0 => idtac | Npos _ => idtac end.

Lemma matched_row : forall row w, w < 65536 -> In row table -> matches (pattern_of row) w ->
  row_of (from_instruction w) = row.
Proof.
  intros row w L I M. destruct (nibbles_of w L) as (n3 & n2 & n1 & n0 & H3 & H2 & H1 & H0 & ->). clear L.
  rewrite from_instruction_decode by assumption. unfold matches in M.
  unfold table in I; repeat (destruct I as [I|I]); try contradiction; subst row; cbn [pattern_of fst] in M; digits_in M;
    match type of M with
    | ?a * 4096 + ?b * 256 + ?c * 16 + ?d = _ =>
        try (is_constant a; assert (n3 = a) by lia; subst n3);
        try (is_constant b; assert (n2 = b) by lia; subst n2);
        try (is_constant c; assert (n1 = c) by lia; subst n1);
        try (is_constant d; assert (n0 = d) by lia; subst n0)
    end; reflexivity.
Qed.

Lemma opcode_matches : forall w, w < 65536 -> from_instruction w <> NOP ->
  matches (pattern_of (row_of (from_instruction w))) w.
Proof.
  intros w L Nn. destruct (nibbles_of w L) as (n3 & n2 & n1 & n0 & H3 & H2 & H1 & H0 & ->). clear L.
  rewrite from_instruction_decode in * by assumption. unfold matches.
  destruct (decode_cases n3 n2 n1 n0 H3 H2 H1 H0) as [E|((T1 & T2 & T3) & R & E)]; [contradiction|].
  unfold nibbles_in_range in R.
  destruct (decode n3 n2 n1 n0) eqn:D; [contradiction|..]; clear Nn D; cbn [nibble_fields byte_fields address_fields opcode_word] in *;
    forall_inv; cbn [row_of pattern_of fst];
    digits;
    lia.
Qed.

(** ** Spelling *)

Lemma in_field_x1 : forall v, v <= 15 -> x1 v = in_field 1 v.
Proof.
  assert (C : forallb (fun a => str_eqb (x1 a) (in_field 1 a)) nibbles16 = true) by (vm_compute; reflexivity).
  intros v H. apply str_eqb_eq. rewrite forallb_forall in C. apply C, nibbles16_all, H.
Qed.

Lemma in_field_x2 : forall v, v <= 255 -> x2 v = in_field 2 v.
Proof.
  assert (C : forallb (fun a => forallb (fun b => str_eqb (x2 (a * 16 + b)) (in_field 2 (a * 16 + b))) nibbles16) nibbles16 = true)
    by (vm_compute; reflexivity).
  intros v H. apply str_eqb_eq. rewrite forallb_forall in C. specialize (C (v / 16) (nibbles16_all (v / 16) ltac:(lia))).
  rewrite forallb_forall in C. specialize (C (v mod 16) (nibbles16_all (v mod 16) ltac:(lia))).
  replace v with (v / 16 * 16 + v mod 16) by lia. exact C.
Qed.

Lemma in_field_x3 : forall v, v <= 4095 -> x3 v = in_field 3 v.
Proof.
  assert (C : forallb (fun a => forallb (fun b => forallb (fun c =>
      str_eqb (x3 (a * 256 + b * 16 + c)) (in_field 3 (a * 256 + b * 16 + c))) nibbles16) nibbles16) nibbles16 = true)
    by (vm_compute; reflexivity).
  intros v H. apply str_eqb_eq. rewrite forallb_forall in C. specialize (C (v / 256) (nibbles16_all (v / 256) ltac:(lia))).
  rewrite forallb_forall in C. specialize (C (v / 16 mod 16) (nibbles16_all (v / 16 mod 16) ltac:(lia))).
  rewrite forallb_forall in C. specialize (C (v mod 16) (nibbles16_all (v mod 16) ltac:(lia))).
  replace v with (v / 256 * 256 + v / 16 mod 16 * 16 + v mod 16) by lia. exact C.
Qed.

Definition shows (x y v3 v2 v1 : N) (operand : string) : str :=
  if String.eqb operand "Vx" then c_ "v" :: in_field 1 x
  else if String.eqb operand "Vy" then c_ "v" :: in_field 1 y
  else if String.eqb operand "addr" then c_ "$" :: in_field 3 v3
  else if String.eqb operand "nn" then c_ "$" :: in_field 2 v2
  else if String.eqb operand "n" then c_ "$" :: in_field 1 v1
  else map (fun c => if (65 <=? c) && (c <=? 90) then c + 32 else c) (u operand).

Lemma shows_operand : forall w x y v3 v2 v1, x_of w = x -> y_of w = y -> w mod 4096 = v3 -> w mod 256 = v2 -> w mod 16 = v1 ->
  show_operand w = shows x y v3 v2 v1.
Proof. intros w x y v3 v2 v1 <- <- <- <- <-. reflexivity. Qed.

Lemma opcode_shown : forall o, well_typed o -> nibbles_in_range o ->
  to_assembly_string o = show_row (opcode_word o) (row_of o).
Proof.
  intros o (T1 & T2 & T3) R. unfold nibbles_in_range in R.
  destruct o; cbn [nibble_fields byte_fields address_fields] in *; forall_inv;
    cbn [row_of show_row opcode_word to_assembly_string]; try reflexivity;
    unfold v_v, v_imm8; rewrite ?in_field_x1, ?in_field_x2, ?in_field_x3 by lia;
    match goal with
    | |- context [show_operand ?w _] =>
        first [ rewrite (shows_operand w x y (w mod 4096) (w mod 256) bytes) by (unfold x_of, y_of; lia)
              | rewrite (shows_operand w x y (w mod 4096) (w mod 256) (w mod 16)) by (unfold x_of, y_of; lia)
              | rewrite (shows_operand w x (y_of w) (w mod 4096) value (w mod 16)) by (unfold x_of, y_of; lia)
              | rewrite (shows_operand w x (y_of w) (w mod 4096) mask (w mod 16)) by (unfold x_of, y_of; lia)
              | rewrite (shows_operand w x (y_of w) (w mod 4096) (w mod 256) (w mod 16)) by (unfold x_of, y_of; lia)
              | rewrite (shows_operand w (x_of w) (y_of w) target (w mod 256) (w mod 16)) by (unfold x_of, y_of; lia)
              | rewrite (shows_operand w (x_of w) (y_of w) value (w mod 256) (w mod 16)) by (unfold x_of, y_of; lia) ]
    end; cbn [flat_map]; rewrite ?app_nil_r; reflexivity.
Qed.

(** ** The table and the decoder *)

Lemma row_name : forall o, snd (fst (row_of o)) = "NOP"%string <-> o = NOP.
Proof. intros o. split; [|intros ->; reflexivity]. destruct o; cbn [row_of fst snd]; try discriminate. reflexivity. Qed.

Theorem decode_row : forall w pattern name operands, w < 65536 ->
  In (pattern, name, operands) table -> matches pattern w -> name <> "NOP"%string ->
  from_instruction w <> NOP /\ to_assembly_string (from_instruction w) = show_row w (pattern, name, operands).
Proof.
  intros w pattern name operands L I M Nn. pose proof (matched_row _ w L I M) as R.
  assert (Ne : from_instruction w <> NOP).
  { intros E. apply Nn. apply row_name in E. rewrite R in E. exact E. }
  split; [exact Ne|]. destruct (decode_well_typed w L) as [T G]. rewrite opcode_shown by assumption. rewrite R.
  pose proof (decode_encode w L Ne) as E. rewrite as_instruction_word in E by assumption. injection E as ->. reflexivity.
Qed.

Theorem decode_known : forall w, w < 65536 -> from_instruction w <> NOP ->
  exists pattern name operands, In (pattern, name, operands) table /\ matches pattern w /\ name <> "NOP"%string.
Proof.
  intros w L Ne. pose proof (opcode_matches w L Ne) as M. pose proof (row_of_in (from_instruction w)) as I.
  pose proof (row_name (from_instruction w)) as Nm.
  destruct (row_of (from_instruction w)) as [[pattern name] operands]. exists pattern, name, operands.
  split; [exact I|]. split; [exact M|]. intros E. apply Ne, Nm, E.
Qed.

Theorem rows_apart : forall w row row', w < 65536 -> In row table -> In row' table ->
  matches (pattern_of row) w -> matches (pattern_of row') w -> row = row'.
Proof.
  intros w row row' L I I' M M'. rewrite <- (matched_row row w L I M). apply matched_row; assumption.
Qed.

Lemma word_matches : forall row x y v, In row table -> x <= 15 -> y <= 15 ->
  matches (pattern_of row) (word x y v (u (pattern_of row))) /\ word x y v (u (pattern_of row)) < 65536.
Proof.
  intros row x y v I Hx Hy.
  assert (G2 : (v / 16 ^ 2) mod 16 <= 15) by lia. assert (G1 : (v / 16 ^ 1) mod 16 <= 15) by lia.
  assert (G0 : (v / 16 ^ 0) mod 16 <= 15) by lia.
  remember ((v / 16 ^ 2) mod 16) as v2 eqn:E2. remember ((v / 16 ^ 1) mod 16) as v1 eqn:E1.
  remember ((v / 16 ^ 0) mod 16) as v0 eqn:E0.
  unfold table in I; repeat (destruct I as [I|I]); try contradiction; subst row; cbn [pattern_of fst]; unfold matches;
    match goal with |- context [u ?s] => let l := eval compute in (u s) in change (u s) with l end;
    (match goal with |- context [word x y v [?a; ?b; ?c; ?d]] =>
      assert (W : word x y v [a; b; c; d] = nibble x y v 3 a * 4096 + nibble x y v 2 b * 256 + nibble x y v 1 c * 16 + nibble x y v 0 d)
        by (rewrite word4; lia)
    end);
    rewrite W; clear W;
    repeat match goal with
    | |- context [nibble x y v ?p ?c] =>
        let r := (eval cbv [nibble c_ N_of_ascii N_of_digits N.eqb Pos.eqb orb digit index_of u option_map
                            N.succ Pos.succ N.add N.mul Pos.add Pos.mul] in (nibble x y v p c)) in
        change (nibble x y v p c) with r
    end;
    rewrite <- ?E2, <- ?E1, <- ?E0; (split; [|lia]); rewrite matches_nibbles by lia;
    match goal with |- context [nibble _ _ (?a + ?b + ?c) _ _] => remember (a + b + c) as t eqn:Et end;
    nibbles; clear E2 E1 E0; lia.
Qed.
