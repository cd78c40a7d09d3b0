(** * DisasmProofs: disassembled words and their reassembly (C26). *)

From Verif Require Import Base Text U12 Location Token Scanner Parser Opcode Instruction Directive DataRange Assembler Main
  SpecLex SpecGrammar SpecErase SpecWrite
  BaseFacts LexProofs ScanProofs LexTheorems ParseProofs OpcodeProofs LexAppend GrammarLines TextProofs WriteProofs FmtProofs.
Open Scope N_scope.

(** ** Reading one line *)

(** Before [b], the text [s] is one token, which is the operand [f]. *)
Definition reads_as (b s : str) (f : field) : Prop := exists t, spells b s [t] /\ field_token t f.

Definition line_text (m : str) (parts : list (str * field)) : str :=
  m ++ match parts with [] => [] | _ => u " " ++ separated (map fst parts) end.

Lemma parts_spell : forall parts b,
  Forall (fun p => forall b, closes b -> reads_as b (fst p) (snd p)) parts -> closes b ->
  exists ts, spells b (separated (map fst parts)) (commas ts) /\ Forall2 field_token ts (map snd parts).
Proof.
  intros parts b F C. induction F as [|[s f] parts H F IH]; [exists []; split; [apply spells_nil | constructor]|].
  cbn [fst snd] in H. destruct IH as (ts & S & T).
  destruct parts as [|p parts].
  - destruct (H b C) as (t & St & Ft). exists [t]. split; [exact St | repeat constructor; exact Ft].
  - destruct (H (u ", " ++ separated (map fst (p :: parts)) ++ b) eq_refl) as (t & St & Ft).
    exists (t :: ts). split; [|constructor; assumption].
    inversion T as [|t' ? ts' ? Ht T']; subst.
    change (separated (map fst ((s, f) :: p :: parts))) with (s ++ u ", " ++ separated (map fst (p :: parts))).
    change (commas (t :: t' :: ts')) with ([t] ++ [Comma nowhere] ++ commas (t' :: ts')).
    apply spells_app; [rewrite <- app_assoc; exact St|].
    apply spells_app; [apply spells_comma | exact S].
Qed.

Lemma commas_read : forall ts fs rest, Forall2 field_token ts fs ->
  fields (commas ts ++ Newline nowhere :: rest) fs (Newline nowhere :: rest).
Proof.
  intros ts fs rest F. induction F as [|t f ts fs T F IH]; [constructor|].
  destruct F as [|t' f' ts' fs' T' F']; [apply fs_one; exact T|].
  change (commas (t :: t' :: ts')) with (t :: Comma nowhere :: commas (t' :: ts')).
  cbn [app]. apply fs_more; [exact T | exact IH].
Qed.

Lemma line_stands : forall file m parts, name m ->
  Forall (fun p => forall b, closes b -> reads_as b (fst p) (snd p)) parts ->
  exists p, stands_for file (line_text m parts ++ [LF]) p /\
    same_program [NInstruction nowhere m (map snd parts)] p.
Proof.
  intros file m parts N F. destruct (parts_spell parts [LF] F eq_refl) as (ts & S & T).
  assert (Sp : spells [LF] (line_text m parts) (Identifier m nowhere :: commas ts)).
  { unfold line_text. destruct parts as [|p parts].
    - inversion T; subst. rewrite app_nil_r. apply spells_name; [exact N | reflexivity].
    - apply (spells_app _ _ [_]); [apply spells_name; [exact N | reflexivity]|].
      apply (spells_app _ _ []); [apply spells_blank; reflexivity | exact S]. }
  assert (Sl : spells [] (line_text m parts ++ [LF]) ((Identifier m nowhere :: commas ts) ++ [Newline nowhere])).
  { apply spells_app; [exact Sp | apply spells_newline]. }
  destruct (Sl file []) as (ts' & C & E).
  pose proof (cut_lexes _ _ _ _ _ C [] (lex_end file _)) as L. rewrite !app_nil_r in L.
  assert (P : program ((Identifier m nowhere :: commas ts) ++ [Newline nowhere]) [NInstruction nowhere m (map snd parts)]).
  { cbn [app]. eapply pr_instruction; [apply commas_read; exact T | apply pr_newline; constructor]. }
  destruct (program_same _ _ P ts') as (p' & P' & Sm).
  - unfold same_tokens. rewrite <- E, map_map. apply map_ext. apply bare_bare.
  - exists p'. split; [exists ts'; auto | exact Sm].
Qed.

(** ** Operands as they are displayed *)

Lemma x1_char : forall r, r <= 15 -> x1 r = [hex_char false r].
Proof.
  assert (F : forallb (fun r => str_eqb (x1 r) [hex_char false r]) (map N.of_nat (seq 0 16)) = true)
    by (vm_compute; reflexivity).
  intros r H. rewrite forallb_forall in F. apply str_eqb_eq, F.
  rewrite <- (N2Nat.id r). apply in_map, in_seq. lia.
Qed.

Lemma registers_shown : forallb (fun r =>
    match find KIdentifier (c_ "v" :: [hex_char false r]) with Some m => str_eqb m (c_ "v" :: [hex_char false r]) | None => false end &&
    match operand (c_ "v" :: [hex_char false r]) with FRegister r' => r' =? r | _ => false end)
  (map N.of_nat (seq 0 16)) = true.
Proof. vm_compute. reflexivity. Qed.

Lemma identifier_name : forall s, match find KIdentifier s with Some m => str_eqb m s | None => false end = true -> name s.
Proof.
  intros s H. destruct (find KIdentifier s) as [m|] eqn:E; [|discriminate]. apply str_eqb_eq in H. subst m.
  destruct (find_lexeme _ _ _ E) as (r & _ & _ & R & _). left. exact R.
Qed.

Lemma register_shown : forall b r, r <= 15 -> closes b -> reads_as b (c_ "v" :: x1 r) (FRegister r).
Proof.
  intros b r H C. rewrite x1_char by exact H. pose proof registers_shown as F. rewrite forallb_forall in F.
  specialize (F r). assert (I : In r (map N.of_nat (seq 0 16))) by (rewrite <- (N2Nat.id r); apply in_map, in_seq; lia).
  specialize (F I). cbv beta in F. apply andb_true_iff in F. destruct F as [F1 F2].
  exists (Identifier (c_ "v" :: [hex_char false r]) nowhere). split.
  - apply spells_name; [apply identifier_name; exact F1 | exact C].
  - destruct (operand (c_ "v" :: [hex_char false r])) eqn:E; try discriminate.
    apply N.eqb_eq in F2. subst. rewrite <- E. constructor.
Qed.

(** '$' and up to three digits *)
Lemma number_shown : forall b s v, closes b -> (1 <= length s <= 3)%nat ->
  forallb (among hexadecimal_digits) s = true -> positional 16 s = v -> v <= 4095 ->
  reads_as b (c_ "$" :: s) (FNumeric v).
Proof.
  intros b s v C L D V Lv. exists (NumericLiteral v nowhere). split.
  - apply (spells_token _ KHex).
    + cbn [pattern]. change (c_ "$" :: s) with ([c_ "$"] ++ s).
      constructor; [constructor; reflexivity|]. apply rmatch_hex_digits. split; [exact D | exact L].
    + destruct b as [|c b]; [reflexivity|]. cbn [starts extends]. unfold closes in C. cbn [starts] in C.
      destruct (among hexadecimal_digits c) eqn:H; [|apply andb_false_r].
      rewrite <- is_hex_digit_spec in H. apply orb_false_iff in C. destruct C as [C _]. apply orb_false_iff in C.
      destruct C as [C1 C2]. exfalso.
      assert (G : forall c, among hexadecimal_digits c = true -> among letters c || among decimal_digits c = true).
      { intros c0 H0. unfold among in *. apply existsb_exists in H0. destruct H0 as (d & I & E).
        apply N.eqb_eq in E. subst d.
        assert (K : forallb (fun c => existsb (N.eqb c) (u letters) || existsb (N.eqb c) (u decimal_digits)) (u hexadecimal_digits) = true)
          by (vm_compute; reflexivity).
        rewrite forallb_forall in K. apply K. exact I. }
      specialize (G c). rewrite <- is_hex_digit_spec in G. rewrite C1, C2 in G. specialize (G H). discriminate.
    + intros file before. eexists. split; [apply t_hex|]. cbn [bare]. rewrite V. reflexivity.
  - replace (FNumeric v) with (FNumeric (v mod 4096)) by (f_equal; lia). constructor.
Qed.

Lemma padded_none : forall w s, (w <= length s)%nat -> pad_left 32 w s = s.
Proof. intros w s L. unfold pad_left. replace (w - length s)%nat with 0%nat by lia. reflexivity. Qed.

Lemma hex_shown : forall b w v, closes b -> (1 <= w <= 3)%nat -> v <= 4095 ->
  (w = 1%nat \/ 16 ^ N.of_nat (w - 1) <= v) ->
  reads_as b (c_ "$" :: pad_left 32 w (fmt_hex false v)) (FNumeric v).
Proof.
  intros b w v C W V H.
  assert (L1 : (1 <= length (fmt_hex false v))%nat)
    by (destruct (fmt_hex_normal false v) as (c & r & -> & _); cbn; lia).
  assert (L3 : (length (fmt_hex false v) <= 3)%nat) by (apply fmt_hex_length; [lia | change (16 ^ N.of_nat 3) with 4096; lia]).
  assert (L : (w <= length (fmt_hex false v))%nat).
  { destruct H as [->|H]; [exact L1|].
    destruct (le_lt_dec w (length (fmt_hex false v))) as [X|X]; [exact X|exfalso].
    destruct (Nat.eq_dec w 1) as [->|Nw]; [lia|].
    assert (Y : (length (fmt_hex false v) <= w - 1)%nat) by lia. apply (fmt_hex_length false v (w - 1)%nat) in Y; lia. }
  rewrite padded_none by exact L.
  apply number_shown; [exact C | lia | apply fmt_hex_digits | apply fmt_hex_value | exact V].
Qed.

Lemma special_shown : forall b s f, operand s = f -> name s -> closes b -> reads_as b s f.
Proof. intros b s f <- N C. exists (Identifier s nowhere). split; [apply spells_name; assumption | constructor]. Qed.

(** ** Opcodes *)

Definition reg (r : N) : str * field := (c_ "v" :: x1 r, FRegister r).
Definition num1 (v : N) : str * field := (c_ "$" :: x1 v, FNumeric v).
Definition num2 (v : N) : str * field := (c_ "$" :: x2 v, FNumeric v).
Definition num3 (v : N) : str * field := (c_ "$" :: x3 v, FNumeric v).
Definition word_ (s : string) (f : field) : str * field := (u s, f).

(** Mnemonic and operands, as displayed. *)
Definition shown (o : opcode) : string * list (str * field) :=
  match o with
  | NOP => ("nop", [])
  | CLS => ("cls", [])
  | RET => ("ret", [])
  | DEREF_I => ("ld", [word_ "i" FIndex; word_ "[i]" FIndexIndirect])
  | TRAP => ("trap", [])
  | TRAPRET => ("trapret", [])
  | JP a => ("jp", [num3 a])
  | CALL a => ("call", [num3 a])
  | SE_IMMEDIATE x v => ("se", [reg x; num2 v])
  | SNE_IMMEDIATE x v => ("sne", [reg x; num2 v])
  | SE_REGISTER x y => ("se", [reg x; reg y])
  | SNE_REGISTER x y => ("sne", [reg x; reg y])
  | LD_IMMEDIATE x v => ("ld", [reg x; num2 v])
  | ADD_IMMEDIATE x v => ("add", [reg x; num2 v])
  | LD_REGISTER x y => ("ld", [reg x; reg y])
  | OR x y => ("or", [reg x; reg y])
  | AND x y => ("and", [reg x; reg y])
  | XOR x y => ("xor", [reg x; reg y])
  | ADD_REGISTER x y => ("add", [reg x; reg y])
  | SUB x y => ("sub", [reg x; reg y])
  | SHR x _ => ("shr", [reg x])
  | SUBN x y => ("subn", [reg x; reg y])
  | SHL x _ => ("shl", [reg x])
  | LD_I a => ("ld", [word_ "i" FIndex; num3 a])
  | JP_V0 a => ("jp", [word_ "v0" (FRegister 0); num3 a])
  | RND x v => ("rnd", [reg x; num2 v])
  | DRW x y v => ("drw", [reg x; reg y; num1 v])
  | SE_K x => ("skp", [reg x])
  | SNE_K x => ("sknp", [reg x])
  | LD_X_DT x => ("ld", [reg x; word_ "dt" FDelayTimer])
  | LD_X_K x => ("ld", [reg x; word_ "k" FKeypad])
  | LD_DT_X x => ("ld", [word_ "dt" FDelayTimer; reg x])
  | LD_ST_X x => ("ld", [word_ "st" FSoundTimer; reg x])
  | ADD_I_X x => ("add", [word_ "i" FIndex; reg x])
  | SPRITE_I x => ("ld", [word_ "f" FSprite; reg x])
  | BCD_I x => ("ld", [word_ "b" FBcd; reg x])
  | SAVE_I x => ("ld", [word_ "[i]" FIndexIndirect; reg x])
  | RESTORE_I x => ("ld", [reg x; word_ "[i]" FIndexIndirect])
  end%string.

Lemma shown_text : forall o, to_assembly_string o = line_text (u (fst (shown o))) (snd (shown o)).
Proof. intros []; reflexivity. Qed.

Lemma shown_name : forall o, name (u (fst (shown o))).
Proof. intros []; apply identifier_name; vm_compute; reflexivity. Qed.

(** The instruction without the operand that is not displayed. *)
Definition displayed (o : opcode) : opcode :=
  match o with SHR x _ => SHR x 0 | SHL x _ => SHL x 0 | _ => o end.

Lemma to_8_ok : forall v, v <= 255 -> to_8_bit v = Ok v.
Proof. intros v H. unfold to_8_bit, u8_failable_from_u12. replace (v <=? 255) with true by lia. reflexivity. Qed.
Lemma to_4_ok : forall v, v <= 15 -> to_4_bit v = Ok v.
Proof.
  intros v H. unfold to_4_bit, u8_failable_from_u12. replace (v <=? 255) with true by lia.
  replace (v <? 16) with true by lia. reflexivity.
Qed.

Lemma shown_assembles : forall o, well_typed o -> nibbles_in_range o ->
  instruction_from (u (fst (shown o))) (map snd (snd (shown o))) [] = Ok (displayed o).
Proof.
  intros o (T1 & T2 & T3) R. unfold nibbles_in_range in R.
  destruct o; cbn [nibble_fields byte_fields address_fields] in *; forall_inv; try reflexivity.
  all: cbv -[to_8_bit to_4_bit]; rewrite ?to_8_ok, ?to_4_ok by assumption; reflexivity.
Qed.

(** Words whose number would be padded. *)
Definition padded (o : opcode) : bool :=
  match o with
  | JP a | CALL a | LD_I a | JP_V0 a => a <? 256
  | SE_IMMEDIATE _ v | SNE_IMMEDIATE _ v | LD_IMMEDIATE _ v | ADD_IMMEDIATE _ v | RND _ v => v <? 16
  | _ => false
  end.

Lemma shown_reads : forall o, well_typed o -> nibbles_in_range o -> padded o = false ->
  Forall (fun p => forall b, closes b -> reads_as b (fst p) (snd p)) (snd (shown o)).
Proof.
  intros o (T1 & T2 & T3) R P. unfold nibbles_in_range in R.
  assert (Rg : forall r, r <= 15 -> forall b, closes b -> reads_as b (fst (reg r)) (snd (reg r)))
    by (intros; apply register_shown; assumption).
  assert (N1 : forall v, v <= 15 -> forall b, closes b -> reads_as b (fst (num1 v)) (snd (num1 v)))
    by (intros; apply hex_shown; [assumption | lia | lia | auto]).
  assert (N2 : forall v, v <= 255 -> (v <? 16) = false -> forall b, closes b -> reads_as b (fst (num2 v)) (snd (num2 v)))
    by (intros; apply hex_shown; [assumption | lia | lia | right; change (16 ^ N.of_nat (2 - 1)) with 16; lia]).
  assert (N3 : forall v, v <= 4095 -> (v <? 256) = false -> forall b, closes b -> reads_as b (fst (num3 v)) (snd (num3 v)))
    by (intros; apply hex_shown; [assumption | lia | lia | right; change (16 ^ N.of_nat (3 - 1)) with 256; lia]).
  assert (Wd : forall s f, operand (u s) = f -> name (u s) ->
    forall b, closes b -> reads_as b (fst (word_ s f)) (snd (word_ s f)))
    by (intros; apply special_shown; assumption).
  destruct o; cbn [nibble_fields byte_fields address_fields padded] in *; forall_inv; cbn [shown snd];
    repeat (apply Forall_cons; [first [apply Rg; assumption | apply N1; assumption | apply N2; assumption | apply N3; assumption
      | apply Wd; [vm_compute; reflexivity | first [apply identifier_name; vm_compute; reflexivity | apply indirect_name]]]|]);
    apply Forall_nil.
Qed.

(** ** Padded numbers are not read *)

Lemma pad_short : forall w s, (length s < w)%nat -> exists r, pad_left 32 w s = 32 :: r.
Proof.
  intros w s L. unfold pad_left. destruct (w - length s)%nat eqn:E; [lia|]. cbn [repeat app]. eauto.
Qed.

Lemma stuck_rejected : forall file a s r ts p, spells (c_ "$" :: 32 :: r) a ts -> s = a ++ c_ "$" :: 32 :: r ->
  ~ stands_for file s p.
Proof.
  intros file a s r ts p Sp -> (ts' & L & P). destruct (Sp file []) as (ta & C & _).
  destruct (scan_total file (c_ "$" :: 32 :: r)) as (t0 & E0). apply scan_lexes in E0.
  destruct (lexes_moved _ _ _ _ E0 file ([] ++ a)) as (t1 & E1 & _).
  pose proof (cut_lexes _ _ _ _ _ C t1 E1) as L'.
  apply hex_invalid in E1; [|reflexivity|reflexivity]. subst t1.
  rewrite (lexes_det _ _ _ _ L _ L') in P. apply (program_no_error _ _ P InvalidHexadecimalLiteral (located file ([] ++ a) [c_ "$"])).
  apply in_or_app. right. left. reflexivity.
Qed.

Lemma padded_number : forall w v, (1 < w <= 3)%nat -> v < 16 ^ N.of_nat (w - 1) ->
  exists r, pad_left 32 w (fmt_hex false v) = 32 :: r.
Proof.
  intros w v W H. apply pad_short. apply (fmt_hex_length false v (w - 1)%nat) in H; lia.
Qed.

Lemma padded_one : forall file m r p, name m -> ~ stands_for file (m ++ u " " ++ (c_ "$" :: 32 :: r)) p.
Proof.
  intros file m r p N. apply (stuck_rejected file (m ++ u " ") _ r ([Identifier m nowhere] ++ [])).
  - apply spells_app; [apply spells_name; [exact N | reflexivity] | apply spells_blank; reflexivity].
  - rewrite <- app_assoc. reflexivity.
Qed.

Lemma padded_two : forall file m s f r p, name m -> (forall b, closes b -> reads_as b s f) ->
  ~ stands_for file (m ++ u " " ++ s ++ u ", " ++ (c_ "$" :: 32 :: r)) p.
Proof.
  intros file m s f r p N H. destruct (H (u ", " ++ (c_ "$" :: 32 :: r)) eq_refl) as (t & S & _).
  apply (stuck_rejected file (m ++ u " " ++ s ++ u ", ") _ r ([Identifier m nowhere] ++ [] ++ [t] ++ [Comma nowhere])).
  - apply spells_app; [apply spells_name; [exact N | reflexivity]|].
    apply spells_app; [apply spells_blank; reflexivity|].
    apply spells_app; [exact S | apply spells_comma].
  - rewrite <- !app_assoc. reflexivity.
Qed.

Lemma padded_rejected : forall file o p, well_typed o -> nibbles_in_range o -> padded o = true ->
  ~ stands_for file (to_assembly_string o ++ [LF]) p.
Proof.
  intros file o p (T1 & T2 & T3) R P. unfold nibbles_in_range in R.
  pose proof (shown_name o) as Nm. rewrite shown_text.
  destruct o; cbn [nibble_fields byte_fields address_fields padded] in *; try discriminate; forall_inv;
    cbn [shown fst snd line_text map separated num3 num2 reg word_] in *; apply N.ltb_lt in P.
  all: try (match goal with H : ?v < 256 |- _ =>
              destruct (padded_number 3 v ltac:(lia) ltac:(change (16 ^ N.of_nat (3 - 1)) with 256; lia)) as (r & E) end).
  all: try (match goal with H : ?v < 16 |- _ =>
              destruct (padded_number 2 v ltac:(lia) ltac:(change (16 ^ N.of_nat (2 - 1)) with 16; lia)) as (r & E) end).
  all: unfold line_text, num3, num2, x3, x2; cbn [map fst separated]; rewrite E; rewrite <- !app_assoc; cbn [app].
  all: first [apply padded_one; exact Nm
    | eapply padded_two; [exact Nm | intros b C; apply register_shown; [eassumption | exact C]]
    | eapply padded_two; [exact Nm | intros b C; apply special_shown; [reflexivity | | exact C]]].
  all: apply identifier_name; vm_compute; reflexivity.
Qed.

(** ** Words *)

Lemma assemble_one : forall l m fs o w, instruction_from m fs [] = Ok o -> as_instruction o = Done w -> w < 65536 ->
  assemble [NInstruction l m fs] = Done (Ok [mk_range 0 [w / 256; w mod 256]]).
Proof.
  intros l m fs o w E A L. unfold assemble, define_labels, emit_data_ranges.
  change (define_labels_loop [] 0 [NInstruction l m fs]) with (@Ok semantic_error label_map []).
  cbn [emit_loop]. rewrite E. unfold instruction_into_vec. rewrite A. cbn [bind].
  change 0xFF00 with (N.shiftl (N.ones 8) 8). rewrite mask_field.
  change 0x00FF with (N.ones 8). rewrite mask_low. change (2 ^ 8) with 256.
  replace (w / 256 mod 256) with (w / 256) by lia. reflexivity.
Qed.

Lemma displayed_typed : forall o, well_typed o -> nibbles_in_range o -> well_typed (displayed o) /\ nibbles_in_range (displayed o).
Proof.
  intros o (T1 & T2 & T3) R. destruct o; try (split; [split; [|split] |]; assumption).
  all: unfold nibbles_in_range, well_typed in *; cbn [displayed nibble_fields byte_fields address_fields] in *; forall_inv;
    repeat match goal with |- _ /\ _ => split end; repeat constructor; try assumption; lia.
Qed.

Theorem disassembly_assembles : forall file w, w < 65536 -> padded (from_instruction w) = false ->
  exists p, stands_for file (to_assembly_string (from_instruction w) ++ [LF]) p /\
    let w' := opcode_word (displayed (from_instruction w)) in
    assemble p = Done (Ok [mk_range 0 [w' / 256; w' mod 256]]).
Proof.
  intros file w L P. destruct (decode_well_typed w L) as [T R]. set (o := from_instruction w) in *.
  destruct (line_stands file (u (fst (shown o))) (snd (shown o)) (shown_name o) (shown_reads o T R P)) as (p & S & Sm).
  exists p. rewrite shown_text. split; [exact S|]. cbv zeta.
  apply (assemble_same_ok _ _ _ Sm). destruct (displayed_typed o T R) as [T' R'].
  eapply assemble_one; [apply shown_assembles; assumption | apply as_instruction_word; assumption | apply opcode_word_lt; assumption].
Qed.

Theorem disassembly_rejected : forall file w p, w < 65536 -> padded (from_instruction w) = true ->
  ~ stands_for file (to_assembly_string (from_instruction w) ++ [LF]) p.
Proof.
  intros file w p L P. destruct (decode_well_typed w L) as [T R]. apply padded_rejected; assumption.
Qed.
