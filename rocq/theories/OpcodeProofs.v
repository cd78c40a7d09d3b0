(** * OpcodeProofs: words, nibbles; encoding and decoding (C25). *)

From Verif Require Import Base Text U12 Parser Opcode BaseFacts.
Open Scope N_scope.

(** ** Bits as arithmetic *)

Lemma lor_add : forall a b k, b < 2 ^ k -> N.lor (N.shiftl a k) b = a * 2 ^ k + b.
Proof.
  intros a b k H. rewrite <- N.shiftl_mul_pow2.
  assert (D : N.land (N.shiftl a k) b = 0).
  { apply N.bits_inj. intros i. rewrite N.land_spec, N.bits_0.
    destruct (N.lt_ge_cases i k) as [L|L].
    - rewrite N.shiftl_spec_low by exact L. reflexivity.
    - replace (N.testbit b i) with false; [apply andb_false_r|]. symmetry.
      destruct (N.eq_dec b 0) as [->|Hb]; [apply N.bits_0|].
      apply N.bits_above_log2. apply N.lt_le_trans with k; [|exact L].
      apply N.log2_lt_pow2; lia. }
  rewrite (N.add_nocarry_lxor _ _ D). symmetry. apply N.lxor_lor. exact D.
Qed.

(** A field of [k] bits from bit [s] up. *)
Lemma mask_field : forall w s k,
  N.shiftr (N.land w (N.shiftl (N.ones k) s)) s = (w / 2 ^ s) mod 2 ^ k.
Proof.
  intros. rewrite N.shiftr_land, N.shiftr_shiftl_l by lia. rewrite N.sub_diag, N.shiftl_0_r.
  rewrite N.land_ones, N.shiftr_div_pow2. reflexivity.
Qed.

Lemma mask_low : forall w k, N.land w (N.ones k) = w mod 2 ^ k.
Proof. intros. apply N.land_ones. Qed.

Lemma imm12_word : forall h v, h <= 15 -> v < 4096 ->
  format_instruction_imm12 h v = Done (h * 4096 + v).
Proof.
  intros h v Hh Hv. unfold format_instruction_imm12, assert_.
  replace (h <=? 15) with true by lia. cbn [bind]. f_equal. rewrite lor_add by (change (2^12) with 4096; lia).
  reflexivity.
Qed.

Lemma imm8_word : forall h x v, h <= 15 -> x <= 15 -> v < 256 ->
  format_instruction_x_imm8 h x v = Done (h * 4096 + x * 256 + v).
Proof.
  intros h x v Hh Hx Hv. unfold format_instruction_x_imm8, assert_.
  replace (h <=? 15) with true by lia. replace (x <=? 15) with true by lia. cbn [bind]. f_equal.
  rewrite (lor_add h). 2: { rewrite N.shiftl_mul_pow2. change (2^12) with 4096. change (2^8) with 256. lia. }
  rewrite N.shiftl_mul_pow2. replace (h * 2 ^ 12 + x * 2 ^ 8) with ((h * 16 + x) * 2 ^ 8)
    by (change (2^12) with 4096; change (2^8) with 256; lia).
  rewrite <- N.shiftl_mul_pow2, lor_add by (change (2^8) with 256; lia).
  change (2^8) with 256. lia.
Qed.

Lemma xy_word : forall h x y l, h <= 15 -> x <= 15 -> y <= 15 -> l <= 15 ->
  format_instruction_x_y h x y l = Done (h * 4096 + x * 256 + y * 16 + l).
Proof.
  intros h x y l Hh Hx Hy Hl. unfold format_instruction_x_y, assert_.
  replace (h <=? 15) with true by lia. replace (x <=? 15) with true by lia.
  replace (y <=? 15) with true by lia. replace (l <=? 15) with true by lia. cbn [bind]. f_equal.
  rewrite (lor_add h). 2: { rewrite N.shiftl_mul_pow2. change (2^12) with 4096. change (2^8) with 256. lia. }
  rewrite (N.shiftl_mul_pow2 x). replace (h * 2 ^ 12 + x * 2 ^ 8) with ((h * 16 + x) * 2 ^ 8)
    by (change (2^12) with 4096; change (2^8) with 256; lia).
  rewrite <- N.shiftl_mul_pow2, lor_add.
  2: { rewrite N.shiftl_mul_pow2. change (2^8) with 256. change (2^4) with 16. lia. }
  rewrite (N.shiftl_mul_pow2 y). replace ((h * 16 + x) * 2 ^ 8 + y * 2 ^ 4) with ((h * 256 + x * 16 + y) * 2 ^ 4)
    by (change (2^4) with 16; change (2^8) with 256; lia).
  rewrite <- N.shiftl_mul_pow2, lor_add by (change (2^4) with 16; lia).
  change (2^4) with 16. lia.
Qed.

(** ** Decoding *)

(** The opcode of the four nibbles. *)
Definition decode (n3 n2 n1 n0 : N) : opcode :=
  let imm12 := n2 * 256 + n1 * 16 + n0 in
  let imm8 := n1 * 16 + n0 in
  let x := n2 in
  let y := n1 in
  match n3, n2, n1, n0 with
  | 0x0, 0x0, 0xE, 0x0 => CLS
  | 0x0, 0x0, 0xE, 0xE => RET
  | 0x0, 0x0, 0xF, 0x8 => DEREF_I
  | 0x0, 0x0, 0xF, 0x9 => TRAPRET
  | 0x0, 0x0, 0xF, 0xA => TRAP
  | 0x1, _, _, _ => JP imm12
  | 0x2, _, _, _ => CALL imm12
  | 0x3, _, _, _ => SE_IMMEDIATE x imm8
  | 0x4, _, _, _ => SNE_IMMEDIATE x imm8
  | 0x5, _, _, 0x0 => SE_REGISTER x y
  | 0x6, _, _, _ => LD_IMMEDIATE x imm8
  | 0x7, _, _, _ => ADD_IMMEDIATE x imm8
  | 0x8, _, _, 0x0 => LD_REGISTER x y
  | 0x8, _, _, 0x1 => OR x y
  | 0x8, _, _, 0x2 => AND x y
  | 0x8, _, _, 0x3 => XOR x y
  | 0x8, _, _, 0x4 => ADD_REGISTER x y
  | 0x8, _, _, 0x5 => SUB x y
  | 0x8, _, _, 0x6 => SHR x y
  | 0x8, _, _, 0x7 => SUBN x y
  | 0x8, _, _, 0xE => SHL x y
  | 0x9, _, _, 0x0 => SNE_REGISTER x y
  | 0xA, _, _, _ => LD_I imm12
  | 0xB, _, _, _ => JP_V0 imm12
  | 0xC, _, _, _ => RND x imm8
  | 0xD, _, _, _ => DRW x y n0
  | 0xE, _, 0x9, 0xE => SE_K x
  | 0xE, _, 0xA, 0x1 => SNE_K x
  | 0xF, _, 0x0, 0x7 => LD_X_DT x
  | 0xF, _, 0x0, 0xA => LD_X_K x
  | 0xF, _, 0x1, 0x5 => LD_DT_X x
  | 0xF, _, 0x1, 0x8 => LD_ST_X x
  | 0xF, _, 0x1, 0xE => ADD_I_X x
  | 0xF, _, 0x2, 0x9 => SPRITE_I x
  | 0xF, _, 0x3, 0x3 => BCD_I x
  | 0xF, _, 0x5, 0x5 => SAVE_I x
  | 0xF, _, 0x6, 0x5 => RESTORE_I x
  | _, _, _, _ => NOP
  end.

Lemma from_instruction_decode : forall n3 n2 n1 n0,
  n3 <= 15 -> n2 <= 15 -> n1 <= 15 -> n0 <= 15 ->
  from_instruction (n3 * 4096 + n2 * 256 + n1 * 16 + n0) = decode n3 n2 n1 n0.
Proof.
  intros n3 n2 n1 n0 H3 H2 H1 H0. set (w := n3 * 4096 + n2 * 256 + n1 * 16 + n0).
  unfold from_instruction, u12_unchecked_into.
  change 61440 with (N.shiftl (N.ones 4) 12). change 3840 with (N.shiftl (N.ones 4) 8).
  change 240 with (N.shiftl (N.ones 4) 4). change 15 with (N.ones 4).
  change 4095 with (N.ones 12). change 255 with (N.ones 8).
  rewrite !mask_field, !mask_low.
  change (2 ^ 12) with 4096. change (2 ^ 8) with 256. change (2 ^ 4) with 16.
  replace ((w / 4096) mod 16) with n3 by (unfold w; lia).
  replace ((w / 256) mod 16) with n2 by (unfold w; lia).
  replace ((w / 16) mod 16) with n1 by (unfold w; lia).
  replace (w mod 16) with n0 by (unfold w; lia).
  replace (w mod 256) with (n1 * 16 + n0) by (unfold w; lia).
  replace ((w mod 4096) mod 4096) with (n2 * 256 + n1 * 16 + n0) by (unfold w; lia).
  reflexivity.
Qed.

Lemma nibbles_of : forall w, w < 65536 -> exists n3 n2 n1 n0,
  n3 <= 15 /\ n2 <= 15 /\ n1 <= 15 /\ n0 <= 15 /\ w = n3 * 4096 + n2 * 256 + n1 * 16 + n0.
Proof.
  intros w H. exists (w / 4096), ((w / 256) mod 16), ((w / 16) mod 16), (w mod 16).
  repeat split; lia.
Qed.

(** ** Encoding *)

(** The register and sprite-height fields: nibbles. *)
Definition nibble_fields (o : opcode) : list N :=
  match o with
  | NOP | CLS | RET | DEREF_I | TRAP | TRAPRET | JP _ | CALL _ | LD_I _ | JP_V0 _ => []
  | SE_IMMEDIATE x _ | SNE_IMMEDIATE x _ | LD_IMMEDIATE x _ | ADD_IMMEDIATE x _ | RND x _
  | SE_K x | SNE_K x | LD_X_DT x | LD_X_K x | LD_DT_X x | LD_ST_X x | ADD_I_X x | SPRITE_I x
  | BCD_I x | SAVE_I x | RESTORE_I x => [x]
  | SE_REGISTER x y | SNE_REGISTER x y | LD_REGISTER x y | OR x y | AND x y | XOR x y
  | ADD_REGISTER x y | SUB x y | SHR x y | SUBN x y | SHL x y => [x; y]
  | DRW x y n => [x; y; n]
  end.

Definition byte_fields (o : opcode) : list N :=
  match o with
  | SE_IMMEDIATE _ v | SNE_IMMEDIATE _ v | LD_IMMEDIATE _ v | ADD_IMMEDIATE _ v | RND _ v => [v]
  | _ => []
  end.

Definition address_fields (o : opcode) : list N :=
  match o with
  | JP a | CALL a | LD_I a | JP_V0 a => [a]
  | _ => []
  end.

(** What the types [u8] and [U12] guarantee. *)
Definition well_typed (o : opcode) : Prop :=
  Forall (fun v => v <= 255) (nibble_fields o) /\
  Forall (fun v => v <= 255) (byte_fields o) /\
  Forall (fun v => v <= 4095) (address_fields o).

Definition nibbles_in_range (o : opcode) : Prop := Forall (fun v => v <= 15) (nibble_fields o).

Ltac forall_inv :=
  repeat match goal with
  | H : Forall _ (_ :: _) |- _ => inversion H; clear H; subst
  | H : Forall _ [] |- _ => clear H
  end.

(** The word of an opcode, as four digits. *)
Definition opcode_word (o : opcode) : N :=
  match o with
  | NOP => 0x0000
  | CLS => 0x00E0
  | RET => 0x00EE
  | DEREF_I => 0x00F8
  | TRAPRET => 0x00F9
  | TRAP => 0x00FA
  | JP a => 1 * 4096 + a
  | CALL a => 2 * 4096 + a
  | SE_IMMEDIATE x v => 3 * 4096 + x * 256 + v
  | SNE_IMMEDIATE x v => 4 * 4096 + x * 256 + v
  | SE_REGISTER x y => 5 * 4096 + x * 256 + y * 16 + 0
  | SNE_REGISTER x y => 9 * 4096 + x * 256 + y * 16 + 0
  | LD_IMMEDIATE x v => 6 * 4096 + x * 256 + v
  | ADD_IMMEDIATE x v => 7 * 4096 + x * 256 + v
  | LD_REGISTER x y => 8 * 4096 + x * 256 + y * 16 + 0
  | OR x y => 8 * 4096 + x * 256 + y * 16 + 1
  | AND x y => 8 * 4096 + x * 256 + y * 16 + 2
  | XOR x y => 8 * 4096 + x * 256 + y * 16 + 3
  | ADD_REGISTER x y => 8 * 4096 + x * 256 + y * 16 + 4
  | SUB x y => 8 * 4096 + x * 256 + y * 16 + 5
  | SHR x y => 8 * 4096 + x * 256 + y * 16 + 6
  | SUBN x y => 8 * 4096 + x * 256 + y * 16 + 7
  | SHL x y => 8 * 4096 + x * 256 + y * 16 + 14
  | LD_I a => 10 * 4096 + a
  | JP_V0 a => 11 * 4096 + a
  | RND x v => 12 * 4096 + x * 256 + v
  | DRW x y n => 13 * 4096 + x * 256 + y * 16 + n
  | SE_K x => 14 * 4096 + x * 256 + 0x9E
  | SNE_K x => 14 * 4096 + x * 256 + 0xA1
  | LD_X_DT x => 15 * 4096 + x * 256 + 0x07
  | LD_X_K x => 15 * 4096 + x * 256 + 0x0A
  | LD_DT_X x => 15 * 4096 + x * 256 + 0x15
  | LD_ST_X x => 15 * 4096 + x * 256 + 0x18
  | ADD_I_X x => 15 * 4096 + x * 256 + 0x1E
  | SPRITE_I x => 15 * 4096 + x * 256 + 0x29
  | BCD_I x => 15 * 4096 + x * 256 + 0x33
  | SAVE_I x => 15 * 4096 + x * 256 + 0x55
  | RESTORE_I x => 15 * 4096 + x * 256 + 0x65
  end.

Lemma as_instruction_word : forall o, well_typed o -> nibbles_in_range o ->
  as_instruction o = Done (opcode_word o).
Proof.
  intros o (T1 & T2 & T3) R.
  destruct o; cbn [nibble_fields byte_fields address_fields] in *;
    unfold nibbles_in_range in R; cbn [nibble_fields] in R; forall_inv;
    cbn [as_instruction opcode_word]; try reflexivity;
    first [ apply imm12_word; lia | apply imm8_word; lia | apply xy_word; lia ].
Qed.

Lemma opcode_word_lt : forall o, well_typed o -> nibbles_in_range o -> opcode_word o < 65536.
Proof.
  intros o (T1 & T2 & T3) R.
  destruct o; cbn [nibble_fields byte_fields address_fields] in *;
    unfold nibbles_in_range in R; cbn [nibble_fields] in R; forall_inv;
    cbn [opcode_word]; lia.
Qed.

Lemma decode_opcode_word : forall o, well_typed o -> nibbles_in_range o ->
  from_instruction (opcode_word o) = o.
Proof.
  assert (A : forall h a, h <= 15 -> a <= 4095 ->
    from_instruction (h * 4096 + a) = decode h (a / 256) ((a / 16) mod 16) (a mod 16)).
  { intros h a Hh Ha. rewrite <- from_instruction_decode by lia. f_equal. lia. }
  assert (B : forall h x v, h <= 15 -> x <= 15 -> v <= 255 ->
    from_instruction (h * 4096 + x * 256 + v) = decode h x (v / 16) (v mod 16)).
  { intros h x v Hh Hx Hv. rewrite <- from_instruction_decode by lia. f_equal. lia. }
  intros o (T1 & T2 & T3) R.
  destruct o; cbn [nibble_fields byte_fields address_fields] in *;
    unfold nibbles_in_range in R; cbn [nibble_fields] in R; forall_inv;
    cbn [opcode_word]; try reflexivity;
    first [ rewrite A by lia | rewrite from_instruction_decode by lia | rewrite B by lia ];
    cbn [decode]; try reflexivity; try (f_equal; lia).
Qed.

(** Encoding then decoding. *)
Theorem encode_decode : forall o, well_typed o -> nibbles_in_range o ->
  exists w, as_instruction o = Done w /\ w < 65536 /\ from_instruction w = o.
Proof.
  intros o T R. exists (opcode_word o). repeat split.
  - apply as_instruction_word; assumption.
  - apply opcode_word_lt; assumption.
  - apply decode_opcode_word; assumption.
Qed.

(** Encoding fails exactly on a register or height above 15. *)
Theorem encode_panics : forall o, well_typed o ->
  ((exists w, as_instruction o = Done w) <-> nibbles_in_range o).
Proof.
  intros o T. split.
  - intros (w & E). unfold nibbles_in_range. destruct T as (T1 & T2 & T3).
    destruct o; cbn [nibble_fields] in *; forall_inv;
      cbn [as_instruction] in E; unfold format_instruction_x_imm8, format_instruction_x_y, assert_ in E;
      cbn [N.leb N.compare Pos.compare Pos.compare_cont] in E; cbn [bind] in E;
      repeat match type of E with
      | context [if ?b then _ else _] => destruct b eqn:?; cbn [bind] in E; try discriminate
      end;
      repeat constructor; lia.
  - intros R. exists (opcode_word o). apply as_instruction_word; assumption.
Qed.

(** ** Decoding then encoding *)

Ltac nib H n :=
  let p := fresh "p" in
  destruct n as [|p]; [|do 4 (try (destruct p as [p|p|]; try (exfalso; lia)))].

Lemma decode_cases : forall n3 n2 n1 n0,
  n3 <= 15 -> n2 <= 15 -> n1 <= 15 -> n0 <= 15 ->
  decode n3 n2 n1 n0 = NOP \/
  (well_typed (decode n3 n2 n1 n0) /\ nibbles_in_range (decode n3 n2 n1 n0) /\
   opcode_word (decode n3 n2 n1 n0) = n3 * 4096 + n2 * 256 + n1 * 16 + n0).
Proof.
  assert (F1 : forall (P : N -> Prop) a, P a -> Forall P [a]) by (intros; repeat constructor; assumption).
  assert (F2 : forall (P : N -> Prop) a b, P a -> P b -> Forall P [a; b])
    by (intros; repeat constructor; assumption).
  assert (F3 : forall (P : N -> Prop) a b c, P a -> P b -> P c -> Forall P [a; b; c])
    by (intros; repeat constructor; assumption).
  intros n3 n2 n1 n0 H3 H2 H1 H0.
  Ltac fin F1 F2 F3 :=
    first [ left; reflexivity
          | right; cbn [decode];
            refine (conj (conj _ (conj _ _)) (conj _ _));
            [ cbn [nibble_fields]; first [ apply F3; lia | apply F2; lia | apply F1; lia | constructor ]
            | cbn [byte_fields]; first [ apply F1; lia | constructor ]
            | cbn [address_fields]; first [ apply F1; lia | constructor ]
            | unfold nibbles_in_range; cbn [nibble_fields];
              first [ apply F3; lia | apply F2; lia | apply F1; lia | constructor ]
            | cbn [opcode_word]; lia ] ].
  nib H3 n3; try (fin F1 F2 F3);
    try (nib H0 n0; first [fin F1 F2 F3 | nib H1 n1; first [ fin F1 F2 F3
                                                           | destruct n2; fin F1 F2 F3]]).
Qed.

Theorem decode_encode : forall w, w < 65536 ->
  from_instruction w <> NOP -> as_instruction (from_instruction w) = Done w.
Proof.
  intros w H N. destruct (nibbles_of w H) as (n3 & n2 & n1 & n0 & H3 & H2 & H1 & H0 & ->).
  rewrite from_instruction_decode in * by assumption.
  destruct (decode_cases n3 n2 n1 n0 H3 H2 H1 H0) as [E|(T & R & E)]; [contradiction|].
  rewrite as_instruction_word by assumption. f_equal. exact E.
Qed.

(** What decodes is well formed. *)
Theorem decode_well_typed : forall w, w < 65536 ->
  well_typed (from_instruction w) /\ nibbles_in_range (from_instruction w).
Proof.
  intros w H. destruct (nibbles_of w H) as (n3 & n2 & n1 & n0 & H3 & H2 & H1 & H0 & ->).
  rewrite from_instruction_decode in * by assumption.
  destruct (decode_cases n3 n2 n1 n0 H3 H2 H1 H0) as [E|(T & R & E)]; [|split; assumption].
  rewrite E. repeat constructor.
Qed.
