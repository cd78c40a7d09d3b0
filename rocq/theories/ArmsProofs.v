(** * ArmsProofs: the arms in the order of the source, and the model. *)

From Coq Require Import Permutation.
From Verif Require Import Base BaseFacts Text Location Token Parser U12 Opcode Instruction Arms SpecArms.
Open Scope N_scope.

(** ** instruction.rs *)

(** Either the mnemonic is that one, or it is not and the test says so. *)
Ltac by_name m :=
  repeat match goal with
  | |- context [str_eqb m (u ?n)] =>
      let E := fresh "E" in destruct (str_eqb m (u n)) eqn:E; [apply str_eqb_eq in E; subst m |]
  end.

Ltac settle :=
  repeat match goal with
  | |- context [str_eqb (u ?a) (u ?b)] => let t := eval vm_compute in (str_eqb (u a) (u b)) in change (str_eqb (u a) (u b)) with t
  end; cbv iota.

Lemma arms_0_same m : first_arm (arms_0 m) = Ok (opcode_0 m).
Proof. unfold arms_0, opcode_0, named. by_name m; settle; reflexivity. Qed.

Lemma arms_1_same m f l : first_arm (arms_1 m f l) = opcode_1 m f l.
Proof.
  unfold arms_1, opcode_1, named. by_name m; settle; destruct f; cbn [first_arm]; try reflexivity;
  destruct (resolve_label _ l); reflexivity.
Qed.

Ltac outcomes :=
  repeat match goal with
  | |- context [resolve_label ?a ?b] => destruct (resolve_label a b); cbn [rbind first_arm]
  | |- context [to_8_bit ?a] => destruct (to_8_bit a); cbn [rbind first_arm]
  | |- context [to_4_bit ?a] => destruct (to_4_bit a); cbn [rbind first_arm]
  end.

Lemma arms_2_same m f g l : first_arm (arms_2 m f g l) = opcode_2 m f g l.
Proof.
  unfold arms_2, opcode_2, named. by_name m; settle; try reflexivity;
  destruct f as [n|x| | | | | | | |]; try (destruct x as [|x]); destruct g; cbn [first_arm rbind]; try reflexivity; outcomes; reflexivity.
Qed.

Theorem instruction_arms_same m fs l : instruction_from_arms m fs l = instruction_from m fs l.
Proof.
  unfold instruction_from_arms, instruction_from.
  destruct fs as [|f [|g [|h [|k fs]]]].
  - rewrite arms_0_same. reflexivity.
  - rewrite arms_1_same. cbn [rbind]. destruct (opcode_1 (to_lowercase m) f l); reflexivity.
  - rewrite arms_2_same. cbn [rbind]. destruct (opcode_2 (to_lowercase m) f g l); reflexivity.
  - cbn [rbind]. unfold arm_3_numeric, arm_3_label, opcode_3, named.
    destruct (str_eqb (to_lowercase m) (u "drw")); [|reflexivity].
    destruct f; try reflexivity; destruct g; try reflexivity; destruct h; cbn [assigned rbind]; try reflexivity.
    + destruct (to_4_bit n); reflexivity.
    + destruct (resolve_label id l) as [a|]; cbn [assigned rbind]; [|reflexivity]. destruct (to_4_bit a); reflexivity.
  - reflexivity.
Qed.

Ltac count := unfold at_most_one; cbn [answers flat_map app length]; lia.

Lemma one_0 m : at_most_one (arms_0 m).
Proof. unfold arms_0, named. by_name m; settle; count. Qed.

Lemma one_1 m f l : at_most_one (arms_1 m f l).
Proof. unfold arms_1, named. by_name m; settle; destruct f; count. Qed.

Lemma one_2 m f g l : at_most_one (arms_2 m f g l).
Proof.
  unfold arms_2, named. by_name m; settle; try count;
  destruct f as [n|x| | | | | | | |]; try (destruct x as [|x]); destruct g; count.
Qed.

Lemma one_3 m f g h l : at_most_one [arm_3_numeric m f g h; arm_3_label m f g h l].
Proof. unfold arm_3_numeric, arm_3_label, named. destruct (str_eqb m (u "drw")); [|count]. destruct f, g, h; count. Qed.

Lemma first_answers rs : first_arm rs = match answers rs with [] => Ok None | Ok o :: _ => Ok (Some o) | Err e :: _ => Err e end.
Proof. induction rs as [|[[o|e]|] rs IH]; cbn [first_arm answers flat_map app]; [reflexivity .. |]. exact IH. Qed.

Lemma answers_permuted {T} (a b : list (option T)) : Permutation a b -> Permutation (answers a) (answers b).
Proof.
  intros P. induction P; cbn [answers flat_map].
  - constructor.
  - apply Permutation_app_head. exact IHP.
  - rewrite !app_assoc. apply Permutation_app_tail, Permutation_app_comm.
  - etransitivity; eassumption.
Qed.

Theorem any_order rs rs' : at_most_one rs -> Permutation rs rs' -> first_arm rs' = first_arm rs.
Proof.
  intros H P. rewrite !first_answers. pose proof (answers_permuted _ _ P) as Q. unfold at_most_one in H.
  destruct (answers rs) as [|r [|]]; cbn [length] in H; [| |lia].
  - now rewrite (Permutation_nil Q).
  - now rewrite (Permutation_length_1_inv Q).
Qed.

(** ** opcode.rs *)

Lemma digit_cases n : n < 16 ->
  n = 0 \/ n = 1 \/ n = 2 \/ n = 3 \/ n = 4 \/ n = 5 \/ n = 6 \/ n = 7 \/
  n = 8 \/ n = 9 \/ n = 10 \/ n = 11 \/ n = 12 \/ n = 13 \/ n = 14 \/ n = 15.
Proof. lia. Qed.

Ltac digit n H := destruct (digit_cases n H) as [-> | [-> | [-> | [-> | [-> | [-> | [-> | [-> | [-> | [-> | [-> | [-> | [-> | [-> | [-> | -> ]]]]]]]]]]]]]]].

Lemma digit_bound w k s : N.shiftr (N.land w (N.shiftl 15 k)) s < 16 \/ s <> k.
Proof.
  destruct (N.eq_dec s k) as [-> |]; [left|now right].
  rewrite N.shiftr_land. rewrite N.shiftr_shiftl_l, N.sub_diag by lia. change (N.shiftl 15 0) with (N.ones 4).
  rewrite N.land_ones. apply N.mod_lt. discriminate.
Qed.

(** The matching arms but the last. *)
Definition decoders (digits : list N) (x y : byte) (imm12 : U12) (imm8 imm4 : byte) : list (option opcode) :=
  map (fun a : list (option N) * opcode => if fits (fst a) digits then Some (snd a) else None) (removelast (decode_arms x y imm12 imm8 imm4)).

Lemma few n : Nat.leb n 1 = true -> (n <= 1)%nat.
Proof. apply Nat.leb_le. Qed.

Lemma decoders_one n3 n2 n1 n0 x y i12 i8 i4 : n3 < 16 -> n1 < 16 -> n0 < 16 ->
  at_most_one (decoders [n3; n2; n1; n0] x y i12 i8 i4).
Proof.
  intros H3 H1 H0. unfold at_most_one. digit n3 H3.
  1: destruct n2 as [|n2]; digit n1 H1; digit n0 H0; apply few; reflexivity.
  15, 14: digit n1 H1; digit n0 H0; apply few; reflexivity.
  all: first [apply few; reflexivity | digit n0 H0; apply few; reflexivity].
Qed.

(** What [from_instruction] does with the digits. *)
Definition decoded (n3 n2 n1 n0 : N) (imm12 : U12) (imm8 imm4 : byte) : opcode :=
  let x := n2 in
  let y := n1 in
  match n3, n2, n1, n0 with
  | 0x0, 0x0, 0xE, 0x0 => CLS
  | 0x0, 0x0, 0xE, 0xE => RET
  | 0x0, 0x0, 0xF, 0x8 => DEREF_I
  | 0x0, 0x0, 0xF, 0x9 => TRAPRET
  | 0x0, 0x0, 0xF, 0xA => TRAP
  | 0x1, _, _, _ => JP imm12
  | 0x2, _, _, _ => CALL imm12
  | 0x3, _, _, _ => SE_IMMEDIATE x imm8
  | 0x4, _, _, _ => SNE_IMMEDIATE x imm8
  | 0x5, _, _, 0x0 => SE_REGISTER x y
  | 0x6, _, _, _ => LD_IMMEDIATE x imm8
  | 0x7, _, _, _ => ADD_IMMEDIATE x imm8
  | 0x8, _, _, 0x0 => LD_REGISTER x y
  | 0x8, _, _, 0x1 => OR x y
  | 0x8, _, _, 0x2 => AND x y
  | 0x8, _, _, 0x3 => XOR x y
  | 0x8, _, _, 0x4 => ADD_REGISTER x y
  | 0x8, _, _, 0x5 => SUB x y
  | 0x8, _, _, 0x6 => SHR x y
  | 0x8, _, _, 0x7 => SUBN x y
  | 0x8, _, _, 0xE => SHL x y
  | 0x9, _, _, 0x0 => SNE_REGISTER x y
  | 0xA, _, _, _ => LD_I imm12
  | 0xB, _, _, _ => JP_V0 imm12
  | 0xC, _, _, _ => RND x imm8
  | 0xD, _, _, _ => DRW x y imm4
  | 0xE, _, 0x9, 0xE => SE_K x
  | 0xE, _, 0xA, 0x1 => SNE_K x
  | 0xF, _, 0x0, 0x7 => LD_X_DT x
  | 0xF, _, 0x0, 0xA => LD_X_K x
  | 0xF, _, 0x1, 0x5 => LD_DT_X x
  | 0xF, _, 0x1, 0x8 => LD_ST_X x
  | 0xF, _, 0x1, 0xE => ADD_I_X x
  | 0xF, _, 0x2, 0x9 => SPRITE_I x
  | 0xF, _, 0x3, 0x3 => BCD_I x
  | 0xF, _, 0x5, 0x5 => SAVE_I x
  | 0xF, _, 0x6, 0x5 => RESTORE_I x
  | _, _, _, _ => NOP
  end.

Lemma decoded_arms n3 n2 n1 n0 i12 i8 i4 : n3 < 16 -> n1 < 16 -> n0 < 16 ->
  match List.find (fun a => fits (fst a) [n3; n2; n1; n0]) (decode_arms n2 n1 i12 i8 i4) with Some a => snd a | None => NOP end
  = decoded n3 n2 n1 n0 i12 i8 i4.
Proof.
  intros H3 H1 H0. digit n3 H3.
  1: destruct n2 as [|n2]; digit n1 H1; digit n0 H0; reflexivity.
  15, 14: digit n1 H1; digit n0 H0; reflexivity.
  all: try reflexivity; digit n0 H0; reflexivity.
Qed.

Theorem decode_arms_same w : from_instruction_arms w = from_instruction w.
Proof.
  change (from_instruction w) with
    (decoded (N.shiftr (N.land w 61440) 12) (N.shiftr (N.land w 3840) 8) (N.shiftr (N.land w 240) 4) (N.land w 15)
       (u12_unchecked_into (N.land w 4095)) (N.land w 255) (N.land w 15)).
  unfold from_instruction_arms. apply decoded_arms.
  - destruct (digit_bound w 12 12) as [H | H]; [exact H | contradiction].
  - destruct (digit_bound w 4 4) as [H | H]; [exact H | contradiction].
  - destruct (digit_bound w 0 0) as [H | H]; [rewrite N.shiftr_0_r in H; exact H | contradiction].
Qed.
