(** * InverseProofs: an instruction is determined by its word. *)

From Verif Require Import Base Text U12 Parser Opcode Instruction Assembler SpecLex SpecOpcode SpecDisasm SpecInverse BaseFacts
  OpcodeProofs InstructionProofs InstructionTheorems DecodeProofs.
Open Scope N_scope.

Lemma word_digits : forall n3 n2 n1 n0, n2 <= 15 -> n1 <= 15 -> n0 <= 15 ->
  let w := n3 * 4096 + (n2 * 256 + (n1 * 16 + (n0 * 1 + 0))) in
  x_of w = n2 /\ y_of w = n1 /\ w mod 4096 = n2 * 256 + n1 * 16 + n0 /\ w mod 256 = n1 * 16 + n0 /\ w mod 16 = n0.
Proof. intros n3 n2 n1 n0 H2 H1 H0 w. unfold x_of, y_of, w. repeat split; lia. Qed.

Ltac in_digits :=
  repeat match goal with |- context [u ?s] => let l := eval compute in (u s) in change (u s) with l end;
  rewrite !word4; nibbles.

Lemma value_operands : ~ value_operand "Vx" /\ ~ value_operand "Vy" /\
  value_operand "addr" /\ value_operand "nn" /\ value_operand "n".
Proof. unfold value_operand. cbn [In]. intuition discriminate. Qed.

Lemma encodes_read_back : forall lookup m fields w, Forall field_ok fields -> encodes lookup m fields w ->
  exists pattern name operands,
    row_for m fields (pattern, name, operands) /\ matches pattern w /\ w < 65536 /\
    (In (c_ "y") (u pattern) -> ~ In "Vy"%string operands -> y_of w = 0) /\
    Forall2 (read_back lookup w) operands fields.
Proof.
  intros lookup m fields w F (pattern & name & operands & x & y & v & R & B & Y & ->).
  exists pattern, name, operands. split; [exact R|].
  (* the registers are nibbles where they appear *)
  set (x' := if existsb (String.eqb "Vx") operands then x else 0).
  set (y' := if existsb (String.eqb "Vy") operands then y else 0).
  assert (Bd : x' <= 15 /\ y' <= 15).
  { destruct R as (I & _ & Fi). subst x' y'.
    split_row I; forall2_inv; forall_inv; cbn [existsb String.eqb Ascii.eqb Bool.eqb orb];
      repeat match goal with H : fits _ _ |- _ => fit H end; binds_all;
      repeat match goal with X : FRegister _ = FRegister _ |- _ => injection X as X; subst end; cbn [field_ok] in *; split; lia. }
  destruct Bd as [Bx By].
  assert (W : word x y v (u pattern) = word x' y' v (u pattern)).
  { destruct R as (I & _). subst x' y'.
    split_row I; cbn [existsb String.eqb Ascii.eqb Bool.eqb orb]; rewrite ?Y by (cbn [In]; intuition discriminate);
      in_digits; reflexivity. }
  rewrite W. destruct (word_matches (pattern, name, operands) x' y' v (proj1 R) Bx By) as [M L].
  cbn [pattern_of fst] in M, L. split; [exact M|]. split; [exact L|].
  assert (G2 : (v / 256) mod 16 <= 15) by lia. assert (G1 : (v / 16) mod 16 <= 15) by lia. assert (G0 : v mod 16 <= 15) by lia.
  assert (V3 : v <= 4095 -> (v / 256) mod 16 * 256 + (v / 16) mod 16 * 16 + v mod 16 = v) by lia.
  assert (V2 : v <= 255 -> (v / 16) mod 16 * 16 + v mod 16 = v) by lia.
  assert (V1 : v <= 15 -> v mod 16 = v) by lia.
  split.
  - destruct R as (I & _). subst y'. intros Yp Yo.
    assert (E : existsb (String.eqb "Vy") operands = false).
    { destruct (existsb (String.eqb "Vy") operands) eqn:E; [|reflexivity]. exfalso. apply Yo. apply existsb_exists in E.
      destruct E as (q & Iq & Eq). apply String.eqb_eq in Eq. subst q. exact Iq. }
    rewrite E in *.
    split_row I; cbn [existsb String.eqb Ascii.eqb Bool.eqb orb] in E; try discriminate;
      try (exfalso; revert Yp; vm_compute; intuition discriminate);
      in_digits; match goal with |- y_of (?a * 4096 + (?b * 256 + (?c * 16 + (?d * 1 + 0)))) = _ =>
        destruct (word_digits a b c d) as (_ & -> & _); try assumption; try lia; try reflexivity end.
  - destruct R as (I & _ & Fi). clear W M L Y. subst x' y'.
    split_row I; forall2_inv; cbn [existsb String.eqb Ascii.eqb Bool.eqb orb] in *;
      repeat first [ apply Forall2_nil | apply Forall2_cons ]; (split; [assumption|]);
      binds_all;
      (refine (conj _ (conj _ (conj _ (conj _ _)))); intros Z; try discriminate Z);
      in_digits; generalize dependent ((v / 256) mod 16); generalize dependent ((v / 16) mod 16); generalize dependent (v mod 16); intros; match goal with |- context [?a * 4096 + (?b * 256 + (?c * 16 + (?d * 1 + 0)))] =>
        let D := fresh "D" in pose proof (word_digits a b c d) as D; cbv zeta in D; destruct D as (D1 & D2 & D3 & D4 & D5);
        [lia | lia | lia |]; rewrite ?D1, ?D2, ?D3, ?D4, ?D5 end;
      match goal with
      | H : value_of _ _ = Some _ |- value_of _ _ = Some _ => rewrite H; f_equal; cbn [limit String.eqb Ascii.eqb Bool.eqb] in *; symmetry; auto
      | |- _ => assumption
      end.
Qed.

(** ** Two instructions *)

Definition operand_names : list string := ["Vx"; "Vy"; "V0"; "I"; "[I]"; "DT"; "ST"; "K"; "F"; "B"; "addr"; "nn"; "n"]%string.

Lemma read_back_same : forall lookup lookup' w o f f', In o operand_names ->
  read_back lookup w o f -> read_back lookup' w o f' -> same_operand lookup lookup' f f'.
Proof.
  intros lookup lookup' w o f f' I (F & X & Y & A & B & C) (F' & X' & Y' & A' & B' & C').
  assert (P : In o ["Vx"; "Vy"]%string \/ In o ["V0"; "I"; "[I]"; "DT"; "ST"; "K"; "F"; "B"]%string \/ value_operand o).
  { unfold operand_names in I. change (In o (["Vx"; "Vy"]%string ++ ["V0"; "I"; "[I]"; "DT"; "ST"; "K"; "F"; "B"]%string ++ ["addr"; "nn"; "n"]%string)%list) in I.
    rewrite !in_app_iff in I. exact I. }
  destruct P as [P|[P|P]].
  - left. destruct P as [<-|[<-|[]]]; [rewrite (X eq_refl), (X' eq_refl) | rewrite (Y eq_refl), (Y' eq_refl)]; split; reflexivity.
  - left. cbn [In] in P. repeat (destruct P as [P|P]; [subst o; fit F; fit F'; split; reflexivity|]). contradiction.
  - right. assert (V : is_value f = true /\ is_value f' = true).
    { destruct (fits_inv_const _ _ F) as (_ & _ & _ & _ & _ & _ & _ & _ & _ & _ & V).
      destruct (fits_inv_const _ _ F') as (_ & _ & _ & _ & _ & _ & _ & _ & _ & _ & V').
      specialize (V P). specialize (V' P).
      destruct V as [[? ->]|[? ->]], V' as [[? ->]|[? ->]]; split; reflexivity. }
    destruct V as [V V']. split; [exact V|]. split; [exact V'|].
    destruct P as [<-|[<-|[<-|[]]]]; [exists (w mod 4096) | exists (w mod 256) | exists (w mod 16)]; auto.
Qed.

Lemma table_operands : forall pattern name operands, In (pattern, name, operands) table ->
  Forall (fun o => In o operand_names) operands.
Proof.
  assert (C : forallb (fun row => forallb (fun o => existsb (String.eqb o) operand_names) (snd row)) table = true)
    by (vm_compute; reflexivity).
  intros pattern name operands I. rewrite forallb_forall in C. specialize (C _ I). cbn [snd] in C.
  rewrite forallb_forall in C. apply Forall_forall. intros o Io. specialize (C o Io). apply existsb_exists in C.
  destruct C as (q & Iq & E). apply String.eqb_eq in E. subst q. exact Iq.
Qed.

Lemma read_back_all : forall lookup lookup' w os fs fs',
  Forall (fun o => In o operand_names) os ->
  Forall2 (read_back lookup w) os fs -> Forall2 (read_back lookup' w) os fs' -> Forall2 (same_operand lookup lookup') fs fs'.
Proof.
  intros lookup lookup' w os fs fs' T H. revert fs' T. induction H as [|o f os fs Hf H IH]; intros fs' T H'.
  - inversion H'. constructor.
  - inversion H' as [|? f' ? fs'' Hf' Hr]; subst. inversion T as [|? ? To Tr]; subst.
    constructor; [exact (read_back_same _ _ _ _ _ _ To Hf Hf') | apply IH; assumption].
Qed.

(** ** The words there are *)

(** The operands a word asks for, written in digits. *)
Definition written (w : N) (o : string) : field :=
  if String.eqb o "Vx" then FRegister (x_of w)
  else if String.eqb o "Vy" then FRegister (y_of w)
  else if String.eqb o "addr" then FNumeric (w mod 4096)
  else if String.eqb o "nn" then FNumeric (w mod 256)
  else if String.eqb o "n" then FNumeric (w mod 16)
  else if String.eqb o "V0" then FRegister 0
  else if String.eqb o "I" then FIndex
  else if String.eqb o "[I]" then FIndexIndirect
  else if String.eqb o "DT" then FDelayTimer
  else if String.eqb o "ST" then FSoundTimer
  else if String.eqb o "K" then FKeypad
  else if String.eqb o "F" then FSprite
  else FBcd.

Lemma written_ok : forall w os, Forall field_ok (map (written w) os).
Proof.
  intros w os. apply Forall_forall. intros f If. apply in_map_iff in If. destruct If as (o & <- & _). unfold written.
  repeat match goal with |- context [if ?b then _ else _] => destruct b end; cbn [field_ok]; unfold x_of, y_of; try exact I; lia.
Qed.

Lemma encodes_written : forall lookup w pattern name operands, w < 65536 ->
  In (pattern, name, operands) table -> matches pattern w ->
  (In (c_ "y") (u pattern) -> ~ In "Vy"%string operands -> y_of w = 0) ->
  encodes lookup (u name) (map (written w) operands) w.
Proof.
  intros lookup w pattern name operands L I M Y.
  exists pattern, name, operands, (x_of w), (if existsb (String.eqb "Vy") operands then y_of w else 0),
    (if existsb (String.eqb "addr") operands then w mod 4096
     else if existsb (String.eqb "nn") operands then w mod 256 else w mod 16).
  split; [|split; [|split]].
  - split; [exact I|]. split; [split_row I; reflexivity|].
    split_row I; repeat first [apply Forall2_nil | apply Forall2_cons]; cbn [written String.eqb Ascii.eqb Bool.eqb];
      try constructor; try reflexivity; unfold value_operand; cbn [In]; tauto.
  - split_row I; repeat first [apply Forall2_nil | apply Forall2_cons]; cbn [existsb written String.eqb Ascii.eqb Bool.eqb orb];
      (refine (conj _ (conj _ _)); [intros X; try discriminate; reflexivity
                                   | intros X; try discriminate; reflexivity
                                   | intros X; first [ exfalso; clear - X; cbv [value_operand In] in X; intuition discriminate
                                                     | cbn [value_of limit String.eqb Ascii.eqb Bool.eqb];
                                                       split; [reflexivity | lia]]]).
  - intros Ny. destruct (existsb (String.eqb "Vy") operands) eqn:E; [|reflexivity]. exfalso. apply Ny. apply existsb_exists in E.
    destruct E as (q & Iq & Eq). apply String.eqb_eq in Eq. subst q. exact Iq.
  - unfold matches in M. rewrite <- M at 1. clear M.
    split_row I; cbn [existsb String.eqb Ascii.eqb Bool.eqb orb]; in_digits;
      try reflexivity;
      try (rewrite Y; [reflexivity | vm_compute; tauto | cbn [In]; intuition discriminate]);
      lia.
Qed.
