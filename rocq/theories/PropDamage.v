(** * PropDamage: property C83, with instances. *)

From Verif Require Import Base Text U12 Location Token Scanner Parser DataRange Assembler IHex Main
  SpecLex SpecLayout SpecUtf8 SpecHex SpecDamage BaseFacts DamageProofs PropOutput PropText.
Open Scope string_scope.
Open Scope list_scope.
Open Scope N_scope.

(** ** C83: damage to the output is noticed. *)

(** One wrong character: the file is refused, or means what it meant. *)
Theorem C83_character : forall e file s text text', Forall scalar s -> assemble_text e file s = Done (Ok text) ->
  one_wrong text text' -> read_hex text' = None \/ read_hex text' = read_hex text.
Proof.
  intros e file s text text' Sc H W. destruct (C38_written e file s text Sc H) as (image & R & _). rewrite R.
  exact (read_hex_wrong text text' image R W).
Qed.
Print Assumptions C83_character.

(** A part of the file, or the file with something after it, is refused. *)
Theorem C83_cut : forall e file s text p q, Forall scalar s -> assemble_text e file s = Done (Ok text) ->
  text = p ++ q -> q <> [] -> read_hex p = None.
Proof.
  intros e file s text p q Sc H -> Nq. destruct (C38_written e file s _ Sc H) as (image & R & _).
  destruct (read_hex p) as [m|] eqn:E; [|reflexivity]. exfalso. exact (read_hex_prefix p q m image Nq E R).
Qed.
Print Assumptions C83_cut.

Theorem C83_more : forall e file s text q, Forall scalar s -> assemble_text e file s = Done (Ok text) ->
  q <> [] -> read_hex (text ++ q) = None.
Proof.
  intros e file s text q Sc H Nq. destruct (C38_written e file s _ Sc H) as (image & R & _).
  destruct (read_hex (text ++ q)) as [m|] eqn:E; [|reflexivity]. exfalso. exact (read_hex_prefix text q image m Nq R E).
Qed.
Print Assumptions C83_more.

(** The same of any file that can be read. *)
Theorem C83_any : forall text text' image, read_hex text = Some image -> one_wrong text text' ->
  read_hex text' = None \/ read_hex text' = Some image.
Proof. exact read_hex_wrong. Qed.
Print Assumptions C83_any.

(** A digit changed, one lost, one added, a lower-case digit, and the file without its end. *)
Example C83_instance :
  let text := lines [":02020000ABCD84"; ":00000001FF"] in
  assemble_text sample_env (u "in.s") (lines [".org $200"; ".db $AB, $CD"]) = Done (Ok text) /\
  read_hex text = Some [(0x200, 0xAB); (0x201, 0xCD)] /\
  one_wrong text (lines [":02020000ABCE84"; ":00000001FF"]) /\ read_hex (lines [":02020000ABCE84"; ":00000001FF"]) = None /\
  one_wrong text (lines [":02020000aBCD84"; ":00000001FF"]) /\
  read_hex (lines [":02020000aBCD84"; ":00000001FF"]) = Some [(0x200, 0xAB); (0x201, 0xCD)] /\
  read_hex (lines [":02020000ABCD84"]) = None.
Proof.
  cbn zeta. split; [vm_compute; reflexivity|]. split; [vm_compute; reflexivity|].
  split; [exact (wrong_changed (u ":02020000ABC") (c_ "D") (c_ "E") (lines ["84"; ":00000001FF"]) ltac:(discriminate))|].
  split; [vm_compute; reflexivity|].
  split; [exact (wrong_changed (u ":02020000") (c_ "A") (c_ "a") (lines ["BCD84"; ":00000001FF"]) ltac:(discriminate))|].
  split; vm_compute; reflexivity.
Qed.

(** Two wrong characters may go unnoticed, and so may a lost line. *)
Example C83_unnoticed :
  read_hex (lines [":02020000CDAB84"; ":00000001FF"]) = Some [(0x200, 0xCD); (0x201, 0xAB)] /\
  read_hex (lines [":02020000ACCC84"; ":00000001FF"]) = Some [(0x200, 0xAC); (0x201, 0xCC)] /\
  read_hex (lines [":00000001FF"]) = Some [].
Proof. split; [vm_compute; reflexivity|]. split; vm_compute; reflexivity. Qed.
