(** * C103: the arms of the matches. *)

From Coq Require Import String Permutation.
From Verif Require Import Base BaseFacts Text Parser U12 Opcode Instruction Arms SpecArms ArmsProofs.
Import ListNotations.
Open Scope string_scope.
Open Scope list_scope.
Open Scope N_scope.

(** C103.  Taking the arms in the order of the source gives what the model gives, in which they are grouped by mnemonic. *)
Theorem C103_instruction : forall m fields labels,
  instruction_from_arms m fields labels = instruction_from m fields labels.
Proof. exact instruction_arms_same. Qed.
Print Assumptions C103_instruction.

Theorem C103_decode : forall w, from_instruction_arms w = from_instruction w.
Proof. exact decode_arms_same. Qed.
Print Assumptions C103_decode.

(** No two arms apply to the same instruction. *)
Theorem C103_one_arm : forall m f g h labels,
  at_most_one (arms_0 m) /\ at_most_one (arms_1 m f labels) /\ at_most_one (arms_2 m f g labels) /\
  at_most_one [arm_3_numeric m f g h; arm_3_label m f g h labels].
Proof. intros. exact (conj (one_0 m) (conj (one_1 m f labels) (conj (one_2 m f g labels) (one_3 m f g h labels)))). Qed.
Print Assumptions C103_one_arm.

(** So the order of the arms does not matter. *)
Theorem C103_any_order : forall m f g labels arms,
  (Permutation (arms_0 m) arms -> first_arm arms = first_arm (arms_0 m)) /\
  (Permutation (arms_1 m f labels) arms -> first_arm arms = first_arm (arms_1 m f labels)) /\
  (Permutation (arms_2 m f g labels) arms -> first_arm arms = first_arm (arms_2 m f g labels)).
Proof.
  intros. split; [|split]; apply any_order.
  - apply one_0.
  - apply one_1.
  - apply one_2.
Qed.
Print Assumptions C103_any_order.

(** Of the arms that take a word apart all but the last exclude each other. *)
Theorem C103_decode_one_arm : forall n3 n2 n1 n0 x y imm12 imm8 imm4, n3 < 16 -> n1 < 16 -> n0 < 16 ->
  at_most_one (decoders [n3; n2; n1; n0] x y imm12 imm8 imm4).
Proof. exact decoders_one. Qed.
Print Assumptions C103_decode_one_arm.

(** ** Every arm is needed *)

Definition name : str := u "a".
Definition some_labels : label_map := [(name, 5)].
Definition some_fields : list field :=
  [FNumeric 5; FRegister 0; FDelayTimer; FSoundTimer; FKeypad; FIndex; FIndexIndirect; FIdentifier name; FBcd; FSprite].

Definition mnemonics : list string :=
  ["nop"; "cls"; "ret"; "trap"; "trapret"; "jp"; "call"; "shr"; "shl"; "skp"; "sknp"; "ld"; "se"; "sne"; "add"; "or"; "and"; "xor";
   "sub"; "subn"; "rnd"; "drw"].

Definition succeeds (arms : list outcome) (i : nat) : bool := match nth i arms None with Some (Ok _) => true | _ => false end.

(** For each arm an instruction it is for, looked for once. *)
Definition used {T} (l : list T) (p : T -> nat -> bool) (n : nat) : list (option T) := map (fun i => List.find (fun t => p t i) l) (seq 0 n).
Definition used_0 : list (option string) := Eval vm_compute in used mnemonics (fun m => succeeds (arms_0 (u m))) 5.
Definition used_1 : list (option (string * field)) := Eval vm_compute in
  used (list_prod mnemonics some_fields) (fun t => succeeds (arms_1 (u (fst t)) (snd t) some_labels)) 8.
Definition used_2 : list (option (string * (field * field))) := Eval vm_compute in
  used (list_prod mnemonics (list_prod some_fields some_fields))
       (fun t => succeeds (arms_2 (u (fst t)) (fst (snd t)) (snd (snd t)) some_labels)) 33.

Definition all_below (n : nat) (p : nat -> bool) : bool := forallb p (seq 0 n).

Lemma all_below_spec n p : all_below n p = true -> forall i, (i < n)%nat -> p i = true.
Proof. intros H i Hi. unfold all_below in H. rewrite forallb_forall in H. apply H, in_seq. lia. Qed.

Theorem C103_every_arm :
  (forall i, (i < 5)%nat -> exists m, succeeds (arms_0 m) i = true) /\
  (forall i, (i < 8)%nat -> exists m f labels, succeeds (arms_1 m f labels) i = true) /\
  (forall i, (i < 33)%nat -> exists m f g labels, succeeds (arms_2 m f g labels) i = true).
Proof.
  split; [|split].
  - assert (H : all_below 5 (fun i => match nth i used_0 None with Some m => succeeds (arms_0 (u m)) i | None => false end) = true)
      by (vm_compute; reflexivity).
    intros i Hi. apply (all_below_spec _ _ H) in Hi. destruct (nth i used_0 None) as [m|]; [eauto | discriminate Hi].
  - assert (H : all_below 8 (fun i => match nth i used_1 None with Some (m, f) => succeeds (arms_1 (u m) f some_labels) i | None => false end) = true)
      by (vm_compute; reflexivity).
    intros i Hi. apply (all_below_spec _ _ H) in Hi. destruct (nth i used_1 None) as [[m f]|]; [eauto | discriminate Hi].
  - assert (H : all_below 33 (fun i => match nth i used_2 None with Some (m, (f, g)) => succeeds (arms_2 (u m) f g some_labels) i | None => false end) = true)
      by (vm_compute; reflexivity).
    intros i Hi. apply (all_below_spec _ _ H) in Hi. destruct (nth i used_2 None) as [[m [f g]]|]; [eauto | discriminate Hi].
Qed.
Print Assumptions C103_every_arm.

(** ** Instances *)

Example C103_instance :
  instruction_from_arms (u "LD") [FRegister 3; FIdentifier name] some_labels = Ok (LD_IMMEDIATE 3 5) /\
  instruction_from_arms (u "drw") [FRegister 3; FRegister 4; FIdentifier name] some_labels = Ok (DRW 3 4 5) /\
  instruction_from_arms (u "jp") [FRegister 3; FNumeric 4] some_labels = Err (NoMatchingFormat (u "jp") (Some (u "register:3, literal:$4"))) /\
  from_instruction_arms 0xD345 = DRW 3 4 5 /\ from_instruction_arms 0x00EF = NOP.
Proof. vm_compute. repeat split; reflexivity. Qed.

(** The arms with a label come second, but could come first. *)
Example C103_instance_order :
  first_arm (rev (arms_2 (u "ld") (FRegister 3) (FIdentifier name) some_labels)) = Ok (Some (LD_IMMEDIATE 3 5)).
Proof. vm_compute. reflexivity. Qed.

(** In [opcode.rs] the last arm has to be the last. *)
Example C103_last_arm :
  match List.find (fun a => fits (fst a) [0xD; 3; 4; 5]) (rev (decode_arms 3 4 0x345 0x45 5)) with Some a => snd a | None => CLS end = NOP.
Proof. vm_compute. reflexivity. Qed.
