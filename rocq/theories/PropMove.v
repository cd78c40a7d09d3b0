(** * PropMove: property C56, with instances. *)

From Verif Require Import Base Text U12 Location Token Scanner Parser Directive Opcode Instruction DataRange
  Assembler SpecLex SpecOpcode SpecRefusal SpecLayout SpecMeta SpecRewrite SpecMove
  BaseFacts LayoutProofs EmitProofs PropLayout RewriteProofs MoveProofs.
Open Scope string_scope.
Open Scope list_scope.
Open Scope N_scope.

(** ** C56: a program can be moved.

    Without references to addresses, its blocks move as a whole, exactly if there is room. *)
Theorem C56_blocks : forall k p rs', Forall node_ok p -> section_starts p -> position_independent p ->
  (assemble (moved k p) = Done (Ok rs') <->
   exists rs, assemble p = Done (Ok rs) /\ room k p /\ rs' = map (raise k) rs).
Proof. exact assemble_moved. Qed.
Print Assumptions C56_blocks.

(** Labels move along, constants do not. *)
Theorem C56_labels : forall k p labels labels', Forall node_ok p -> section_starts p ->
  define_labels p = Ok labels -> define_labels (moved k p) = Ok labels' ->
  forall i l id, nth_error p i = Some (NLabel l id) ->
  exists v, label_get labels id = Some v /\
    label_get labels' id = Some (
      match nth_error p (S i) with
      | Some n => match constant n with Some c => v | None => v + k end
      | None => v + k
      end).
Proof.
  intros k p labels labels' O S D D' i l id H.
  pose proof (C27_table p labels O D i l id H) as T.
  pose proof (C27_table (moved k p) labels' (proj2 (moved_ok k p) O) D' i l id
                (proj2 (moved_label k p i l id) H)) as T'.
  rewrite moved_at in T'.
  assert (I : (0 < i)%nat).
  { destruct i; [|lia]. destruct S as (l0 & id0 & a & rest & -> & _). discriminate. }
  rewrite (address_moved k p i S I) in T'.
  eexists. split; [exact T|]. rewrite T'. destruct (nth_error p (Datatypes.S i)) as [n|]; [|reflexivity].
  cbn [option_map]. rewrite move_constant. destruct (constant n); reflexivity.
Qed.
Print Assumptions C56_labels.

Lemma moved_inlined : forall k lk p q, Forall2 (inlined lk) p q -> Forall2 (inlined lk) (moved k p) (moved k q).
Proof.
  intros k lk p q F. induction F as [|x y p q H F IH]; [constructor|]. constructor; [|exact IH].
  destruct H; [apply inlined_same | cbn [move]; apply inlined_operands; assumption].
Qed.

(** In general, the moved program has the bytes of the program whose labels have been
    replaced by their new values. *)
Theorem C56_program : forall k p q rs', Forall node_ok p -> Forall node_ok q -> section_starts p ->
  Forall2 (inlined (lookup (moved k p))) p q ->
  (forall l m fields x, In (NInstruction l m fields) q -> ~ In (FIdentifier x) fields) ->
  (assemble (moved k p) = Done (Ok rs') <->
   exists rs, assemble q = Done (Ok rs) /\ room k q /\ rs' = map (raise k) rs).
Proof.
  intros k p q rs' O Oq S F N. rewrite <- assemble_moved.
  - pose proof (assemble_inlined (moved k p) (moved k q) (proj2 (moved_ok k p) O) (moved_inlined _ _ _ _ F)) as E.
    split; intros H; rewrite H in E; cbn [operands_aside] in E.
    + destruct (assemble (moved k q)) as [[rs|e]|c]; cbn [operands_aside] in E; try congruence.
      destruct e; try discriminate; destruct reason; discriminate.
    + destruct (assemble (moved k p)) as [[rs|e]|c]; cbn [operands_aside] in E; try congruence.
      destruct e; try discriminate; destruct reason; discriminate.
  - exact Oq.
  - destruct S as (l & id & a & rest & -> & E). inversion F as [|x y ? q' H _]; subst.
    inversion H; subst. exists l, id, a, q'. split; [reflexivity | exact E].
  - intros l m fields x I X. destruct (N _ _ _ _ I X).
Qed.
Print Assumptions C56_program.

(** A program with an address label, and the same with the label's new value. *)
Definition spin : list node := nodes (u ".org $200" ++ nl ++ u "x: jp x" ++ nl ++ u "c: .equ 5" ++ nl ++ u "ld v0, c").
Definition spun : list node := nodes (u ".org $200" ++ nl ++ u "x: jp $210" ++ nl ++ u "c: .equ 5" ++ nl ++ u "ld v0, 5").

Example C56_instance :
  Forall node_ok spin /\ Forall node_ok spun /\ section_starts spin /\
  (forall l m fields x, In (NInstruction l m fields) spun -> ~ In (FIdentifier x) fields) /\
  assemble spin = Done (Ok [mk_range 0x200 [0x12; 0; 0x60; 5]]) /\
  assemble (moved 16 spin) = Done (Ok [mk_range 0x210 [0x12; 0x10; 0x60; 5]]) /\
  Forall2 (inlined (lookup (moved 16 spin))) spin spun /\
  assemble spun = Done (Ok [mk_range 0x200 [0x12; 0x10; 0x60; 5]]) /\
  room 16 spun /\ ~ room 3580 spun.
Proof.
  split; [apply nodes_ok|]. split; [apply nodes_ok|]. split; [vm_compute; do 4 eexists; split; reflexivity|].
  split; [intros l m fields x I; vm_compute in I; repeat (destruct I as [E|I]; [try discriminate E; injection E as _ _ <-;
    intros J; repeat (destruct J as [J|J]; [discriminate J|]); contradiction|]); contradiction|].
  split; [vm_compute; reflexivity|]. split; [vm_compute; reflexivity|].
  split.
  { remember (lookup (moved 16 spin)) as lk eqn:E.
    assert (X : lk (u "x") = Some 0x210) by (subst lk; vm_compute; reflexivity).
    assert (C : lk (u "c") = Some 5) by (subst lk; vm_compute; reflexivity). clear E.
    vm_compute. vm_compute in X, C. 
    repeat first [apply Forall2_nil | apply Forall2_cons; [first [apply inlined_same | apply inlined_operands] |]].
    - apply Forall2_cons; [apply replaced_label; exact X | apply Forall2_nil].
    - apply Forall2_cons; [apply replaced_same|].
      apply Forall2_cons; [apply replaced_label; exact C | apply Forall2_nil]. }
  split; [vm_compute; reflexivity|]. split.
  - intros i L. remember (length spun) as n eqn:E. vm_compute in E. subst n.
    do 7 (destruct i as [|i]; [vm_compute; discriminate|]). lia.
  - intros R. specialize (R 6%nat). vm_compute in R. apply R; [split; repeat constructor | reflexivity].
Qed.

Example C56_independent : position_independent spun.
Proof.
  intros l m fields x I X. exfalso. vm_compute in I.
  repeat (destruct I as [I|I]; [try discriminate; injection I as <- <- <-; cbn in X;
    repeat (destruct X as [X|X]; [discriminate|]); exact X|]). exact I.
Qed.
