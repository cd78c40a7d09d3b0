(** * PropInsert: property C86, with instances. *)

From Verif Require Import Base Text U12 Location Token Scanner Parser Directive Opcode Instruction DataRange
  Assembler SpecLex SpecOpcode SpecRefusal SpecLayout SpecMeta SpecRewrite SpecInsert
  BaseFacts LayoutProofs EmitProofs PropLayout RewriteProofs MoveProofs InsertProofs.
Open Scope string_scope.
Open Scope list_scope.
Open Scope N_scope.

(** ** C86: statements inserted into a program, or removed from it.

    The program is [a], [b], [c], where [c] starts with the next '.org'; the instructions and data [m] are
    put between [a] and [b].  Labels which are addresses in [b] go up by the bytes of [m], all others stay. *)
Theorem C86_labels : forall a m b c x, Forall plain m -> Forall (fun n => origin n = None) b -> placed c -> detached (b ++ c) ->
  NoDup (labels_of (a ++ b ++ c)) ->
  (address_of b x -> exists v, lookup (a ++ b ++ c) x = Some v /\ lookup (a ++ m ++ b ++ c) x = Some (v + extent m)) /\
  (~ address_of b x -> lookup (a ++ m ++ b ++ c) x = lookup (a ++ b ++ c) x).
Proof.
  intros a m b c x Pm Ob Pc D Nd. split; [apply lookup_moves; assumption|].
  intros H. apply lookup_same_unless; try assumption. right. exact H.
Qed.
Print Assumptions C86_labels.

(** If no instruction refers to a label that goes up, one of the programs is accepted exactly if the other
    is, [m] has a meaning and there is room. *)
Theorem C86_accepted : forall a m b c, Forall node_ok (a ++ m ++ b ++ c) ->
  Forall plain m -> Forall (fun n => origin n = None) b -> placed c -> detached (b ++ c) -> apart_from b (a ++ m ++ b ++ c) ->
  ((exists rs', assemble (a ++ m ++ b ++ c) = Done (Ok rs')) <->
   (exists rs, assemble (a ++ b ++ c) = Done (Ok rs)) /\ counter 0 (a ++ m ++ b) <= 4095 /\
   Forall (fun n => exists bs, node_bytes (lookup (a ++ b ++ c)) n bs) m).
Proof.
  intros a m b c O Pm Ob Pc D Ap.
  assert (O' : Forall node_ok (a ++ b ++ c)) by (rewrite !Forall_app in *; tauto).
  rewrite (C29_accepts _ O), (C29_accepts _ O'). apply well_formed_insert; assumption.
Qed.
Print Assumptions C86_accepted.

(** The bytes of [a] and [c] stay, those of [b] go up. *)
Theorem C86_memory : forall a m b c rs rs', Forall node_ok (a ++ m ++ b ++ c) ->
  Forall plain m -> Forall (fun n => origin n = None) b -> placed c -> detached (b ++ c) -> apart_from b (a ++ m ++ b ++ c) ->
  assemble (a ++ b ++ c) = Done (Ok rs) -> assemble (a ++ m ++ b ++ c) = Done (Ok rs') ->
  exists ma mb mc bss, Forall2 (node_bytes (lookup (a ++ b ++ c))) m bss /\
    N.of_nat (length ma) = extent a /\ N.of_nat (length mb) = extent b /\
    memory rs = ma ++ mb ++ mc /\
    memory rs' = ma ++ place (counter 0 a) (concat bss) ++ map (up (extent m)) mb ++ mc.
Proof.
  intros a m b c rs rs' O Pm Ob Pc D Ap A A'.
  assert (O' : Forall node_ok (a ++ b ++ c)) by (rewrite !Forall_app in *; tauto).
  apply assemble_ok in A; [|exact O']. apply assemble_ok in A'; [|exact O].
  apply memory_insert; tauto.
Qed.
Print Assumptions C86_memory.

(** In general, the bytes are those of the program without [m] whose label operands have been replaced by
    the values they have with [m]. *)
Lemma inlined_kept : forall lk p p', Forall2 (inlined lk) p p' ->
  map origin p' = map origin p /\ map constant p' = map constant p /\ map is_label p' = map is_label p /\ extent p' = extent p /\
  forall x, counter x p' = counter x p.
Proof.
  intros lk p p' F. induction F as [|n n' p p' H _ (A & B & C & E & G)]; [repeat split; reflexivity|].
  destruct H as [n|l mn fs fs' _]; cbn [map]; rewrite A, B, C; (split; [reflexivity|]; split; [reflexivity|]; split; [reflexivity|]; split;
    [cbn [extent fold_right]; unfold extent in E; rewrite E; reflexivity|]); intros x.
  - exact (G (after x n)).
  - exact (G (x + 2)).
Qed.

Lemma inlined_plain : forall lk p p', Forall2 (inlined lk) p p' -> Forall plain p -> Forall plain p'.
Proof.
  intros lk p p' F. induction F as [|n n' p p' H _ IH]; intros P; [constructor|]. inversion P; subst. constructor; [|apply IH; assumption].
  destruct H; [assumption | repeat split].
Qed.

Lemma inlined_origin : forall lk p p', Forall2 (inlined lk) p p' -> Forall (fun n => origin n = None) p -> Forall (fun n => origin n = None) p'.
Proof.
  intros lk p p' F. induction F as [|n n' p p' H _ IH]; intros P; [constructor|]. inversion P; subst. constructor; [|apply IH; assumption].
  destruct H; [assumption | reflexivity].
Qed.

Theorem C86_program : forall a m b c a' m' b' c' rs', Forall node_ok (a ++ m ++ b ++ c) -> Forall node_ok (a' ++ m' ++ b' ++ c') ->
  Forall plain m -> Forall (fun n => origin n = None) b -> placed c -> detached (b ++ c) ->
  Forall2 (inlined (lookup (a ++ m ++ b ++ c))) a a' -> Forall2 (inlined (lookup (a ++ m ++ b ++ c))) m m' ->
  Forall2 (inlined (lookup (a ++ m ++ b ++ c))) b b' -> Forall2 (inlined (lookup (a ++ m ++ b ++ c))) c c' ->
  (forall l mn fields x, In (NInstruction l mn fields) (a' ++ m' ++ b' ++ c') -> ~ In (FIdentifier x) fields) ->
  assemble (a ++ m ++ b ++ c) = Done (Ok rs') ->
  exists rs ma mb mc bytes, assemble (a' ++ b' ++ c') = Done (Ok rs) /\
    N.of_nat (length ma) = extent a /\ N.of_nat (length mb) = extent b /\ N.of_nat (length bytes) = extent m /\
    memory rs = ma ++ mb ++ mc /\
    memory rs' = ma ++ place (counter 0 a) bytes ++ map (up (extent m)) mb ++ mc.
Proof.
  intros a m b c a' m' b' c' rs' O O' Pm Ob Pc D Fa Fm Fb Fc N A.
  assert (F : Forall2 (inlined (lookup (a ++ m ++ b ++ c))) (a ++ m ++ b ++ c) (a' ++ m' ++ b' ++ c'))
    by (repeat apply Forall2_app; assumption).
  assert (A' : assemble (a' ++ m' ++ b' ++ c') = Done (Ok rs')).
  { pose proof (assemble_inlined _ _ O F) as E. rewrite A in E. cbn [operands_aside] in E.
    destruct (assemble (a' ++ m' ++ b' ++ c')) as [[rs|e]|x]; cbn [operands_aside] in E; try congruence.
    destruct e; try discriminate E; destruct reason; discriminate E. }
  destruct (inlined_kept _ _ _ Fa) as (_ & _ & _ & Ea & Ga). destruct (inlined_kept _ _ _ Fm) as (A1 & A2 & A3 & Em & _).
  destruct (inlined_kept _ _ _ Fb) as (B1 & B2 & _ & Eb & _). destruct (inlined_kept _ _ _ Fc) as (C1 & C2 & _).
  pose proof (inlined_plain _ _ _ Fm Pm) as Pm'. pose proof (inlined_origin _ _ _ Fb Ob) as Ob'.
  assert (Pc' : placed c').
  { intros n r E. subst c'. destruct c as [|y c]; [discriminate C1|]. destruct (Pc y c eq_refl) as (o & Oo).
    cbn [map] in C1. injection C1 as C1 _. exists o. congruence. }
  assert (D' : detached (b' ++ c')).
  { intros n r E. assert (X : map constant (b' ++ c') = map constant (b ++ c)) by (rewrite !map_app; congruence). rewrite E in X.
    destruct (b ++ c) as [|y z]; [discriminate X|]. cbn [map] in X. injection X as X _. rewrite X. exact (D y z eq_refl). }
  assert (Ap : apart_from b' (a' ++ m' ++ b' ++ c')) by (intros l mn fs x I X; destruct (N l mn fs x I X)).
  destruct (proj1 (C86_accepted a' m' b' c' O' Pm' Ob' Pc' D' Ap) (ex_intro _ rs' A')) as ((rs & R) & _).
  destruct (C86_memory a' m' b' c' rs rs' O' Pm' Ob' Pc' D' Ap R A') as (ma & mb & mc & bss & Bm & La & Lb & M & M').
  exists rs, ma, mb, mc, (concat bss). split; [exact R|]. split; [congruence|]. split; [congruence|]. split.
  { rewrite <- Em. clear - Bm. induction Bm as [|n e m0 bs H _ IH]; [reflexivity|]. cbn [concat]. rewrite app_length.
    apply OutputProofs.node_bytes_size in H. unfold extent in *. cbn [fold_right]. lia. }
  split; [exact M|]. rewrite M', (Ga 0), Em. reflexivity.
Qed.
Print Assumptions C86_program.

(** A loop, and a subroutine after it. *)
Definition loop_before : list node := nodes (u ".org $200" ++ nl ++ u "start: ld v0, 1" ++ nl).
Definition loop_extra : list node := nodes (u "add v1, v0" ++ nl ++ u ".db ""xyz""" ++ nl).
Definition loop_after : list node := nodes (u "jp start" ++ nl ++ u "end:" ++ nl).
Definition loop_else : list node := nodes (u ".org $300" ++ nl ++ u "jp start").

Example C86_instance :
  Forall plain loop_extra /\ Forall (fun n => origin n = None) loop_after /\ placed loop_else /\ detached (loop_after ++ loop_else) /\
  apart_from loop_after (loop_before ++ loop_extra ++ loop_after ++ loop_else) /\
  assemble (loop_before ++ loop_after ++ loop_else) = Done (Ok [mk_range 0x200 [0x60; 1; 0x12; 0]; mk_range 0x300 [0x12; 0]]) /\
  assemble (loop_before ++ loop_extra ++ loop_after ++ loop_else) =
    Done (Ok [mk_range 0x200 [0x60; 1; 0x81; 4; 120; 121; 122; 0x12; 0]; mk_range 0x300 [0x12; 0]]).
Proof.
  split; [vm_compute; repeat constructor|]. split; [vm_compute; repeat constructor|].
  split; [intros n r E; vm_compute in E; injection E as <- _; eexists; vm_compute; reflexivity|].
  split; [intros n r E; vm_compute in E; injection E as <- _; vm_compute; reflexivity|].
  split; [|split; vm_compute; reflexivity].
  intros l mn fs x I X (b1 & l0 & b2 & E & _).
  assert (Lx : x = u "end").
  { assert (J : In (NLabel l0 x) loop_after) by (rewrite E; apply in_app_iff; right; left; reflexivity).
    vm_compute in J. repeat (destruct J as [J|J]; [try discriminate J; injection J as _ <-; reflexivity|]). destruct J. }
  subst x. vm_compute in I.
  repeat (destruct I as [I|I]; [try discriminate I; injection I as <- <- <-; cbn in X;
    repeat (destruct X as [X|X]; [discriminate X|]); exact X|]). exact I.
Qed.

(** A jump to a label which goes up. *)
Definition skip_before : list node := nodes (u "jp end" ++ nl).
Definition skip_extra : list node := nodes (u "ld v0, 1" ++ nl).
Definition skip_after : list node := nodes (u "end: ret" ++ nl).
Definition skip_number : list node := nodes (u "jp  4 " ++ nl).

Example C86_reference :
  lookup (skip_before ++ skip_extra ++ skip_after) (u "end") = Some 4 /\
  lookup (skip_before ++ skip_after) (u "end") = Some 2 /\
  assemble (skip_before ++ skip_extra ++ skip_after ++ []) = Done (Ok [mk_range 0 [0x10; 4; 0x60; 1; 0; 0xEE]]) /\
  assemble (skip_number ++ skip_after ++ []) = Done (Ok [mk_range 0 [0x10; 4; 0; 0xEE]]) /\
  exists l m f, skip_before = [NInstruction l m [FIdentifier f]] /\ skip_number = [NInstruction l m [FNumeric 4]] /\ f = u "end".
Proof.
  split; [vm_compute; reflexivity|]. split; [vm_compute; reflexivity|]. split; [vm_compute; reflexivity|].
  split; [vm_compute; reflexivity|]. vm_compute. eexists _, _, _. split; [reflexivity|]. split; reflexivity.
Qed.
