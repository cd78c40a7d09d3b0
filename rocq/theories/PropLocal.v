(** * PropLocal: property C64, with an instance. *)

From Verif Require Import Base Text Location Parser Directive Instruction DataRange Assembler
  SpecOpcode SpecRefusal SpecLayout BaseFacts LayoutProofs EmitProofs LocalProofs PropLayout.
Open Scope string_scope.
Open Scope list_scope.
Open Scope N_scope.

(** ** C64: a statement replaced by another of the same size changes its own bytes only. *)

(** The program is still accepted if the new statement has bytes, and its output is that
    of the old one but for these, which stand at the address of the statement. *)
Theorem C64_bytes : forall a n n' b rs bs',
  Forall node_ok (a ++ n :: b) -> node_ok n' -> size n = size n' -> 0 < size n ->
  assemble (a ++ n :: b) = Done (Ok rs) -> node_bytes (lookup (a ++ n :: b)) n' bs' ->
  exists before s d bs e after,
    rs = before ++ mk_range s (d ++ bs ++ e) :: after /\
    assemble (a ++ n' :: b) = Done (Ok (before ++ mk_range s (d ++ bs' ++ e) :: after)) /\
    node_bytes (lookup (a ++ n :: b)) n bs /\ length bs' = length bs /\
    s + N.of_nat (length d) = address (a ++ n :: b) (length a).
Proof.
  intros a n n' b rs bs' F O' S E A B'. apply (assemble_ok _ _ F) in A. destruct A as [W Out].
  assert (F' : Forall node_ok (a ++ n' :: b)).
  { apply Forall_app in F. destruct F as [Fa Fb]. apply Forall_app. split; [exact Fa|].
    inversion Fb; subst. constructor; assumption. }
  destruct (output_replaced n n' S E a b rs bs' Out B') as (before & s & d & bs & e & after & -> & Out' & B & Ad).
  exists before, s, d, bs, e, after. split; [reflexivity|]. split.
  - apply (assemble_ok _ _ F'). split; [exact (wf_replaced n n' S E a b bs' W B') | exact Out'].
  - split; [exact B|]. split; [|exact Ad].
    pose proof (bytes_size _ _ _ B) as X. pose proof (bytes_size _ _ _ B') as Y. lia.
Qed.
Print Assumptions C64_bytes.

(** If it has none the program is refused. *)
Theorem C64_refused : forall a n n' b rs,
  Forall node_ok (a ++ n :: b) -> node_ok n' -> size n = size n' -> 0 < size n ->
  assemble (a ++ n :: b) = Done (Ok rs) -> (forall bs', ~ node_bytes (lookup (a ++ n :: b)) n' bs') ->
  exists e, assemble (a ++ n' :: b) = Done (Err e).
Proof.
  intros a n n' b rs F O' S E A N.
  assert (F' : Forall node_ok (a ++ n' :: b)).
  { apply Forall_app in F. destruct F as [Fa Fb]. apply Forall_app. split; [exact Fa|].
    inversion Fb; subst. constructor; assumption. }
  destruct (assemble_spec _ F') as [(rs' & _ & W & _)|(e & H & _)]; [|eauto]. exfalso.
  assert (Ex : forall x, lookup (a ++ n' :: b) x = lookup (a ++ n :: b) x) by (intros x; symmetry; apply (lookup_same n n' S E)).
  assert (I : In n' (a ++ n' :: b)) by (apply in_app_iff; right; left; reflexivity).
  destruct n' as [l id args|l id|l m fs].
  - destruct (wf_directives _ W _ _ _ I) as (dir & M). destruct dir.
    + apply (N []). eapply nb_org. exact M.
    + eapply N. apply nb_db. exact M.
    + apply (N []). eapply nb_equ. exact M.
  - cbn [size] in S. lia.
  - destruct (wf_instructions _ W _ _ _ I) as (w & En). eapply N. constructor. eapply encodes_ext; [exact Ex | exact En].
Qed.
Print Assumptions C64_refused.

(** An instruction of the sample program replaced by two bytes of data. *)
Definition local_sample : str := u ".org $200" ++ nl ++ u "x: ld v0, 1" ++ nl ++ u "jp x" ++ nl ++ u ".db 9" ++ nl.

Example C64_instance :
  let a := firstn 3 (nodes local_sample) in let b := skipn 4 (nodes local_sample) in
  let n := nth 3 (nodes local_sample) (NLabel (mk_loc [] 0 0 0) []) in
  let n' := NDirective (mk_loc [] 0 0 0) (u "db") [LString (u "ab")] in
  nodes local_sample = a ++ n :: b /\ size n = size n' /\ 0 < size n /\ node_ok n' /\
  assemble (a ++ n :: b) = Done (Ok [mk_range 0x200 [0x60; 0x01; 0x12; 0x00; 9]]) /\
  assemble (a ++ n' :: b) = Done (Ok [mk_range 0x200 [0x60; 0x01; 97; 98; 9]]) /\
  node_bytes (lookup (a ++ n :: b)) n' [97; 98] /\ address (a ++ n :: b) (length a) = 0x202.
Proof.
  cbv zeta. split; [vm_compute; reflexivity|]. split; [vm_compute; reflexivity|]. split; [vm_compute; reflexivity|].
  split; [repeat constructor|]. split; [vm_compute; reflexivity|]. split; [vm_compute; reflexivity|].
  split; [|vm_compute; reflexivity].
  apply nb_db. apply (means_db (u "db") [LString (u "ab")]); [vm_compute; reflexivity | discriminate | repeat constructor].
Qed.
