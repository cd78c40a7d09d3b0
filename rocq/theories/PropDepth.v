(** * PropDepth: property C69, with instances. *)

From Verif Require Import Base Text U12 Location Token Scanner Parser Directive Instruction DataRange Assembler
  SpecLex SpecOpcode SpecLayout SpecErase SpecWrite SpecCode BaseFacts LayoutProofs PropText DepthParser SpecDepth DepthProofs.
Open Scope string_scope.
Open Scope list_scope.
Open Scope nat_scope.

(** ** C69: the stack the parser needs does not depend on the text.

    This is false: the lists of operands are read by recursion, one activation for every
    operand.  [parse_d] is the parser with its stack. *)

Theorem C69_parser : forall ts, fst (parse_d ts) = parse ts.
Proof. exact parse_same. Qed.
Print Assumptions C69_parser.

(** The stack is that of the longest list. *)
Theorem C69_partial : forall ts k, commas_per_line k ts -> snd (parse_d ts) <= k + 6.
Proof. exact parse_depth. Qed.
Print Assumptions C69_partial.

Theorem C69_needed : forall ts ns n, parse ts = Done (Ok ns) -> In n ns -> operands n + 4 <= snd (parse_d ts).
Proof.
  intros ts ns n H I. destruct (parse_depth_nodes ts ns H) as (d & -> & L & _).
  unfold lower in L. rewrite Forall_forall in L. specialize (L n I). cbv beta in L. lia.
Qed.
Print Assumptions C69_needed.

Theorem C69_enough : forall ts ns k, parse ts = Done (Ok ns) -> Forall (fun n => operands n <= k) ns ->
  snd (parse_d ts) <= k + 6.
Proof.
  intros ts ns k H F. destruct (parse_depth_nodes ts ns H) as (d & -> & _ & U).
  destruct U as [->|U]; [lia|]. apply Exists_exists in U. destruct U as (n & I & D). cbv beta in D.
  rewrite Forall_forall in F. specialize (F n I). cbv beta in F.
  assert (list_level n <= 1) by (destruct n; cbn; lia). lia.
Qed.
Print Assumptions C69_enough.

(** The line '.db "", "", ..., 7', with [k] empty strings. *)
Definition long_line (k : nat) : list node := [NDirective (mk_loc [] 0 0 0) (u "db") (repeat (LString []) k ++ [LNumeric 7])].

Example C69_line : write (long_line 2) = u ".db """", """", $007" ++ [10%N].
Proof. vm_compute. reflexivity. Qed.

Lemma long_line_writable : forall k, Forall writable_node (long_line k).
Proof.
  intros k. constructor; [|constructor]. split.
  - assert (E : LexProofs.find KIdentifier (u "db") = Some (u "db")) by (vm_compute; reflexivity).
    destruct (LexProofs.find_lexeme _ _ _ E) as (r & _ & _ & R & _). left. exact R.
  - apply Forall_app. split; [|constructor; [cbn; lia | constructor]].
    apply Forall_forall. intros x I. apply repeat_spec in I. subst.
    assert (E : LexProofs.find KString [QUOTE; QUOTE] = Some [QUOTE; QUOTE]) by (vm_compute; reflexivity).
    destruct (LexProofs.find_lexeme _ _ _ E) as (r & _ & _ & R & _). exact R.
Qed.

Lemma long_line_assembles : forall l k,
  assemble [NDirective l (u "db") (repeat (LString []) k ++ [LNumeric 7])] = Done (Ok [mk_range 0 [7%N]]).
Proof.
  intros l k.
  assert (D : directive_from (u "db") (repeat (LString []) k ++ [LNumeric 7]) = Ok (Db [7%N])).
  { apply directive_means; [repeat constructor; vm_compute; discriminate|].
    replace [7%N] with (flat_map literal_bytes (repeat (LString []) k ++ [LNumeric 7])).
    - apply means_db; [reflexivity | destruct k; discriminate|].
      apply Forall_app. split; [|constructor; [cbn; lia | constructor]].
      apply Forall_forall. intros x I. apply repeat_spec in I. subst. exact I.
    - rewrite flat_map_app. induction k as [|k IH]; [reflexivity | exact IH]. }
  unfold assemble, define_labels. cbn [define_labels_loop]. rewrite D. cbn [map_err rbind].
  change (u12_failable_into (directive_size (Db [7%N]))) with (Some 1%N). cbn [ok_or rbind].
  change (u12_checked_add 0 1) with (Some 1%N). cbn [ok_or rbind].
  unfold emit_data_ranges. cbn [emit_loop]. rewrite D. vm_compute. reflexivity.
Qed.

(** Whatever the stack, there is a text of one byte which needs more. *)
Theorem C69_refuted : forall file stack, exists s ts p,
  scan file s = Done ts /\ parse ts = Done (Ok p) /\ assemble p = Done (Ok [mk_range 0 [7%N]]) /\
  stack < snd (parse_d ts).
Proof.
  intros file k. destruct (C14_round_trip file (long_line k) (long_line_writable k)) as (p & (ts & Hs & Hp) & S).
  exists (write (long_line k)), ts, p. split; [exact Hs|]. split; [exact Hp|].
  unfold long_line, same_program in S. cbn [map bare_node] in S.
  destruct p as [|n [|n' p]]; cbn [map] in S; try discriminate.
  destruct n as [l id args|l id|l m fields]; cbn [bare_node] in S; try discriminate.
  injection S as <- <-. split; [apply long_line_assembles|].
  pose proof (C69_needed ts _ _ Hp (or_introl eq_refl)) as G. cbn [operands] in G.
  rewrite app_length, repeat_length in G. cbn [length] in G. lia.
Qed.
Print Assumptions C69_refuted.

(** A list of three takes three activations, and one more if it ends with a comma. *)
Example C69_instance : let depth := fun s => match scan (u "-") s with Done ts => snd (parse_d ts) | Crash _ => 0 end in
  depth [] = 2 /\ depth (u "cls" ++ [10%N]) = 5 /\ depth (u ".db 1, 2, 3" ++ [10%N]) = 8 /\
  depth (u ".db 1, 2, 3," ++ [10%N]) = 8 /\ depth (u "drw v0, v1, 2," ++ [10%N]) = 8 /\
  (exists ts, scan (u "-") (u ".db 1, 2, 3" ++ [10%N]) = Done ts /\ commas_per_line 2 ts).
Proof.
  cbv zeta. split; [|split; [|split; [|split; [|split]]]]; try (vm_compute; reflexivity).
  eexists. split; [vm_compute; reflexivity|].
  intros a c b E _. apply (f_equal commas) in E. unfold commas in *. rewrite !filter_app, !app_length in E.
  cbn [filter length] in E. lia.
Qed.
