(** * PropConstant: property C79, with instances. *)

From Verif Require Import Base Text U12 Location Token Scanner Parser Directive Opcode Instruction DataRange Assembler
  IHex Main SpecErase SpecCode SpecOpcode SpecRefusal SpecLayout SpecMeta SpecRewrite SpecConstant
  BaseFacts LayoutProofs PipelineProofs MetaProofs RewriteProofs ConstantProofs PropOutput PropText PropRewrite.
Open Scope string_scope.
Open Scope list_scope.
Open Scope N_scope.

(** ** C79: constants. *)

(** A constant may be defined anywhere, before or after its uses: the outcome is the same, be it ranges or an error. *)
Theorem C79_moved : forall id v d p q p' q', defining id v d -> p ++ q = p' ++ q' -> Forall node_ok (p ++ q) ->
  ~ In id (labels_of (p ++ q)) -> free_to_insert q -> free_to_insert q' ->
  assemble (p' ++ d ++ q') = assemble (p ++ d ++ q).
Proof. exact assemble_moved. Qed.
Print Assumptions C79_moved.

(** A constant nobody uses does not matter. *)
Theorem C79_unused : forall id v d p q, defining id v d -> Forall node_ok (p ++ q) ->
  ~ mentioned (p ++ q) id -> free_to_insert q -> assemble (p ++ d ++ q) = assemble (p ++ q).
Proof. exact assemble_unused_constant. Qed.
Print Assumptions C79_unused.

(** Labels of the same value may be exchanged for one another, constants and addresses alike; the outcome is the
    same but for the operands listed in a message. *)
Theorem C79_exchanged : forall p p', Forall node_ok p -> Forall node_ok p' -> Forall2 (exchanged (lookup p)) p p' ->
  operands_aside (assemble p') = operands_aside (assemble p).
Proof. exact assemble_exchanged. Qed.
Print Assumptions C79_exchanged.

(** The same for texts, in any layout. *)
Theorem C79_text : forall e file file' s s' id v d p q p' q' y text, parsed file s (p ++ d ++ q) -> parsed file' s' y ->
  same_program y (p' ++ d ++ q') -> defining id v d -> p ++ q = p' ++ q' ->
  ~ In id (labels_of (p ++ q)) -> free_to_insert q -> free_to_insert q' ->
  (assemble_text e file s = Done (Ok text) <-> assemble_text e file' s' = Done (Ok text)).
Proof.
  intros e file file' s s' id v d p q p' q' y text P P' S D E U F F'.
  apply (changed_output e _ _ _ _ (p ++ d ++ q) y _ text P P' S). intros rs.
  destruct P as (ts & L & P). pose proof (parsed_node_ok _ _ _ _ L P) as O. apply Forall_app in O. destruct O as [Op O].
  apply Forall_app in O. destruct O as [_ Oq].
  rewrite (C79_moved id v d p q p' q' D E (proj2 (Forall_app _ _ _) (conj Op Oq)) U F F'). reflexivity.
Qed.
Print Assumptions C79_text.

(** ** Instances *)

Definition read_nodes (s : str) : list node :=
  match scan (u "f") s with
  | Done ts => match parse ts with Done (Ok p) => p | _ => [] end
  | Crash _ => []
  end.

(** The definition first, and at the end. *)
Definition uses : list node := read_nodes (lines ["start:"; "LD V0, speed"; "JP start"]).
Definition definition_ : list node := read_nodes (lines ["speed: .EQU $21"]).

Example C79_instance :
  defining (u "speed") 0x21 definition_ /\ Forall node_ok ([] ++ uses) /\ ~ In (u "speed") (labels_of uses) /\
  free_to_insert uses /\ free_to_insert [] /\
  assemble (uses ++ definition_) = Done (Ok [mk_range 0 [0x60; 0x21; 0x10; 0]]) /\
  assemble (definition_ ++ uses) = Done (Ok [mk_range 0 [0x60; 0x21; 0x10; 0]]).
Proof.
  split; [|split; [|split; [|split; [|split; [|split]]]]].
  - assert (E : exists l l', definition_ = [NLabel l (u "speed"); NDirective l' (u "EQU") [LNumeric 0x21]])
      by (eexists; eexists; vm_compute; reflexivity).
    destruct E as (l & l' & ->). apply defining_equ; [|reflexivity|lia]. repeat constructor.
  - destruct (scan (u "f") (lines ["start:"; "LD V0, speed"; "JP start"])) as [ts|] eqn:S; [|vm_compute in S; discriminate S].
    destruct (parse ts) as [[p|]|] eqn:P.
    + replace ([] ++ uses) with p by (unfold uses, read_nodes; rewrite S, P; reflexivity). exact (parsed_node_ok _ _ _ _ S P).
    + unfold uses, read_nodes. rewrite S, P. constructor.
    + unfold uses, read_nodes. rewrite S, P. constructor.
  - vm_compute. intros [H|[]]. discriminate H.
  - intros n r H. vm_compute in H. injection H as <- _. reflexivity.
  - intros n r H. discriminate H.
  - vm_compute. reflexivity.
  - vm_compute. reflexivity.
Qed.

(** 'top' and 'start' are one address; 'zero' is a constant of that value. *)
Example C79_instance_exchanged :
  let p := read_nodes (lines ["top: start:"; "JP start"; "zero: .equ 0"]) in
  let p' := read_nodes (lines ["top: start:"; "JP zero"; "zero: .equ 0"]) in
  map (lookup p) [u "top"; u "start"; u "zero"] = [Some 0; Some 0; Some 0] /\ Forall2 (exchanged (lookup p)) p p' /\
  assemble p = Done (Ok [mk_range 0 [0x10; 0]]) /\ assemble p' = assemble p.
Proof.
  cbv zeta. split; [vm_compute; reflexivity|]. split; [|split; vm_compute; reflexivity].
  remember (lookup (read_nodes (lines ["top: start:"; "JP start"; "zero: .equ 0"]))) as look eqn:E.
  assert (S : look (u "start") = Some 0) by (subst look; vm_compute; reflexivity).
  assert (Z : look (u "zero") = Some 0) by (subst look; vm_compute; reflexivity). clear E.
  vm_compute. vm_compute in S, Z.
  repeat (apply Forall2_cons; [first [apply ex_same | apply ex_operands]|]); [|apply Forall2_nil].
  apply Forall2_cons; [exact (sv_label _ _ _ 0 S Z) | apply Forall2_nil].
Qed.
