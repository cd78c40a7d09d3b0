(** * PropMend: property C105, with an instance. *)

From Verif Require Import Base Text U12 Location Token Scanner Parser Directive Opcode Instruction DataRange Assembler
  SpecOpcode SpecRefusal SpecLayout BaseFacts EmitProofs SpecMend MendProofs PropLayout.
Open Scope string_scope.
Open Scope list_scope.
Open Scope N_scope.

(** ** C105: taking out the statement reported brings no earlier error.

    The error reported is about a statement of the program. *)
Theorem C105_fault : forall p e, Forall node_ok p -> assemble p = Done (Err e) ->
  exists k i n, fault p k i e /\ nth_error p i = Some n.
Proof.
  intros p e F A. apply (assemble_err p e F), reported_fault in A. destruct A as (k & i & A).
  destruct (fault_stands _ _ _ _ A) as (n & H). exists k, i, n. split; assumption.
Qed.
Print Assumptions C105_fault.

(** A statement in error in the first pass, taken out: what is in error in that pass then stood behind it. *)
Theorem C105_first : forall p i e j e', first (violates p) i e -> violates (without i p) j e' -> (i <= j)%nat.
Proof. exact first_later. Qed.
Print Assumptions C105_first.

(** An instruction which cannot be encoded, taken out: there is still nothing in error in the first pass, although every label
    behind it has moved; and what cannot be encoded then stood behind it. *)
Theorem C105_second : forall p i e, (forall j e', ~ violates p j e') -> first (unencodable p) i e ->
  (forall j e', ~ violates (without i p) j e') /\ forall j e', unencodable (without i p) j e' -> (i <= j)%nat.
Proof.
  intros p i e V F. split.
  - destruct F as [F _]. exact (second_clean p i e V F).
  - intros j e'. exact (second_later p i e j e' V F).
Qed.
Print Assumptions C105_second.

(** So the next error, if there is one, is no sooner. *)
Theorem C105_next : forall p k i e e', Forall node_ok p -> assemble p = Done (Err e) -> fault p k i e ->
  assemble (without i p) = Done (Err e') -> exists k' j, fault (without i p) k' j e' /\ no_sooner (k, i) (k', j).
Proof.
  intros p k i e e' F _ R A. apply (assemble_err _ e' (without_ok i p F)), reported_fault in A. destruct A as (k' & j & A).
  exists k', j. split; [exact A | exact (next_fault p k i e k' j e' R A)].
Qed.
Print Assumptions C105_next.

(** A program is mended in as many steps as statements are taken out, and in one order, which goes forward through the first pass
    and then forward through the second. *)
Theorem C105_mended : forall p, Forall node_ok p ->
  exists l q, mended p l q /\ (length l + length q = length p)%nat /\ in_order l /\
    forall l' q', mended p l' q' -> l' = l /\ q' = q.
Proof.
  intros p F. destruct (mending _ p eq_refl F) as (l & q & M & L & O). exists l, q. split; [exact M|]. split; [exact L|].
  split; [exact O|]. intros l' q' M'. destruct (mended_unique _ _ _ M _ _ M') as [-> ->]. split; reflexivity.
Qed.
Print Assumptions C105_mended.

(** Four errors: a label defined again, an unknown directive, an instruction that does not exist, a byte too large.  The one that
    stands first is reported third. *)
Definition faulty : list node := nodes (u "foo" ++ nl ++ u "a: cls" ++ nl ++ u "a: ret" ++ nl ++ u ".bar" ++ nl ++ u "add v0, 300" ++ nl ++ u "jp a" ++ nl).

(** The indices of the statements reported: in the program as it stands, and as each is taken out. *)
Definition steps : list nat := [3; 4; 0; 3]%nat.

Fixpoint errors (p : list node) (l : list nat) : list (option semantic_error) :=
  let r := match assemble p with Done (Err e) => Some e | _ => None end in
  match l with
  | [] => [r]
  | i :: l => r :: errors (without i p) l
  end.

(** A place in the file. *)
Definition at_place (l c n : N) : loc := mk_loc (u "f") l c n.

Example C105_instance : Forall node_ok faulty /\ length faulty = 8%nat /\
  (exists rs, assemble (fold_left (fun p i => without i p) steps faulty) = Done (Ok rs)) /\
  errors faulty steps = [
    Some (RedefinitionOfLabel (at_place 3 1 1) (u "a"));
    Some (DirectiveInvalid (at_place 4 2 3) (UnrecognizedDirective (u "bar")));
    Some (AssemblyFailed (at_place 1 1 3) (NoMatchingFormat (u "foo") None));
    Some (AssemblyFailed (at_place 5 1 3) (ExpectingEightBitValue 300));
    None].
Proof. split; [apply nodes_ok|]. split; [vm_compute; reflexivity|]. split; [eexists; vm_compute; reflexivity|]. vm_compute. reflexivity. Qed.
