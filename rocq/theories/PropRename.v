(** * PropRename: property C68, with an instance. *)

From Verif Require Import Base Text U12 Location Token Scanner Parser Directive Opcode Instruction DataRange
  Assembler SpecRefusal BaseFacts PropLayout SpecMeta MetaProofs SpecRename RenameProofs.
Open Scope string_scope.
Open Scope list_scope.
Open Scope N_scope.

(** ** C68: a program whose labels are renamed fails in the same way, with the new names. *)

Theorem C68_error : forall f p e, keeps_apart f p -> assemble p = Done (Err e) ->
  exists e', assemble (map (rename f) p) = Done (Err e') /\ error_renamed f p e e'.
Proof.
  intros f p e A H. pose proof (outcome_of_renamed f p A) as R. rewrite H in R. cbn [outcome_renamed] in R.
  destruct (assemble (map (rename f) p)) as [[rs|e']|c]; try contradiction.
  exists e'. split; [reflexivity | exact R].
Qed.
Print Assumptions C68_error.

(** And no program starts to fail by being renamed. *)
Theorem C68_converse : forall f p e', keeps_apart f p -> assemble (map (rename f) p) = Done (Err e') ->
  exists e, assemble p = Done (Err e) /\ error_renamed f p e e'.
Proof.
  intros f p e' A H. pose proof (outcome_of_renamed f p A) as R. rewrite H in R.
  destruct (assemble p) as [[rs|e]|c]; cbn [outcome_renamed] in R; try contradiction.
  exists e. split; [reflexivity | exact R].
Qed.
Print Assumptions C68_converse.

Ltac apart_by_prefix := intros ? ? _ _ E; apply app_inv_head in E; exact E.

Example C68_instance : let f := fun x => u "my_" ++ x in
  let fails := fun s e e' => keeps_apart f (nodes s) /\ assemble (nodes s) = Done (Err e) /\
    assemble (map (rename f) (nodes s)) = Done (Err e') in
  (exists l, fails (u "a: cls" ++ nl ++ u "a: ret" ++ nl) (RedefinitionOfLabel l (u "a")) (RedefinitionOfLabel l (u "my_a"))) /\
  (exists l, fails (u "a: jp z" ++ nl) (AssemblyFailed l (UnableToResolveLabel (u "z")))
    (AssemblyFailed l (UnableToResolveLabel (u "my_z")))) /\
  (exists l, fails (u "a: se a, a" ++ nl) (AssemblyFailed l (NoMatchingFormat (u "se") (Some (u "identifier:a, identifier:a"))))
    (AssemblyFailed l (NoMatchingFormat (u "se") (Some (u "identifier:my_a, identifier:my_a"))))).
Proof.
  cbv zeta. split; [|split]; eexists; (split; [apart_by_prefix | split; vm_compute; reflexivity]).
Qed.
