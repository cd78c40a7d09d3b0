(** * PropMeta: properties C45 to C48, with an instance of each. *)

From Coq Require Import Permutation.
From Verif Require Import Base Text U12 Location Token Scanner Parser Directive Opcode Instruction DataRange
  Assembler SpecLex SpecOpcode SpecRefusal SpecLayout BaseFacts LayoutProofs EmitProofs PropLayout
  SpecMeta MetaProofs SectionProofs.
Open Scope string_scope.
Open Scope list_scope.
Open Scope N_scope.

(** ** C45: label names do not matter. *)

Theorem C45_ranges : forall f p rs, keeps_apart f p ->
  (assemble (map (rename f) p) = Done (Ok rs) <-> assemble p = Done (Ok rs)).
Proof. exact assemble_renamed. Qed.
Print Assumptions C45_ranges.

(** All names made longer. *)
Example C45_instance :
  let f := fun x => u "my_" ++ x in
  keeps_apart f sample_program /\ map (rename f) sample_program <> sample_program /\
  exists rs, assemble (map (rename f) sample_program) = Done (Ok rs) /\ rs <> [].
Proof.
  cbv zeta. split; [intros x y _ _ E; apply app_inv_head in E; exact E|].
  split; [vm_compute; discriminate|]. eexists. split; [vm_compute; reflexivity | discriminate].
Qed.

(** Two names which become one are noticed. *)
Example C45_clash : let f := fun _ => u "one" in let p := nodes (u "a: b: cls" ++ nl) in
  assemble p = Done (Ok [mk_range 0 [0x00; 0xE0]]) /\ assemble (map (rename f) p) <> assemble p.
Proof. split; vm_compute; [reflexivity | discriminate]. Qed.

(** ** C46: labels nobody uses do not matter. *)

(** The outcome is the same, be it ranges or an error. *)
Theorem C46_outcome : forall p q l id, ~ mentioned (p ++ q) id -> Forall node_ok q ->
  (forall n r, q = n :: r -> constant n = None) ->
  assemble (p ++ NLabel l id :: q) = assemble (p ++ q).
Proof. exact assemble_insert. Qed.
Print Assumptions C46_outcome.

Example C46_instance : let p := firstn 4 sample_program in let q := skipn 4 sample_program in
  ~ mentioned (p ++ q) (u "fresh") /\ Forall node_ok q /\ (forall n r, q = n :: r -> constant n = None) /\
  exists rs, assemble (p ++ NLabel (mk_loc (u "f") 9 1 5) (u "fresh") :: q) = Done (Ok rs) /\ rs <> [].
Proof.
  cbv zeta. split; [|split; [|split]].
  - intros (n & I & M). rewrite firstn_skipn in I. revert I M. vm_compute.
    intros I M. repeat (destruct I as [<-|I]; [try discriminate M; try contradiction;
      repeat (destruct M as [M|M]; [discriminate M|]); contradiction|]). contradiction.
  - assert (O : Forall node_ok sample_program) by apply nodes_ok.
    rewrite <- (firstn_skipn 4 sample_program) in O. apply Forall_app in O. apply O.
  - vm_compute. intros n r E. injection E as <- <-. reflexivity.
  - eexists. split; [vm_compute; reflexivity | discriminate].
Qed.

(** Between a label and its '.equ' it matters. *)
Example C46_separates :
  let p := nodes (u "a: .equ 5" ++ nl ++ u "ld v0, a" ++ nl) in
  let p' := nodes (u "a: b: .equ 5" ++ nl ++ u "ld v0, a" ++ nl) in
  assemble p = Done (Ok [mk_range 0 [0x60; 0x05]]) /\ assemble p' = Done (Ok [mk_range 0 [0x60; 0x00]]).
Proof. split; vm_compute; reflexivity. Qed.

(** ** C47: sections may be reordered. *)

Theorem C47_ranges : forall ss ss' rs, Forall node_ok (concat ss) -> Forall section_starts ss ->
  Permutation ss ss' -> assemble (concat ss) = Done (Ok rs) ->
  exists rs', assemble (concat ss') = Done (Ok rs') /\ Permutation rs rs'.
Proof. exact assemble_reordered. Qed.
Print Assumptions C47_ranges.

(** The bytes are at the same addresses, and overlap as before. *)
Theorem C47_memory : forall ss ss' rs, Forall node_ok (concat ss) -> Forall section_starts ss ->
  Permutation ss ss' -> assemble (concat ss) = Done (Ok rs) ->
  exists rs', assemble (concat ss') = Done (Ok rs') /\
    (forall a b, In (a, b) (memory rs') <-> In (a, b) (memory rs)) /\
    (NoDup (map fst (memory rs')) <-> NoDup (map fst (memory rs))).
Proof.
  intros ss ss' rs O F P H. destruct (assemble_reordered ss ss' rs O F P H) as (rs' & E & Q).
  exists rs'. split; [exact E|].
  assert (M : Permutation (memory rs) (memory rs')) by (unfold memory; apply Permutation_flat_map; exact Q).
  split.
  - intros a b. split; apply Permutation_in; [apply Permutation_sym|]; exact M.
  - apply (Permutation_map fst) in M. split; apply Permutation_NoDup; [apply Permutation_sym|]; exact M.
Qed.
Print Assumptions C47_memory.

(** Two sections, each referring to the other. *)
Definition section_a : list node := nodes (
  u ".org $200" ++ nl ++ u "main: ld i, data" ++ nl ++ u "ld v0, five" ++ nl).
Definition section_b : list node := nodes (
  u ".org $300" ++ nl ++ u "five: .equ 5" ++ nl ++ u "data: .db 1, 2" ++ nl ++ u "jp main" ++ nl).

Example C47_instance :
  Forall node_ok (concat [section_a; section_b]) /\ Forall section_starts [section_a; section_b] /\
  Permutation [section_a; section_b] [section_b; section_a] /\
  assemble (concat [section_a; section_b]) =
    Done (Ok [mk_range 0x200 [0xA3; 0x00; 0x60; 0x05]; mk_range 0x300 [1; 2; 0x12; 0x00]]) /\
  assemble (concat [section_b; section_a]) =
    Done (Ok [mk_range 0x300 [1; 2; 0x12; 0x00]; mk_range 0x200 [0xA3; 0x00; 0x60; 0x05]]).
Proof.
  split; [|split; [|split; [constructor|split; vm_compute; reflexivity]]].
  - cbn [concat]. rewrite app_nil_r. apply Forall_app. split; apply nodes_ok.
  - repeat constructor; vm_compute; do 4 eexists; split; reflexivity.
Qed.

(** ** C48: splitting or joining '.db' changes nothing. *)

Theorem C48_ranges : forall p q l id a b l1 id1 l2 id2,
  ascii id -> ascii id1 -> ascii id2 ->
  names id "DB" = true -> names id1 "DB" = true -> names id2 "DB" = true ->
  a <> [] -> b <> [] ->
  forall rs,
  assemble (p ++ NDirective l1 id1 a :: NDirective l2 id2 b :: q) = Done (Ok rs) <->
  assemble (p ++ NDirective l id (a ++ b) :: q) = Done (Ok rs).
Proof. exact assemble_split_db. Qed.
Print Assumptions C48_ranges.

Example C48_instance :
  let p := nodes (u "x: .db 1" ++ nl) in let q := nodes (u "jp x" ++ nl) in
  let a := [LNumeric 1; LString (u "ab")] in let b := [LNumeric 255] in let l := mk_loc (u "f") 2 1 2 in
  ascii (u "Db") /\ names (u "Db") "DB" = true /\
  assemble (p ++ NDirective l (u "Db") (a ++ b) :: q) = Done (Ok [mk_range 0 [1; 1; 97; 98; 255; 0x10; 0x00]]).
Proof.
  cbv zeta. split; [repeat constructor|]. split; vm_compute; reflexivity.
Qed.
