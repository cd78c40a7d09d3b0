(** * PropEdit: property C89, with instances. *)

From Verif Require Import Base Text U12 Location Token Scanner Parser Directive Opcode Instruction DataRange Assembler
  IHex Main SpecLex SpecErase SpecCode SpecOpcode SpecRefusal SpecLayout SpecHex SpecTool SpecUtf8 SpecMeta SpecRewrite SpecInsert BaseFacts
  LayoutProofs EmitProofs TextProofs FirstProofs TextCode PropLayout InsertProofs PropOutput PropText PropRewrite PropConcat PropInsert EditProofs.
Open Scope string_scope.
Open Scope list_scope.
Open Scope N_scope.

(** ** C89: lines of a source file replaced, or inserted.

    Lines with instructions and data, replaced by others of the same size: the HEX file differs in their
    bytes only.  Unless one of the new statements has no meaning there; then the file is refused. *)
Theorem C89_replaced : forall e file before old new after a m m' b text,
  Forall scalar (before ++ old ++ after) -> Forall scalar new -> lined before -> lined old -> lined new ->
  parsed file before a -> parsed file old m -> parsed file new m' -> parsed file after b ->
  Forall plain m -> Forall plain m' -> m <> [] -> m' <> [] -> extent m = extent m' ->
  assemble_text e file (before ++ old ++ after) = Done (Ok text) ->
  exists x bytes y, read_hex text = Some (x ++ place (counter 0 a) bytes ++ y) /\ N.of_nat (length bytes) = extent m /\
    ((exists bytes' text', assemble_text e file (before ++ new ++ after) = Done (Ok text') /\
        read_hex text' = Some (x ++ place (counter 0 a) bytes' ++ y) /\ length bytes' = length bytes /\
        exists bss', Forall2 (node_bytes (lookup (a ++ m ++ b))) m' bss' /\ bytes' = concat bss') \/
     (exists n message, In n m' /\ (forall bs, ~ node_bytes (lookup (a ++ m ++ b)) n bs) /\
        assemble_text e file (before ++ new ++ after) = Done (Err message))).
Proof.
  intros e file before old new after a m m' b text Sc Scn Lb Lo Ln Pa Po Pn Pb Pm Pm' Ne Ne' Ex H.
  destruct (three_texts file before old after a m b Lb Lo Pa Po Pb) as (w & W & S).
  destruct (three_texts file before new after a m' b Lb Ln Pa Pn Pb) as (w' & W' & S').
  assert (Nk : Forall node_ok (a ++ m ++ b)) by (rewrite !Forall_app; repeat split; eapply parsed_ok; eassumption).
  assert (Nk' : Forall node_ok (a ++ m' ++ b)) by (rewrite !Forall_app; repeat split; eapply parsed_ok; eassumption).
  assert (Sc' : Forall scalar (before ++ new ++ after)) by (rewrite !Forall_app in *; tauto).
  destruct (text_memory _ _ _ _ _ Sc W H) as (rs & A & R & D). apply (assemble_same_ok _ _ _ S) in A.
  apply (assemble_ok _ _ Nk) in A. destruct A as [Wf O].
  destruct (assemble_spec _ Nk') as [(rs' & A' & Wf' & O')|(err & A' & X')].
  - destruct (memory_replaced a m m' b Pm Pm' Ne Ne' Ex rs rs' Nk Wf O Wf' O') as (x & y & bss & bss' & B & B' & M & M').
    exists x, (concat bss), y. rewrite R, M. split; [reflexivity|]. split; [apply (bytes_extent _ _ _ B)|]. left.
    assert (L : length (concat bss') = length (concat bss)).
    { apply Nat2N.inj. rewrite (bytes_extent _ _ _ B), (bytes_extent _ _ _ B'). symmetry. exact Ex. }
    assert (A2 : assemble w' = Done (Ok rs')) by (apply (assemble_same_ok _ _ _ (same_program_sym _ _ S')); exact A').
    assert (D' : NoDup (map fst (memory rs'))).
    { rewrite M'. rewrite M in D. rewrite !map_app in *. rewrite (place_addresses _ _ _ L). exact D. }
    destruct (memory_text e file _ _ _ Sc' W' A2 D') as (text' & T').
    destruct (text_memory _ _ _ _ _ Sc' W' T') as (rs2 & A3 & R' & _). rewrite A2 in A3. injection A3 as <-.
    exists (concat bss'), text'. split; [exact T'|]. split; [rewrite R', M'; reflexivity|]. split; [exact L|].
    exists bss'. split; [exact B' | reflexivity].
  - assert (Im : exists bs, Forall2 (node_bytes (lookup (a ++ m ++ b))) (a ++ m ++ b) bs /\ memory rs = OutputProofs.image 0 (a ++ m ++ b) bs)
      by exact (OutputProofs.output_image _ _ Wf O).
    destruct Im as (bs & B & M). apply Forall2_app_inv_l in B. destruct B as (ba & r1 & Ba & B & ->).
    apply Forall2_app_inv_l in B. destruct B as (bm & bb & Bm & Bb & ->).
    rewrite (image_app a), (image_app m) in M by (eapply OutputProofs.forall2_len; eassumption).
    rewrite (image_run _ _ _ _ (plain_origin m Pm) Bm) in M.
    exists (OutputProofs.image 0 a ba), (concat bm), (OutputProofs.image (counter (counter 0 a) m) b bb).
    split; [rewrite R, M; reflexivity|]. split; [apply (bytes_extent _ _ _ Bm)|]. right.
    assert (Nw : ~ well_formed (a ++ m' ++ b)).
    { intros Wf'. destruct (proj2 (PropLayout.C29_accepts _ Nk') Wf') as (rs' & Z). rewrite A' in Z. discriminate Z. }
    assert (Q : exists n, In n m' /\ forall bs, ~ node_bytes (lookup (a ++ m ++ b)) n bs).
    { rewrite (well_formed_replaced a m m' b Pm Pm' Ne Ne' Ex Wf) in Nw.
      apply some_meaningless; try assumption. eapply parsed_ok. exact Pn. }
    destruct Q as (n & I & Q). destruct (text_decided e file _ Sc') as [(t & T)|(msg & T)].
    + exfalso. destruct (text_memory _ _ _ _ _ Sc' W' T) as (rs' & A2 & _). apply (assemble_same_ok _ _ _ S') in A2.
      rewrite A' in A2. discriminate A2.
    + exists n, msg. split; [exact I|]. split; [exact Q | exact T].
Qed.
Print Assumptions C89_replaced.

(** Lines with instructions and data, inserted between lines or removed from there: what follows, up to the
    next '.org', moves by their size, and all other bytes stay.  No instruction refers to what moves. *)
Theorem C89_inserted : forall e file before lines after rest a m b c text text',
  Forall scalar (before ++ lines ++ after ++ rest) -> lined before -> lined lines -> lined after ->
  parsed file before a -> parsed file lines m -> parsed file after b -> parsed file rest c ->
  Forall plain m -> Forall (fun n => origin n = None) b -> placed c -> detached (b ++ c) -> apart_from b (a ++ m ++ b ++ c) ->
  assemble_text e file (before ++ after ++ rest) = Done (Ok text) ->
  assemble_text e file (before ++ lines ++ after ++ rest) = Done (Ok text') ->
  exists x bytes y z, N.of_nat (length x) = extent a /\ N.of_nat (length bytes) = extent m /\ N.of_nat (length y) = extent b /\
    read_hex text = Some (x ++ y ++ z) /\
    read_hex text' = Some (x ++ place (counter 0 a) bytes ++ map (up (extent m)) y ++ z).
Proof.
  intros e file before lines after rest a m b c text text' Sc Lb Ll La Pa Pl Pb Pc Pm Ob Pl' D Ap H H'.
  destruct (three_texts file before after rest a b c Lb La Pa Pb Pc) as (w & W & S).
  destruct (three_texts file lines after rest m b c Ll La Pl Pb Pc) as (v & V & S').
  destruct (C62_text file before _ a v Lb Pa V) as (w' & W' & S2).
  assert (S3 : same_program w' (a ++ m ++ b ++ c)).
  { unfold same_program in *. rewrite S2, !map_app, S', !map_app. reflexivity. }
  assert (Nk : Forall node_ok (a ++ m ++ b ++ c)) by (rewrite !Forall_app; repeat split; eapply parsed_ok; eassumption).
  assert (Sc2 : Forall scalar (before ++ after ++ rest)) by (rewrite !Forall_app in *; tauto).
  destruct (text_memory _ _ _ _ _ Sc2 W H) as (rs & A & R & _). destruct (text_memory _ _ _ _ _ Sc W' H') as (rs' & A' & R' & _).
  apply (assemble_same_ok _ _ _ S) in A. apply (assemble_same_ok _ _ _ S3) in A'.
  destruct (C86_memory a m b c rs rs' Nk Pm Ob Pl' D Ap A A') as (ma & mb & mc & bss & B & L1 & L2 & M & M').
  exists ma, (concat bss), mb, mc. split; [exact L1|]. split; [apply (bytes_extent _ _ _ B)|]. split; [exact L2|].
  rewrite R, R', M, M'. split; reflexivity.
Qed.
Print Assumptions C89_inserted.

(** Two lines in the middle of a program become one. *)
Definition edit_before : str := lines [".org $200"; "go: ld v0, 1"].
Definition edit_old : str := lines ["add v0, 1 ; count"; "cls"].
Definition edit_new : str := lines [".db 1, 2, $FF, 4"].
Definition edit_after : str := lines ["jp go"; "end:"; "ld i, end"].

Example C89_instance :
  lined edit_before /\ lined edit_old /\ lined edit_new /\
  parsed (u "f") edit_before (nodes edit_before) /\ parsed (u "f") edit_old (nodes edit_old) /\
  parsed (u "f") edit_new (nodes edit_new) /\ parsed (u "f") edit_after (nodes edit_after) /\
  Forall plain (nodes edit_old) /\ Forall plain (nodes edit_new) /\ nodes edit_old <> [] /\ nodes edit_new <> [] /\
  extent (nodes edit_old) = 4 /\ extent (nodes edit_new) = 4 /\
  assemble_text sample_env (u "f") (edit_before ++ edit_old ++ edit_after) =
    Done (Ok (lines [":0A0200006001700100E01200A20886"; ":00000001FF"])) /\
  assemble_text sample_env (u "f") (edit_before ++ edit_new ++ edit_after) =
    Done (Ok (lines [":0A02000060010102FF041200A208D1"; ":00000001FF"])).
Proof.
  split; [right; exists (removelast edit_before); vm_compute; reflexivity|].
  split; [right; exists (removelast edit_old); vm_compute; reflexivity|].
  split; [right; exists (removelast edit_new); vm_compute; reflexivity|].
  split; [eexists; split; [vm_compute; reflexivity | vm_compute; reflexivity]|].
  split; [eexists; split; [vm_compute; reflexivity | vm_compute; reflexivity]|].
  split; [eexists; split; [vm_compute; reflexivity | vm_compute; reflexivity]|].
  split; [eexists; split; [vm_compute; reflexivity | vm_compute; reflexivity]|].
  split; [vm_compute; repeat constructor|]. split; [vm_compute; repeat constructor|].
  split; [vm_compute; discriminate|]. split; [vm_compute; discriminate|].
  split; [vm_compute; reflexivity|]. split; [vm_compute; reflexivity|]. split; [vm_compute; reflexivity|]. vm_compute; reflexivity.
Qed.

(** The new line has no meaning: a name nobody defined. *)
Example C89_meaningless :
  lined (lines ["call nowhere"; "cls"]) /\ extent (nodes (lines ["call nowhere"; "cls"])) = 4 /\
  exists message, assemble_text sample_env (u "f") (edit_before ++ lines ["call nowhere"; "cls"] ++ edit_after) = Done (Err message).
Proof.
  split; [right; eexists (removelast (lines ["call nowhere"; "cls"])); vm_compute; reflexivity|].
  split; [vm_compute; reflexivity|]. eexists. vm_compute. reflexivity.
Qed.

(** A data line inserted. *)
Definition insert_rest : str := lines [".org $300"; "jp go"].
Definition insert_after : str := lines ["jp go"; "end: .db 7"].

Example C89_insertion :
  Forall plain (nodes edit_new) /\ Forall (fun n => origin n = None) (nodes insert_after) /\ placed (nodes insert_rest) /\
  detached (nodes insert_after ++ nodes insert_rest) /\
  apart_from (nodes insert_after) (nodes edit_before ++ nodes edit_new ++ nodes insert_after ++ nodes insert_rest) /\
  assemble_text sample_env (u "f") (edit_before ++ insert_after ++ insert_rest) =
    Done (Ok (lines [":0502000060011200077F"; ":020300001200E9"; ":00000001FF"])) /\
  assemble_text sample_env (u "f") (edit_before ++ edit_new ++ insert_after ++ insert_rest) =
    Done (Ok (lines [":0902000060010102FF0412000775"; ":020300001200E9"; ":00000001FF"])).
Proof.
  split; [vm_compute; repeat constructor|]. split; [vm_compute; repeat constructor|].
  split; [intros n r E; vm_compute in E; injection E as <- _; eexists; vm_compute; reflexivity|].
  split; [intros n r E; vm_compute in E; injection E as <- _; vm_compute; reflexivity|].
  split; [|split; vm_compute; reflexivity].
  intros l mn fs x I X (b1 & l0 & b2 & E & _).
  assert (Lx : x = u "end").
  { assert (J : In (NLabel l0 x) (nodes insert_after)) by (rewrite E; apply in_app_iff; right; left; reflexivity).
    vm_compute in J. repeat (destruct J as [J|J]; [try discriminate J; injection J as _ <-; reflexivity|]). destruct J. }
  subst x. vm_compute in I.
  repeat (destruct I as [I|I]; [try discriminate I; injection I as <- <- <-; cbn in X;
    repeat (destruct X as [X|X]; [discriminate X|]); exact X|]). exact I.
Qed.
