(** * C115: what users would not expect, seen by running the text of the source.

    The claims of C08, C09, C16 to C19, C35, C81 and C82 are false of the model, and the
    theorems there say by how much.  Here the model has no part: the text of the files of
    /repo is run by the machine of SrcRun.v from [main] on, as the tool 'c8s a.s', and its
    object file is looked at. *)

From Coq Require Import String List NArith Bool Lia.
From Verif Require Import Base Text Main MainIO SrcText SrcLex SrcParse SrcRun SrcCode SrcTool SrcMainProofs PropSourceMain.
Import ListNotations.
Open Scope string_scope.
Open Scope list_scope.
Open Scope N_scope.

(** The run of 'c8s a.s' where that file has a text *)
Definition run_on (text : str) (r : MainIO.step unit * world) : Prop :=
  runs (some_host [u "a.s"]) (Call "main" [] []) (mk_world 1000 [] [] (some_files (utf8 text))) r.

(** It is over, whatever way it goes, with the object file [o], or with none and a failure *)
Definition makes (text : str) (o : option str) : Prop :=
  (exists r, run_on text r) /\
  forall r, run_on text r ->
    o_fs (left_behind r) (u "a.hex") = o /\
    o_exit (left_behind r) = match o with Some _ => 0 | None => 1 end.

Lemma seen_in m n text o :
  option_map (fun r => (o_exit (left_behind r), o_fs (left_behind r) (u "a.hex")))
    (drive c8s (some_host [u "a.s"]) m n (Call "main" [] []) (mk_world 1000 [] [] (some_files (utf8 text))))
  = Some (match o with Some _ => 0 | None => 1 end, o) -> makes text o.
Proof.
  destruct (drive _ _ _ _ _ _) as [r|] eqn:E; [|discriminate]. intros H. injection H as H1 H2.
  apply drive_runs in E. split; [exists r; exact E|].
  intros r' H'. rewrite <- (runs_once _ _ _ _ _ E H'). split; assumption.
Qed.
Definition seen := seen_in 500 200.

(** Lines *)
Definition LF : N := 10.
Definition rows (l : list string) : str := flat_map (fun s => u s ++ [LF]) l.

(** A text may be refused only because the last line does not end (C17). *)
Theorem C115_last_line_refuted : exists text o, makes (text ++ [LF]) (Some o) /\ makes text None.
Proof.
  exists (u "cls"), (rows [":0200000000E01E"; ":00000001FF"]).
  split; apply seen; vm_compute; reflexivity.
Qed.
Print Assumptions C115_last_line_refuted.

(** The last byte of the memory may not be filled, the one before it may (C35). *)
Theorem C115_last_byte_refuted : exists o,
  makes (rows [".org $FFF"; ".db 1"]) None /\ makes (rows [".org $FFE"; ".db 1"]) (Some o).
Proof.
  exists (rows [":010FFE0001F1"; ":00000001FF"]). split; apply seen; vm_compute; reflexivity.
Qed.
Print Assumptions C115_last_byte_refuted.

(** A binary number too large for any byte is a zero (C08). *)
Theorem C115_large_binary_refuted : exists digits,
  digits = u "1" ++ repeat (48 : N) 64 /\
  makes (u ".db %" ++ digits) (Some (rows [":0100000000FF"; ":00000001FF"])).
Proof. eexists. split; [reflexivity|]. apply seen. vm_compute. reflexivity. Qed.
Print Assumptions C115_large_binary_refuted.

(** The case of letters matters in 'Dt', though not in 'DT' and 'dt' (C18). *)
Theorem C115_case_refuted : exists o,
  makes (rows ["ld v0, dt"]) (Some o) /\ makes (rows ["ld v0, DT"]) (Some o) /\
  makes (rows ["ld v0, Dt"]) None.
Proof.
  exists (rows [":02000000F00707"; ":00000001FF"]).
  split; [|split]; apply seen; vm_compute; reflexivity.
Qed.
Print Assumptions C115_case_refuted.

(** A label may be defined that nothing can refer to (C19). *)
Theorem C115_label_refuted : exists o o',
  makes (rows ["c: ld i, c"]) (Some o) /\ makes (rows ["b: ld i, b"]) None /\ makes (rows ["b: ld i, 0"]) (Some o').
Proof.
  exists (rows [":02000000A0005E"; ":00000001FF"]), (rows [":02000000A0005E"; ":00000001FF"]).
  split; [|split]; apply seen; vm_compute; reflexivity.
Qed.
Print Assumptions C115_label_refuted.

(** A line that ends in a carriage return takes the next with it when it has a comment (C81). *)
Theorem C115_carriage_return_refuted : exists o o',
  o <> o' /\
  makes (u ".db 1 ; one" ++ [LF] ++ u ".db 2") (Some o) /\
  makes (u ".db 1 ; one" ++ [13] ++ u ".db 2") (Some o') /\
  makes (u ".db 1" ++ [13] ++ u ".db 2") (Some o).
Proof.
  exists (rows [":020000000102FB"; ":00000001FF"]), (rows [":0100000001FE"; ":00000001FF"]).
  split; [discriminate|]. split; [|split]; apply seen; vm_compute; reflexivity.
Qed.
Print Assumptions C115_carriage_return_refuted.

(** A constant may be an operand of an instruction, and not of a directive (C82). *)
Theorem C115_constant_refuted : exists o o',
  makes (rows ["x: .equ 5"; "ld v0, x"]) (Some o) /\ makes (rows ["x: .equ 5"; ".db x"]) None /\
  makes (rows ["x: .equ 5"; ".db 5"]) (Some o').
Proof.
  exists (rows [":02000000600599"; ":00000001FF"]), (rows [":0100000005FA"; ":00000001FF"]).
  split; [|split]; apply seen; vm_compute; reflexivity.
Qed.
Print Assumptions C115_constant_refuted.

(** A hexadecimal number of more than three digits may be a number and an instruction (C09). *)
Theorem C115_digits_refuted : exists o,
  makes (rows ["ld i, $200cls"]) (Some o) /\ makes (rows ["ld i, $200"; "cls"]) (Some o).
Proof.
  exists (rows [":04000000A20000E07A"; ":00000001FF"]). split; apply seen; vm_compute; reflexivity.
Qed.
Print Assumptions C115_digits_refuted.

(** A comment may make a text wrong (C16). *)
Theorem C115_comment_refuted : exists o,
  makes (rows [".db 1,"]) (Some o) /\ makes (rows [".db 1, ; one"]) None.
Proof.
  exists (rows [":0100000001FE"; ":00000001FF"]). split; apply seen; vm_compute; reflexivity.
Qed.
Print Assumptions C115_comment_refuted.

(** A backslash keeps a quotation mark in a string, and itself is kept there too. *)
Theorem C115_backslash :
  makes (u ".db ""a\""""") (Some (rows [":03000000615C221E"; ":00000001FF"])).
Proof. apply seen. vm_compute. reflexivity. Qed.
Print Assumptions C115_backslash.

(** A mark of the byte order at the start is no part of any program (C81). *)
Theorem C115_mark_refuted : exists o,
  makes (u ".db 1") (Some o) /\ makes (0xFEFF :: u ".db 1") None.
Proof.
  exists (rows [":0100000001FE"; ":00000001FF"]). split; apply seen; vm_compute; reflexivity.
Qed.
Print Assumptions C115_mark_refuted.
