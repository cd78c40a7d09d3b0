(** * C117: the tool, executed, and what is claimed of the tool.

    [leaves h f o]: the text of main.rs, executed from [main] on the files [f] with enough
    room on the standard output, ends, and leaves the output, the status and the files [o]
    behind.  What C41 to C43, C59, C70, C71 and C98 say of the tool is said here of the
    text. *)

From Coq Require Import String List NArith Bool Lia.
From Verif Require Import Base BaseFacts Text Location Token Scanner Parser DataRange Assembler IHex Main MainIO
  SpecUtf8 SpecLex SpecGrammar SpecLayout SpecHex SpecTool SpecArgs SpecOut SpecRun SpecSafe Getopts ArgsProofs
  SpecErase LexTheorems ParseProofs MainProofs IoProofs PropOutput PropIo PropTool PropRun PropSafe
  SrcText SrcLex SrcParse SrcRun SrcCode SrcEnc SrcFacts SrcTool SrcMainProofs PropSourceMain.
Import ListNotations.
Open Scope string_scope.
Open Scope list_scope.
Open Scope N_scope.

(** The same output and status, and the same content of every file *)
Definition agree (o o' : Main.outcome) : Prop :=
  o_stdout o = o_stdout o' /\ o_exit o = o_exit o' /\ forall p, o_fs o p = o_fs o' p.
Definition left_with (h : host) (room : nat) (f : fs) (o : Main.outcome) : Prop :=
  exists r, SrcTool.runs h (Call "main" [] []) (mk_world room [] [] f) r /\ agree (left_behind r) o.
Definition leaves (h : host) (f : fs) (o : Main.outcome) : Prop :=
  exists enough, forall room, (enough <= room)%nat -> left_with h room f o.
(** Writing to the standard output fails for want of room only *)
Definition steady (h : host) : Prop := forall input, wants h input (u "-") -> h_write_error h = None.

Lemma agree_sym o o' : agree o o' -> agree o' o.
Proof. intros (A & B & C). repeat split; auto. Qed.
Lemma agree_trans o o' o'' : agree o o' -> agree o' o'' -> agree o o''.
Proof. intros (A & B & C) (A' & B' & C'). split; [congruence|]. split; [congruence|]. intro p. rewrite C. apply C'. Qed.

Lemma left_with_process h room f o : left_with h room f o <-> agree (process (main_io (env_of h) (h_full h)) room f) o.
Proof.
  destruct (left_process h room f) as (R & L). split.
  - intros (r & Rr & A). apply C112_tool in Rr. subst r. rewrite <- L. exact A.
  - intro A. eexists. split; [exact R|]. rewrite L. exact A.
Qed.

(** There is only one such end. *)
Theorem C117_one : forall h f o o', leaves h f o -> leaves h f o' -> agree o o'.
Proof.
  intros h f o o' (n & A) (n' & A'). specialize (A (n + n')%nat ltac:(lia)). specialize (A' (n + n')%nat ltac:(lia)).
  apply left_with_process in A. apply left_with_process in A'. eapply agree_trans; [apply agree_sym; exact A|exact A'].
Qed.
Print Assumptions C117_one.

(** What the model of main.rs says is what the text leaves. *)
Theorem C117_leaves : forall h f o, steady h ->
  (leaves h f o <-> exists o', main (env_of h) f = Done o' /\ agree o' o).
Proof.
  intros h f o D. assert (G : forall o', main (env_of h) f = Done o' -> leaves h f o').
  { intros o' M. exists (length (o_stdout o')). intros room L. apply left_with_process. exact (C71_enough (env_of h) (h_full h) f o' room D M L). }
  split.
  - intro A. destruct (C43_total (env_of h) f) as (o' & M). exists o'. split; [exact M|].
    exact (C117_one h f o' o (G o' M) A).
  - intros (o' & M & A). destruct (G o' M) as (n & H). exists n. intros room L. apply left_with_process.
    eapply agree_trans; [|exact A]. apply left_with_process. exact (H room L).
Qed.
Print Assumptions C117_leaves.

(** It ends, with status 0 or 1: there is no panic. *)
Theorem C117_ends : forall h f, steady h -> exists o, leaves h f o /\ (o_exit o = 0 \/ o_exit o = 1).
Proof.
  intros h f D. destruct (C43_total (env_of h) f) as (o & M). exists o.
  split; [apply C117_leaves; [exact D|]; exists o; split; [exact M|repeat split]|].
  revert M. unfold main, assemble_file, fail, write_output, fail.
  destruct (e_options _) as [m|]; [|intro M; injection M as <-; auto].
  destruct (m_help m); [intro M; injection M as <-; auto|]. destruct (m_version m); [intro M; injection M as <-; auto|].
  destruct (m_free m) as [|i [|? ?]]; try (intro M; injection M as <-; auto).
  destruct (read_input _ _ _); [|intro M; injection M as <-; auto].
  destruct (assemble_text _ _ _) as [[t|t]|]; cbn [bind]; [|intro M; injection M as <-; auto|discriminate].
  repeat match goal with |- context [match ?x with _ => _ end] => destruct x end; intro M; injection M as <-; auto.
Qed.
Print Assumptions C117_ends.

(** With less room: as much of the output as there is room for, the same files, and the
    status 101 of a panic just if a complete line is lost *)
Theorem C117_room : forall h f o lines room, steady h -> leaves h f o -> complete_lines (o_stdout o) lines ->
  left_with h room f
    (mk_outcome (firstn room (o_stdout o)) (if Nat.leb (length lines) room then o_exit o else 101) (o_fs o)).
Proof.
  intros h f o lines room D A C. apply C117_leaves in A; [|exact D]. destruct A as (o' & M & S & X & F).
  rewrite <- S in C. destruct (C71_exact (env_of h) (h_full h) f o' lines room D M C) as (S' & X' & F').
  apply left_with_process. unfold agree. cbn [o_stdout o_exit o_fs].
  rewrite S', X', S, X. split; [reflexivity|]. split; [reflexivity|]. intro p. rewrite F'. apply F.
Qed.
Print Assumptions C117_room.

(** One file is read and at most one is written. *)
Theorem C117_input : forall h f f' input output o o', steady h -> wants h input output -> f input = f' input ->
  leaves h f o -> leaves h f' o' ->
  o_stdout o = o_stdout o' /\ o_exit o = o_exit o' /\
  ((forall p, o_fs o p = f p) /\ (forall p, o_fs o' p = f' p) \/
   (o_fs o output = o_fs o' output /\ forall p, p <> output -> o_fs o p = f p /\ o_fs o' p = f' p)).
Proof.
  intros h f f' input output o o' D W E A A'. apply C117_leaves in A; [|exact D]. apply C117_leaves in A'; [|exact D].
  destruct A as (x & M & S & X & F), A' as (x' & M' & S' & X' & F').
  destruct (C59_input (env_of h) f f' input output x x' (wants_asks _ _ _ W) E M M') as (Es & Ex & Ef).
  split; [congruence|]. split; [congruence|]. destruct Ef as [[G G']|[G G']].
  - left. split; intro p; [rewrite <- F; apply G|rewrite <- F'; apply G'].
  - right. split; [rewrite <- F, <- F'; exact G|]. intros p N. rewrite <- F, <- F'. exact (G' p N).
Qed.
Print Assumptions C117_input.

(** Run again on what it left, it leaves the same, *)
Theorem C117_again : forall h f input output o, steady h -> wants h input output -> output <> input -> leaves h f o ->
  leaves h (o_fs o) o.
Proof.
  intros h f input output o D W N A. apply C117_leaves in A; [|exact D]. destruct A as (x & M & S & X & F).
  destruct (C59_again (env_of h) f input output x (wants_asks _ _ _ W) N M) as (x' & M' & S' & X' & F').
  destruct (C43_total (env_of h) (o_fs o)) as (y & Y).
  destruct (C59_input (env_of h) (o_fs x) (o_fs o) input output x' y (wants_asks _ _ _ W) (F input) M' Y) as (Es & Ex & Ef).
  apply C117_leaves; [exact D|]. exists y. split; [exact Y|]. split; [congruence|]. split; [congruence|]. intro p.
  destruct Ef as [[G G']|[G G']]; [apply G'|].
  destruct (list_eq_dec N.eq_dec p output) as [->|Np]; [rewrite <- G, F'; apply F|exact (proj2 (G' p Np))].
Qed.
Print Assumptions C117_again.

(** unless the output is the input: then what was a program is none any more. *)
Theorem C117_itself : forall h f path bytes s ranges, steady h -> wants h path path -> path <> u "-" ->
  h_open_error h = None -> h_read_error h = None -> h_create_error h = None -> h_write_error h = None ->
  f path = Some bytes -> encoding s bytes -> compiles path s ranges ->
  exists o o', leaves h f o /\ o_exit o = 0 /\ leaves h (o_fs o) o' /\ o_exit o' = 1 /\ o_stdout o' <> [].
Proof.
  intros h f path bytes s rs D W N Ho Hr Hc Hw Hf He C.
  destruct (C59_itself (env_of h) f path s rs (wants_asks _ _ _ W) N) as (o & out & M & X & M' & Ne); auto.
  { split; [exact Ho|]. split; [exact Hr|]. exists bytes. auto. }
  assert (R : forall x, agree x x) by (intro x; repeat split).
  exists o, (mk_outcome out 1 (o_fs o)).
  split; [apply C117_leaves; [exact D|]; exists o; auto|]. split; [exact X|].
  split; [apply C117_leaves; [exact D|]; eexists; split; [exact M'|apply R]|]. split; [reflexivity|exact Ne].
Qed.
Print Assumptions C117_itself.

(** The bytes in the file the text writes are a program a processor runs as its source says. *)
Theorem C117_runs : forall h f input output bytes s ranges, steady h -> wants h input output -> output <> u "-" ->
  h_open_error h = None -> h_read_error h = None -> h_create_error h = None -> h_write_error h = None ->
  f input = Some bytes -> encoding s bytes -> compiles input s ranges ->
  exists p hex image, stands_for input s p /\ leaves h f (mk_outcome [] 0 (fs_set f output hex)) /\
    read_hex hex = Some image /\
    (forall P st st', SpecRun.runs (SpecRun.program_step P p) (SpecRun.loaded P image) st st' <->
       SpecRun.runs (SpecRun.machine_step P) (fun st => SpecRun.loaded P image st /\ SpecRun.at_statement P p st) st st') /\
    (contained p -> harmless p -> forall P stack, obedient P stack -> forall st st',
       SpecRun.loaded P image st -> instruction_at p (SpecRun.pc P st) -> stack st = [] ->
       SpecRun.runs (SpecRun.machine_step P) (fun st => ~ SpecSafe.leaving P stack st) st st' ->
       instruction_at p (SpecRun.pc P st') /\ SpecRun.runs (SpecRun.program_step P p) (fun _ => True) st st').
Proof.
  intros h f input output bytes s rs D W N Ho Hr Hc Hw Hf He C.
  assert (Rd : reads (env_of h) f input s) by (split; [exact Ho|]; split; [exact Hr|]; exists bytes; auto).
  destruct (C70_tool (env_of h) f input output s rs (wants_asks _ _ _ W) Rd C N Hc Hw) as (p & text & image & St & M & R & G).
  destruct (C98_tool (env_of h) f input output s rs (wants_asks _ _ _ W) Rd C N Hc Hw) as (p' & text' & image' & St' & M' & R' & G').
  rewrite M in M'. injection M' as E.
  assert (text' = text).
  { apply (f_equal (fun g : fs => g output)) in E. unfold fs_set in E. rewrite str_eqb_refl in E. congruence. }
  subst text'. assert (image' = image) by congruence. subst image'.
  assert (p' = p).
  { destruct St as (ts & L & Q), St' as (ts' & L' & Q'). rewrite (lexes_det _ _ _ _ L _ L') in *.
    apply parse_program in Q. apply parse_program in Q'. congruence. }
  subst p'.
  exists p, text, image. split; [exact St|]. split; [|split; [exact R|split; [exact G|exact G']]].
  apply C117_leaves; [exact D|]. eexists. split; [exact M|]. repeat split.
Qed.
Print Assumptions C117_runs.

(** ** Cases *)
(** The text of C112_instance to another file, and over itself; and how it is with no room *)
Definition over_itself : host := some_host [u "-o"; u "a.s"; u "a.s"].
Example C117_instance :
  let h := some_host [u "a.s"; u "-o"; u "b.hex"] in
  steady h /\ wants h (u "a.s") (u "b.hex") /\ u "b.hex" <> u "a.s" /\ u "b.hex" <> u "-" /\
  leaves h (some_files file_text) (mk_outcome [] 0 (fs_set (some_files file_text) (u "b.hex") hex_lines)) /\
  steady over_itself /\ wants over_itself (u "a.s") (u "a.s") /\ u "a.s" <> u "-".
Proof.
  cbv zeta. assert (S : forall a, steady (some_host a)) by (intros a i _; reflexivity).
  split; [apply S|]. split; [eexists; split; [reflexivity|repeat split; reflexivity]|]. split; [discriminate|].
  split; [discriminate|]. split.
  - apply C117_leaves; [apply S|]. eexists. split; [vm_compute; reflexivity|]. split; [reflexivity|]. split; [reflexivity|].
    intro p. reflexivity.
  - split; [apply S|]. split; [eexists; split; [reflexivity|repeat split; reflexivity]|discriminate].
Qed.

(** Run as a whole by steps: over itself, and again; the message, and part of it *)
Definition first_line : str :=
  u "a.s:1:1: error: Unexpected token found: label marker, expecting one of: directive marker, identifier." ++ [10].
Example C117_instance_run :
  ends c8s [u "-o"; u "a.s"; u "a.s"] file_text 0 (u "a.s") = Some ([], 0, Some hex_lines) /\
  ends c8s [u "-o"; u "a.s"; u "a.s"] hex_lines 200 (u "a.s") = Some (first_line, 1, Some hex_lines) /\
  complete_lines first_line first_line /\
  ends c8s [u "-o"; u "a.s"; u "a.s"] hex_lines 10 (u "a.s") = Some (firstn 10 first_line, 101, Some hex_lines).
Proof.
  split; [vm_compute; reflexivity|]. split; [vm_compute; reflexivity|]. split; [|vm_compute; reflexivity].
  exists []. split; [rewrite app_nil_r; reflexivity|]. split; [intros []|]. right. eexists. reflexivity.
Qed.
