(** * PropProcess: properties C76 and C77, with instances. *)

From Verif Require Import Base Text U12 Location Token Scanner Parser Directive Opcode Instruction DataRange Assembler
  IHex Main Getopts Process SpecLex SpecGrammar SpecLayout SpecUtf8 SpecTool SpecHex SpecArgs SpecProcess
  BaseFacts UtfProofs MainProofs ArgsProofs ProcessProofs PropOutput PropArgs PropText.
Open Scope string_scope.
Open Scope list_scope.
Open Scope N_scope.

(** ** C76: arguments.

    In full: whatever the arguments are, the tool does what it is asked for or refuses, but does not panic. *)

(** This fails for arguments which are not text, and when there are none. *)
Theorem C76_refuted : forall r text e d d', exists argv why,
  tool r text e argv d d' = Crash why /\
  exists a argv', argv = utf8 (u "c8s") :: a :: argv' /\ forall s, ~ encoding s a.
Proof.
  intros r text e d d'. exists [utf8 (u "c8s"); [0xFF]], UnwrapFailed. split; [reflexivity|].
  exists [0xFF], []. split; [reflexivity|]. intros s E. apply decode_encoding in E. discriminate E.
Qed.
Print Assumptions C76_refuted.

(** Those are the only cases. *)
Theorem C76_partial : forall r text e argv d d',
  (exists why, tool r text e argv d d' = Crash why) <-> (argv = [] \/ exists a, In a argv /\ forall s, ~ encoding s a).
Proof.
  intros r text e argv d d'. unfold tool. destruct (collect_args argv) as [args|why] eqn:C; cbn [bind].
  - pose proof C as F. apply collect_ok in F. split.
    + intros (w & E). left. inversion F as [|s a args' argv' En F' X Y]; [reflexivity|]. subst. exfalso.
      destruct (command_line_total r args') as (x & Cl). rewrite Cl in E. cbn [bind] in E.
      destruct (main_on_total (with_args e s (match x with Ok m => Ok m | Err y => Err (text y) end)) d d') as (o & M).
      rewrite M in E. discriminate E.
    + intros [-> | N].
      * inversion F; subst. exists IndexOutOfBounds. reflexivity.
      * apply collect_crash in N. destruct N as (w & N). congruence.
  - split; [|intros _; exists why; reflexivity]. intros _. right. apply collect_crash. exists why. exact C.
Qed.
Print Assumptions C76_partial.

(** Otherwise the arguments are read as in C67, and the rest is as for the options found in them. *)
Theorem C76_arguments : forall r text e argv d d' program args, arguments_are argv (program :: args) ->
  exists e', started r text args e' /\ e_program e' = program /\
    e_open_error e' = e_open_error e /\ e_read_error e' = e_read_error e /\ e_create_error e' = e_create_error e /\
    e_write_error e' = e_write_error e /\ tool r text e argv d d' = main_on e' d d'.
Proof.
  intros r text e argv d d' program args A. apply collect_ok in A. unfold tool. rewrite A. cbn [bind].
  destruct (command_line_total r args) as (x & Cl). rewrite Cl. cbn [bind].
  eexists. split; [|split; [|split; [|split; [|split; [|split; [|reflexivity]]]]]]; try reflexivity.
  unfold started. rewrite Cl. destruct x; reflexivity.
Qed.
Print Assumptions C76_arguments.

(** ** C77: files. *)

(** When the input is refused, no file is touched. *)
Theorem C77_refused : forall e d d' input output, asks e input output ->
  (forall s rs, reads e (content d) input s -> ~ compiles input s rs) ->
  exists out, main_on e d d' = Done (mk_ended out 1 d') /\ out <> [].
Proof. exact on_refuses. Qed.
Print Assumptions C77_refused.

(** The output is the program that was in the input when it was read, under every name of the output file, and
    no other file changes: also if input and output are one file, by whatever names, and if files
    are changed by others meanwhile. *)
Theorem C77_written : forall e d d' input output s rs, asks e input output ->
  reads e (content d) input s -> compiles input s rs ->
  output <> u "-" -> e_create_error e = None -> e_write_error e = None -> d_entry d' output <> None -> sound_disk d' ->
  exists text d2, main_on e d d' = Done (mk_ended [] 0 d2) /\ read_hex text = Some (memory rs) /\
    only_changed output text d' d2.
Proof.
  intros e d d' input output s rs A R C D Ec Ew Dir So.
  destruct (on_writes e d d' input output s rs A R C) as (text & _ & L & U & M). exists text.
  unfold write_output_on in M. replace (str_eqb output (u "-")) with false in M.
  2:{ symmetry. destruct (str_eqb output (u "-")) eqn:X; [|reflexivity]. apply str_eqb_eq in X. contradiction. }
  cbv zeta in M. rewrite Ec, Ew, U in M.
  destruct (create d' output) as [[i d1]|] eqn:Cr; [|apply create_some in Cr; contradiction].
  exists (append d1 i text). split; [exact M|]. split; [exact L|]. exact (created _ _ _ _ _ So Cr).
Qed.
Print Assumptions C77_written.

(** A failure to write leaves a part of it, also only in the output file. *)
Theorem C77_failed : forall e d d' input output s rs, asks e input output ->
  reads e (content d) input s -> compiles input s rs -> sound_disk d' ->
  output <> u "-" ->
  (e_create_error e <> None \/ d_entry d' output = None ->
     exists out, main_on e d d' = Done (mk_ended out 1 d') /\ out <> []) /\
  (e_create_error e = None -> d_entry d' output <> None -> forall reason n, e_write_error e = Some (reason, n) ->
     exists text out d2, main_on e d d' = Done (mk_ended out 1 d2) /\ out <> [] /\ read_hex text = Some (memory rs) /\
       only_changed output (firstn n text) d' d2).
Proof.
  intros e d d' input output s rs A R C So D.
  destruct (on_writes e d d' input output s rs A R C) as (text & _ & L & U & M).
  unfold write_output_on in M. replace (str_eqb output (u "-")) with false in M.
  2:{ symmetry. destruct (str_eqb output (u "-")) eqn:X; [|reflexivity]. apply str_eqb_eq in X. contradiction. }
  cbv zeta in M. rewrite U in M. unfold fail_on in M.
  assert (G : forall a b, utf8 (program_error e a ++ program_error e b) <> []).
  { intros a b. apply utf8_nonempty. intros X. unfold program_error in X. apply (f_equal (@length N)) in X.
    rewrite !app_length in X. cbn [length] in X. lia. }
  split.
  - intros H. destruct (e_create_error e) as [reason|]; [eexists; split; [exact M | apply G]|].
    destruct H as [H|H]; [contradiction|]. apply create_some in H. rewrite H in M. eexists. split; [exact M | apply G].
  - intros Ec Dir reason n Ew. rewrite Ec, Ew in M.
    destruct (create d' output) as [[i d1]|] eqn:Cr; [|apply create_some in Cr; contradiction].
    exists text. eexists. eexists. split; [exact M|]. split; [apply G|]. split; [exact L|]. exact (created _ _ _ _ _ So Cr).
Qed.
Print Assumptions C77_failed.

(** The tool of Main.v is the one on a disk where the output has one name, and which nobody changes. *)
Theorem C77_plain : forall e d o,
  (forall input output, asks e input output -> d_entry d output <> None /\ forall q, same_file d output q -> q = output) ->
  sound_disk d ->
  main e (content d) = Done o ->
  exists d', main_on e d d = Done (mk_ended (o_stdout o) (o_exit o) d') /\ forall p, content d' p = o_fs o p.
Proof.
  intros e d o One So M. unfold main, fail in M. unfold main_on, fail_on.
  destruct (e_options e) as [m|r] eqn:Eo; [|injection M as <-; exists d; split; reflexivity].
  destruct (m_help m) eqn:Eh; [injection M as <-; exists d; split; reflexivity|].
  destruct (m_version m) eqn:Ev; [injection M as <-; exists d; split; reflexivity|].
  destruct (m_free m) as [|input [|y l]] eqn:Ef; [injection M as <-; exists d; split; reflexivity | | injection M as <-; exists d; split; reflexivity].
  unfold assemble_file, fail in M. unfold assemble_file_on, fail_on. cbv zeta in *.
  destruct (read_input e (content d) input) as [buffer|message]; [|injection M as <-; exists d; split; reflexivity].
  destruct (assemble_text e input buffer) as [[result|message]|why]; cbn [bind] in *; [| |discriminate M].
  2:{ injection M as <-. exists d. split; reflexivity. }
  unfold write_output, fail in M. unfold write_output_on, fail_on. cbv zeta in *.
  destruct (str_eqb _ _); [destruct (e_write_error e) as [[reason n]|]; injection M as <-; exists d; split; reflexivity|].
  destruct (e_create_error e) as [reason|]; [injection M as <-; exists d; split; reflexivity|].
  set (output := match m_output m with Some p => p | None => u "a.hex" end) in *.
  assert (A : asks e input output) by (exists m; auto).
  destruct (One _ _ A) as [Dir Al].
  assert (Own : same_file d output output).
  { destruct (d_entry d output) as [x|] eqn:E; [|contradiction]. exists x, x. auto. }
  destruct (create d output) as [[i d1]|] eqn:Cr; [|apply create_some in Cr; contradiction].
  assert (W : forall bytes p, content (append d1 i bytes) p = fs_set (content d) output bytes p).
  { intros bytes p. destruct (created _ _ _ _ bytes So Cr) as [Yes No]. unfold fs_set. destruct (str_eqb p output) eqn:X.
    - apply str_eqb_eq in X. subst p. apply Yes, Own.
    - apply No. intros S. apply Al in S. subst p. rewrite (proj2 (str_eqb_eq _ _) eq_refl) in X. discriminate X. }
  destruct (e_write_error e) as [[reason n]|]; injection M as <-; eexists; (split; [reflexivity|]); apply W.
Qed.
Print Assumptions C77_plain.

(** ** The process as a whole: from the bytes of the arguments to the files. *)
Theorem C77_process : forall r text e d d' program input output argv s rs,
  (exists bytes, content d input = Some bytes /\ encoding s bytes) -> compiles input s rs ->
  e_open_error e = None -> e_read_error e = None -> e_create_error e = None -> e_write_error e = None ->
  d_entry d' output <> None -> sound_disk d' -> output <> u "-" -> ordinary input -> ordinary output ->
  (arguments_are argv [program; u "-o"; output; input] \/
   arguments_are argv [program; input; u "--output"; output] \/
   (arguments_are argv [program; input] /\ output = u "a.hex")) ->
  exists hex d2, tool r text e argv d d' = Done (mk_ended [] 0 d2) /\ read_hex hex = Some (memory rs) /\
    only_changed output hex d' d2.
Proof.
  intros r text e d d' program input output argv s rs R C Eo Er Ec Ew Dir So D Oi Oo A.
  assert (X : exists args, arguments_are argv (program :: args) /\
    (args = [u "-o"; output; input] \/ args = [input; u "--output"; output] \/ (args = [input] /\ output = u "a.hex"))).
  { destruct A as [A|[A|[A E]]]; eexists; (split; [exact A|]); auto. }
  destruct X as (args & A' & V).
  destruct (C76_arguments r text e argv d d' program args A') as (e' & S & Ep & E1 & E2 & E3 & E4 & T). rewrite T.
  assert (As : asks e' input output).
  { destruct V as [-> | [-> | [-> ->]]].
    - refine (C67_output _ _ _ _ _ _ Oi S _). left. split; [exact Oo|]. left. reflexivity.
    - refine (C67_output _ _ _ _ _ _ Oi S _). left. split; [exact Oo|]. right. right. right. reflexivity.
    - exact (C67_default _ _ _ _ Oi S). }
  apply (C77_written e' d d' input output s rs As); [|exact C|exact D|congruence|congruence|exact Dir|exact So].
  split; [congruence|]. split; [congruence|]. exact R.
Qed.
Print Assumptions C77_process.

(** ** Instances *)

(** The names 'in.s', 'link' (to it) and 'hard' have one file, 'a.hex' none yet. *)
Definition sample_disk (source : list byte) : disk :=
  mk_disk (fun p => if str_eqb p (u "in.s") || str_eqb p (u "link") then Some 1
                    else if str_eqb p (u "hard") then Some 2
                    else if str_eqb p (u "a.hex") then Some 3 else None)
          (fun x => if (x =? 1) || (x =? 2) then Some 10 else None)
          (fun i => if i =? 10 then source else [])
          11.

Definition seen (o : run ended) (names : list str) : option (list byte * N * list (option (list byte))) :=
  match o with
  | Done o => Some (n_stdout o, n_exit o, map (content (n_disk o)) names)
  | Crash _ => None
  end.

Example C76_instance :
  let d := sample_disk (lines ["CLS"]) in
  let go argv := seen (tool (mk_rules true true) (fun _ => u "bad") sample_env argv d d) [u "in.s"; u "a.hex"] in
  let program := u "c8s" in
  go [] = None /\ go [program; [0xC3; 0x28]] = None /\ go [program; [0xED; 0xA0; 0x80]; u "-h"] = None /\
  go [program; [0xC3; 0xA9]] = Some (utf8 (program ++ u ": error: Unable to open input file '" ++ [0xE9] ++ u "'" ++ [10]
                                          ++ program ++ u ": error: " ++ e_not_found sample_env ++ [10]), 1,
                                    [Some (lines ["CLS"]); None]) /\
  go [program; u "in.s"] = Some ([], 0, [Some (lines ["CLS"]); Some (lines [":0200000000E01E"; ":00000001FF"])]).
Proof. cbv zeta. split; [|split; [|split; [|split]]]; vm_compute; reflexivity. Qed.

(** The output replaces the input, read by another name; and the input changes after it was read. *)
Example C77_instance :
  let d := sample_disk (lines ["CLS"]) in let d' := sample_disk (lines ["RET"]) in
  let names := [u "in.s"; u "link"; u "hard"; u "a.hex"] in
  let go argv d d' := seen (tool (mk_rules true true) (fun _ => u "bad") sample_env argv d d') names in
  let hex := lines [":0200000000E01E"; ":00000001FF"] in
  go [u "c8s"; u "-o"; u "hard"; u "link"] d d = Some ([], 0, [Some hex; Some hex; Some hex; None]) /\
  go [u "c8s"; u "in.s"] d d' = Some ([], 0, [Some (lines ["RET"]); Some (lines ["RET"]); Some (lines ["RET"]); Some hex]).
Proof. cbv zeta. split; vm_compute; reflexivity. Qed.

Example C77_instance_disk :
  let d := sample_disk (lines ["CLS"]) in
  sound_disk d /\ same_file d (u "in.s") (u "hard") /\ ~ same_file d (u "in.s") (u "a.hex") /\
  d_entry d (u "a.hex") <> None /\ forall q, same_file d (u "a.hex") q -> q = u "a.hex".
Proof.
  cbv zeta. split; [|split; [|split; [|split]]].
  - intros x i E. unfold sample_disk in E. cbn [d_file] in E. destruct ((x =? 1) || (x =? 2)); [|discriminate].
    injection E as <-. discriminate.
  - exists 1, 2. split; [vm_compute; reflexivity|]. split; [vm_compute; reflexivity|]. right. exists 10. split; vm_compute; reflexivity.
  - intros (x & y & X & Y & S). vm_compute in X, Y. injection X as <-. injection Y as <-.
    destruct S as [S|(i & _ & S)]; [discriminate S | vm_compute in S; discriminate S].
  - discriminate.
  - intros q (x & y & X & Y & S). vm_compute in X. injection X as <-.
    assert (Y3 : y = 3) by (destruct S as [S|(i & S & _)]; [symmetry; exact S | vm_compute in S; discriminate S]). subst y.
    unfold sample_disk in Y. cbn [d_entry] in Y. destruct (str_eqb q (u "in.s") || str_eqb q (u "link")); [discriminate|].
    destruct (str_eqb q (u "hard")); [discriminate|]. destruct (str_eqb q (u "a.hex")) eqn:Q; [|discriminate].
    apply str_eqb_eq. exact Q.
Qed.
