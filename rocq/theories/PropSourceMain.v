(** * C112: the text of main.rs, executed: the whole tool.

    As C107; SrcText.v has the text.  What main.rs asks for outside the files (its command
    line, the getopts crate, files and the standard output) is answered by a [host]
    (SrcTool.v): any program name, arguments, errors, and any [parse] and [usage] of
    getopts. *)

From Coq Require Import String List NArith Bool Lia.
From Verif Require Import Base BaseFacts Text Location Token Scanner Parser DataRange Assembler IHex Main MainIO
  SpecUtf8 SpecLex SpecGrammar SpecLayout SpecHex SpecTool SpecArgs Getopts ArgsProofs PropArgs LexTheorems EmitProofs UtfProofs ParseProofs PipelineProofs MainProofs IoProofs PropOutput PropIo
  SrcText SrcLex SrcParse SrcRun SrcCode SrcEnc SrcFacts SrcTool SrcMainProofs.
Import ListNotations.
Open Scope string_scope.
Open Scope list_scope.
Open Scope N_scope.

(** A host's tool, run in a world, ends as the model of main.rs does, and in no other way *)
Theorem C112_tool : forall h w r,
  runs h (Call "main" [] []) w r <-> r = main_io (env_of h) (h_full h) w.
Proof.
  intros h w r. split; [|intros ->; apply src_main].
  intro H. exact (runs_once _ _ _ _ _ H (src_main h w)).
Qed.
Print Assumptions C112_tool.

(** What is left behind when the process is over: what is still held back is written as
    far as possible, and a panic has the status 101 *)
Definition left_behind (r : MainIO.step unit * world) : Main.outcome :=
  let w := snd (deliver (w_held (snd r)) (snd r)) in
  mk_outcome (w_out w) (match fst r with MainIO.Next _ => 0 | Exited status => status | Panicked => 101 end) (w_fs w).

(** The command line asks for [input] to be assembled to [output] *)
Definition wants (h : host) (input output : str) : Prop :=
  exists m, h_parse h c8s_declared (h_args h) = Ok m /\ m_help m = false /\ m_version m = false /\
    m_free m = [input] /\ output = match m_output m with Some p => p | None => u "a.hex" end.

Lemma left_process h room f :
  runs h (Call "main" [] []) (mk_world room [] [] f) (main_io (env_of h) (h_full h) (mk_world room [] [] f)) /\
  left_behind (main_io (env_of h) (h_full h) (mk_world room [] [] f)) = process (main_io (env_of h) (h_full h)) room f.
Proof.
  split; [apply src_main|]. unfold left_behind, process.
  destruct (main_io _ _ _) as [s w]. reflexivity.
Qed.
Lemma wants_asks h input output : wants h input output -> MainProofs.asks (env_of h) input output.
Proof. exact (fun H => H). Qed.
Lemma asks_one e i o i' o' : MainProofs.asks e i o -> MainProofs.asks e i' o' -> i = i' /\ o = o'.
Proof.
  intros (m & E & _ & _ & F & O) (m' & E' & _ & _ & F' & O'). rewrite E in E'. injection E' as <-.
  rewrite F in F'. injection F' as <-. subst. auto.
Qed.

(** A source text of a file that is a program (SpecTool.v): the process ends with status
    0 and no output, and the output file is one in which a reader of HEX files finds the
    program; no other file has changed *)
Theorem C112_file : forall h f room input output bytes s ranges, wants h input output -> output <> u "-" ->
  h_open_error h = None -> h_read_error h = None -> h_create_error h = None -> h_write_error h = None ->
  f input = Some bytes -> encoding s bytes -> compiles input s ranges ->
  exists r text, runs h (Call "main" [] []) (mk_world room [] [] f) r /\
    o_exit (left_behind r) = 0 /\ o_stdout (left_behind r) = [] /\
    o_fs (left_behind r) output = Some text /\ read_hex text = Some (memory ranges) /\
    forall p, p <> output -> o_fs (left_behind r) p = f p.
Proof.
  intros h f room input output bytes s rs W D Ho Hr Hc Hw Hf He C.
  destruct (left_process h room f) as (R & L). exists (main_io (env_of h) (h_full h) (mk_world room [] [] f)).
  rewrite L. apply wants_asks in W.
  destruct (C42_file (env_of h) f input output s rs W) as (text & _ & T & M); auto.
  { split; [exact Ho|]. split; [exact Hr|]. exists bytes. auto. }
  assert (N : device_decides (env_of h)).
  { intros i A. exact Hw. }
  destruct (C71_enough (env_of h) (h_full h) f _ room N M ltac:(cbn [o_stdout length]; lia)) as (S & X & F).
  exists text. split; [exact R|]. rewrite X, S. split; [reflexivity|]. split; [reflexivity|].
  split; [rewrite F; cbn [o_fs]; unfold fs_set; rewrite str_eqb_refl; reflexivity|]. split; [exact T|].
  intros p Hp. rewrite F. cbn [o_fs]. unfold fs_set. apply str_eqb_neq in Hp. rewrite Hp. reflexivity.
Qed.
Print Assumptions C112_file.

(** A file that cannot be read, or a text that is not a program: if the standard output
    takes enough, the process says something, ends with status 1 and leaves all files
    alone *)
Theorem C112_refuses : forall h f input output, wants h input output -> h_write_error h = None ->
  (forall bytes s ranges, h_open_error h = None -> h_read_error h = None ->
     f input = Some bytes -> encoding s bytes -> ~ compiles input s ranges) ->
  exists enough, forall room, (enough <= room)%nat ->
    exists r, runs h (Call "main" [] []) (mk_world room [] [] f) r /\
      o_exit (left_behind r) = 1 /\ o_stdout (left_behind r) <> [] /\
      forall p, o_fs (left_behind r) p = f p.
Proof.
  intros h f input output W Hw N. apply wants_asks in W.
  destruct (C41_refuses (env_of h) f input output W) as (out & M & Ne).
  { intros s rs (Ho & Hr & bytes & Hf & He). exact (N bytes s rs Ho Hr Hf He). }
  exists (length out). intros room Le. destruct (left_process h room f) as (R & L).
  eexists. split; [exact R|]. rewrite L.
  destruct (C71_enough (env_of h) (h_full h) f _ room (fun _ _ => Hw) M Le) as (S & X & F).
  rewrite X, S. split; [reflexivity|]. split; [exact Ne|]. exact F.
Qed.
Print Assumptions C112_refuses.

(** Status 0 after a request to assemble: the file was read, is a program, and its text
    has been delivered, however little the standard output takes *)
Theorem C112_success : forall h f room r input output, wants h input output -> h_write_error h = None ->
  runs h (Call "main" [] []) (mk_world room [] [] f) r -> o_exit (left_behind r) = 0 ->
  exists bytes s ranges text, f input = Some bytes /\ encoding s bytes /\ compiles input s ranges /\
    read_hex text = Some (memory ranges) /\
    if str_eqb output (u "-") then o_stdout (left_behind r) = text
    else o_fs (left_behind r) output = Some text.
Proof.
  intros h f room r input output W Hw R X. apply C112_tool in R. subst r.
  destruct (left_process h room f) as (_ & L). rewrite L in *. apply wants_asks in W.
  destruct (C71_success (env_of h) (h_full h) f input output room (fun _ _ => Hw) W X) as (s & rs & text & Rd & C & E & T).
  destruct (Rd) as (_ & _ & bytes & Hf & He).
  exists bytes, s, rs, text. split; [exact Hf|]. split; [exact He|]. split; [exact C|].
  destruct (main_writes (env_of h) f input output s rs W Rd C) as (text' & E' & Rt & _).
  rewrite E in E'. injection E' as <-. split; [exact Rt|].
  destruct (str_eqb output (u "-")); [exact (proj1 T)|exact (proj1 (proj2 T))].
Qed.
Print Assumptions C112_success.

(** ** The command line *)

(** getopts as documented (Getopts.v), of the options main.rs declares; the texts of its
    failures are not known *)
Definition opt_of (d : declared) : Getopts.opt :=
  match snd d with [c] :: long :: _ => mk_opt c long (fst d) | _ => mk_opt 0 [] (fst d) end.
Definition documented (r : rules) (text : failure -> str) (ds : list declared) (args : list str) : result str matches :=
  let opts := map opt_of ds in
  match getopts r opts args with
  | Done (Ok (vals, free)) =>
      Ok (mk_matches (opt_present opts vals (c_ "h")) (opt_present opts vals (c_ "v")) (opt_str opts vals (c_ "o")) free)
  | Done (Err e) => Err (text e)
  | Crash _ => Err []
  end.

(** A host with this getopts: what its tool is asked for is what SpecArgs.v reads in the
    command line *)
Theorem C112_options : forall h r text m, h_parse h = documented r text ->
  (h_parse h c8s_declared (h_args h) = Ok m <-> asked (r_dashed_value r) (r_dashed_letter r) (h_args h) m).
Proof.
  intros h r text m ->. rewrite <- C67_accepts. unfold documented, command_line.
  change (map opt_of c8s_declared) with c8s_options. cbv zeta.
  destruct (getopts r c8s_options (h_args h)) as [[[vals free]|e]|why]; cbn [try_ bind]; split; intro H;
    try discriminate H; injection H as <-; reflexivity.
Qed.
Print Assumptions C112_options.

(** So the tool called with one name, or with '-o' and two names, writes the file:
    [ordinary] names do not look like options *)
Theorem C112_command : forall h r text f room input output bytes s ranges, h_parse h = documented r text ->
  ordinary input -> ordinary output -> output <> u "-" ->
  (h_args h = [u "-o"; output; input] \/ h_args h = [input; u "-o"; output] \/ h_args h = [u "--output"; output; input] \/
   h_args h = [input] /\ output = u "a.hex") ->
  h_open_error h = None -> h_read_error h = None -> h_create_error h = None -> h_write_error h = None ->
  f input = Some bytes -> encoding s bytes -> compiles input s ranges ->
  exists res hex, runs h (Call "main" [] []) (mk_world room [] [] f) res /\
    o_exit (left_behind res) = 0 /\ o_stdout (left_behind res) = [] /\
    o_fs (left_behind res) output = Some hex /\ read_hex hex = Some (memory ranges) /\
    forall p, p <> output -> o_fs (left_behind res) p = f p.
Proof.
  intros h r text f room input output bytes s rs Hp Oi Oo D A Ho Hr Hc Hw Hf He C.
  apply (C112_file h f room input output bytes s rs); auto.
  assert (S : started r text (h_args h) (env_of h)).
  { unfold started. cbn [e_options env_of]. rewrite Hp. unfold documented, command_line.
    change (map opt_of c8s_declared) with c8s_options. cbv zeta.
    destruct (command_line_total r (h_args h)) as (x & E). unfold command_line in E.
    destruct (getopts r c8s_options (h_args h)) as [[[vals free]|e]|why]; cbn [try_ bind] in *;
      [reflexivity|reflexivity|discriminate E]. }
  change (MainProofs.asks (env_of h) input output). destruct A as [A|[A|[A|[A ->]]]].
  - apply (C67_output r text _ input output (h_args h)); auto.
  - apply (C67_output r text _ input output (h_args h)); auto.
  - apply (C67_output r text _ input output (h_args h)); auto 6.
  - rewrite A in S. exact (C67_default r text _ input Oi S).
Qed.
Print Assumptions C112_command.

(** ** Cases *)

(** A run, computed: [n] times [m] steps or an answer *)
Fixpoint drive (p : program) (h : host) (m n : nat) (s : state) (w : world) : option (MainIO.step unit * world) :=
  match n with
  | O => None
  | S n' =>
      match steps p m s with
      | Back (VTup []) _ [] => Some (MainIO.Next tt, w)
      | Panic _ => Some (Panicked, w)
      | Ask f vs k =>
          match perform h f vs w with
          | Some (MainIO.Next (v, finals), w1) => drive p h m n' (Back v finals k) w1
          | Some (Exited status, w1) => Some (Exited status, w1)
          | Some (Panicked, w1) => Some (Panicked, w1)
          | None => None
          end
      | s' => drive p h m n' s' w
      end
  end.
Lemma drive_runs h m n : forall s w r, drive c8s h m n s w = Some r -> runs h s w r.
Proof.
  induction n as [|n IH]; intros s w r H; [discriminate|]. cbn [drive] in H.
  assert (G : reaches c8s s (steps c8s m s)) by (exists m; reflexivity).
  remember (steps c8s m s) as t.
  assert (Z : drive c8s h m n t w = Some r -> runs h s w r).
  { intro D. eapply runs_reaches; [exact G|]. exact (IH _ _ _ D). }
  destruct t; auto.
  - destruct v; auto. destruct l; auto. destruct k; auto. injection H as <-. eapply runs_end. exact G.
  - destruct (perform h f args w) as [[[[v fin]|x|] w1]|] eqn:P; [|injection H as <-|injection H as <-|discriminate].
    + eapply runs_ask; [exact G|exact P|]. exact (IH _ _ _ H).
    + eapply runs_exit; [exact G|exact P].
    + eapply runs_died; [exact G|exact P].
  - injection H as <-. eapply runs_panic. exact G.
Qed.

Definition file_text : str := u ".org $200" ++ [10] ++ u "x: ld v1, $12 ; x" ++ [10] ++ u "jp x" ++ [10].
Definition failed_with (e : failure) : str :=
  match e with
  | ArgumentMissing (ShortName c) => u "Argument to option '" ++ [c] ++ u "' missing."
  | _ => u "Failure"
  end.
Definition some_host (args : list str) : host :=
  mk_host (u "c8s") args (documented (mk_rules true true) failed_with) (fun _ s => s ++ [10])
    None None None None (u "No such file or directory") (u "stream did not contain valid UTF-8") (u "No space left on device").
Definition some_files (text : list byte) : fs := fs_set (fun _ => None) (u "a.s") text.
Definition ends (p : program) (args : list str) (text : list byte) (room : nat) (path : str) : option (str * N * option (list byte)) :=
  match drive p (some_host args) 500 200 (Call "main" [] []) (mk_world room [] [] (some_files text)) with
  | Some r => Some (o_stdout (left_behind r), o_exit (left_behind r), o_fs (left_behind r) path)
  | None => None
  end.

Definition hex_lines : str := u ":040200006112120075" ++ [10] ++ u ":00000001FF" ++ [10].
Definition message : str := u "a.s:1:8: error: Unexpected token found: comma, expecting instruction field." ++ [10].
(** The whole tool, by steps: to a file, to the standard output, to 'a.hex'; a wrong
    program; no file; options; a standard output which is full *)
Example C112_instance :
  ends c8s [u "-o"; u "b.hex"; u "a.s"] file_text 0 (u "b.hex") = Some ([], 0, Some hex_lines) /\
  ends c8s [u "a.s"; u "-o"; u "-"] file_text 100 (u "a.hex") = Some (hex_lines, 0, None) /\
  ends c8s [u "a.s"] file_text 0 (u "a.hex") = Some ([], 0, Some hex_lines).
Proof. repeat split; vm_compute; reflexivity. Qed.
Example C112_instance_refused :
  ends c8s [u "a.s"] (u "ld v1, ,") 100 (u "a.hex") = Some (message, 1, None) /\
  ends c8s [u "b.s"] [] 100 (u "a.hex")
  = Some (u "c8s: error: Unable to open input file 'b.s'" ++ [10] ++ u "c8s: error: No such file or directory" ++ [10], 1, None) /\
  ends c8s [u "a.s"; u "-o"] file_text 100 (u "a.hex")
  = Some (u "c8s: error: Argument to option 'o' missing." ++ [10], 1, None) /\
  ends c8s [u "a.s"; u "b.s"] file_text 100 (u "a.hex")
  = Some (u "USAGE: c8s [options] <input>" ++ [10], 1, None) /\
  ends c8s [u "a.s"; u "-v"] file_text 100 (u "a.hex") = Some (u "c8s version 0.1.3" ++ [10], 0, None) /\
  ends c8s [u "a.s"] (u "ld v1, ,") 7 (u "a.hex") = Some (u "a.s:1:8", 101, None) /\
  ends c8s [u "a.s"; u "-o"; u "-"] file_text 7 (u "a.hex") = Some (u ":040200", 101, None).
Proof. repeat split; vm_compute; reflexivity. Qed.

(** The hypotheses of [C112_file] and [C112_refuses] *)
Example C112_instance_wants :
  ordinary (u "a.s") /\ ordinary (u "b.hex") /\
  wants (some_host [u "-o"; u "b.hex"; u "a.s"]) (u "a.s") (u "b.hex") /\ u "b.hex" <> u "-" /\
  some_files file_text (u "a.s") = Some file_text /\ encoding file_text file_text /\
  compiles (u "a.s") file_text [mk_range 0x200 [0x61; 0x12; 0x12; 0x00]].
Proof.
  assert (F : Forall scalar file_text) by (repeat constructor; unfold scalar; lia).
  split; [right; discriminate|]. split; [right; discriminate|].
  split; [eexists; split; [reflexivity|repeat split; reflexivity]|]. split; [discriminate|]. split; [reflexivity|].
  split.
  { replace file_text with (utf8 file_text) at 2 by (vm_compute; reflexivity). apply UtfProofs.encoding_utf8. auto. }
  destruct (assemble_text_spec (env_of (some_host [])) (u "a.s") file_text F) as [(t & rs & E & C & H)|(msg & E & _)].
  - assert (R : compiles (u "a.s") file_text rs) by exact C. clear E H.
    destruct C as (ts & p & L & P & W & O & N).
    apply LexTheorems.scan_lexes in L. apply ParseProofs.parse_program in P.
    pose proof (PipelineProofs.parsed_node_ok _ _ _ _ L P) as Fo.
    assert (A : assemble p = Done (Ok rs)) by (apply EmitProofs.assemble_ok; auto).
    vm_compute in L. injection L as <-. vm_compute in P. injection P as <-. vm_compute in A. injection A as <-. exact R.
  - vm_compute in E. discriminate.
Qed.

(** Another text is another program: without the [process::exit] of main.rs:79 the tool
    goes on with overlapping ranges, and panics *)
Definition other_main : list string :=
  (firstn 78 main_rs ++ skipn 79 main_rs)%list.
Definition other_main_files : list (string * list string) :=
  map (fun f => if String.eqb (fst f) "main" then (fst f, other_main) else f) files.
Definition other_tool : program := Eval vm_compute in match read_files other_main_files with Some p => p | None => c8s end.
Definition overlapping_text : str := u ".org 2" ++ [10] ++ u "ret" ++ [10] ++ u ".org 3" ++ [10] ++ u "ret" ++ [10].
Example C112_instance_other :
  nth 78 main_rs "" = "    process::exit(1);" /\
  read_files other_main_files = Some other_tool /\
  (exists out, ends other_tool [u "a.s"] overlapping_text 1000 (u "a.hex") = Some (out, 101, None)) /\
  (exists out, ends c8s [u "a.s"] overlapping_text 1000 (u "a.hex") = Some (out, 1, None)).
Proof.
  split; [vm_compute; reflexivity|]. split; [vm_compute; reflexivity|].
  split; eexists; vm_compute; reflexivity.
Qed.
