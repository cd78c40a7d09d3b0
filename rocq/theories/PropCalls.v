(** * PropCalls: property C88, with instances. *)

From Verif Require Import Base Text U12 Location Token Scanner Parser Directive Opcode Instruction DataRange
  Assembler IHex Main Calls SpecUtf8 SpecLex SpecGrammar SpecOpcode SpecRefusal SpecLayout SpecHex SpecTool SpecCalls
  BaseFacts UtfProofs OutputProofs MainProofs CallsProofs PropText PropOutput PropDamage.
Open Scope string_scope.
Open Scope list_scope.
Open Scope N_scope.

(** ** C88: the calls of the operating system.

    [process_after e zero answers] is the state of the process when the operating system has answered its calls
    by [answers], in this order.  Reads and writes may be of any size and may be interrupted. *)

(** A process that has ended has done what [main] does with the bytes that were read, for some errors of opening,
    reading, creating and writing: the properties of [main] are properties of the process. *)
Theorem C88_main : forall e zero answers out status file,
  process_after e zero answers = Some (Over out status file) ->
  exists opening reading creating writing, forall f,
    (forall input output, asks e input output -> f input = Some (bytes_read answers)) ->
    main (with_errors e opening reading creating writing) f = Done (mk_outcome out status (with_file f file)).
Proof. intros e zero answers out status file H. exact (proj1 (process_sound _ _ _ _ H)). Qed.
Print Assumptions C88_main.

(** If no call failed, there is no error: how the bytes were divided and what was interrupted does not matter. *)
Theorem C88_pieces : forall e zero answers out status file f,
  process_after e zero answers = Some (Over out status file) -> untroubled answers ->
  (forall input output, asks e input output -> f input = Some (bytes_read answers)) ->
  main (with_errors e None None None None) f = Done (mk_outcome out status (with_file f file)).
Proof. intros e zero answers out status file f H U F. exact (proj1 (proj2 (process_sound _ _ _ _ H)) U f F). Qed.
Print Assumptions C88_pieces.

Theorem C88_same : forall e zero zero' answers answers' out out' status status' file file',
  process_after e zero answers = Some (Over out status file) -> untroubled answers ->
  process_after e zero' answers' = Some (Over out' status' file') -> untroubled answers' ->
  bytes_read answers = bytes_read answers' ->
  out = out' /\ status = status' /\
  forall f path, (forall input output, asks e input output -> f input = Some (bytes_read answers)) ->
    with_file f file path = with_file f file' path.
Proof.
  intros e zero zero' l l' out out' status status' file file' H U H' U' B.
  assert (M : forall f, (forall input output, asks e input output -> f input = Some (bytes_read l)) ->
     mk_outcome out status (with_file f file) = mk_outcome out' status' (with_file f file')).
  { intros f F. pose proof (C88_pieces e zero l out status file f H U F) as M.
    pose proof (C88_pieces e zero' l' out' status' file' f H' U') as M'. rewrite <- B in M'. specialize (M' F).
    rewrite M in M'. injection M' as -> -> X. rewrite X. reflexivity. }
  pose proof (M (fun _ => Some (bytes_read l)) (fun _ _ _ => eq_refl)) as M0. injection M0 as -> -> _.
  split; [reflexivity|]. split; [reflexivity|]. intros f path F. specialize (M f F). injection M as X. rewrite X. reflexivity.
Qed.
Print Assumptions C88_same.

(** The process can be ended at any moment.  It has made no file, or the output file holds a beginning of the HEX
    text of the program that was read, all of it exactly if the process has ended with status 0; until then no
    reader of HEX files takes it for a program. *)
Theorem C88_anytime : forall e zero answers st path bytes,
  process_after e zero answers = Some st -> made_so_far st = Some (path, bytes) ->
  exists input s rs text rest, asks e input path /\ path <> u "-" /\ encoding s (bytes_read answers) /\
    compiles input s rs /\ ihex_representation rs = Done text /\ read_hex text = Some (memory rs) /\
    text = bytes ++ rest /\ (rest <> [] -> read_hex bytes = None) /\
    (rest = [] <-> exists out, st = Over out 0 (Some (path, bytes))).
Proof.
  intros e zero answers st path bytes H M. pose proof (process_sound _ _ _ _ H) as S.
  assert (X : exists rest, to_write e answers path (bytes ++ rest) /\ (rest = [] <-> exists out, st = Over out 0 (Some (path, bytes)))).
  { destruct st as [i o|i o got|o result|o written rest|out status file|]; try discriminate M; cbn [made_so_far] in M.
    - injection M as -> ->. destruct S as (W & Nr & _). exists rest. split; [exact W|].
      split; [intros Z; contradiction (Nr Z) | intros (out & Z); discriminate Z].
    - subst file. destruct S as (_ & _ & rest & W & Q). exists rest. split; [exact W|]. rewrite Q.
      split; [intros ->; exists out; reflexivity | intros (out' & Z); injection Z as _ ->; reflexivity]. }
  destruct X as (rest & (input & s & text & A & D & U & T & E) & Q).
  assert (En : encoding s (bytes_read answers)) by (apply decode_encoding; exact U).
  assert (Sc : Forall scalar s) by (apply encoding_utf8 in En; tauto).
  destruct (assemble_text_spec e input s Sc) as [(t & rs & T' & C & I)|(m & T' & _)]; rewrite T in T'; [|discriminate T'].
  injection T' as <-.
  destruct (main_writes (with_errors e None None None None) (fun _ => Some (bytes_read answers)) input path s rs) as (t & I' & R & W).
  { destruct A as (m & A). exists m. exact A. }
  { split; [reflexivity|]. split; [reflexivity|]. exists (bytes_read answers). split; [reflexivity | exact En]. }
  { exact C. }
  rewrite I in I'. injection I' as <-.
  assert (Tx : utf8 text = text).
  { rewrite (run_written e answers path (utf8 text) None None) in W.
    - apply str_eqb_neq in D. rewrite D in W. cbn [e_create_error e_write_error with_errors] in W. injection W as W.
      pose proof (f_equal (fun g => g path) W) as G. unfold fs_set in G. rewrite str_eqb_refl in G. injection G as ->. reflexivity.
    - exists input, s, text. auto.
    - intros i o _. reflexivity. }
  rewrite Tx in E. exists input, s, rs, text, rest. split; [exact A|]. split; [exact D|]. split; [exact En|]. split; [exact C|].
  split; [exact I|]. split; [exact R|]. split; [symmetry; exact E|]. split; [|exact Q].
  intros Nr. exact (C83_cut e input s text bytes rest Sc T (eq_sym E) Nr).
Qed.
Print Assumptions C88_anytime.

(** The process never panics, and whatever has happened, it ends if no more calls fail. *)
Lemma writing_ends : forall e zero o written rest, rest <> [] ->
  answered e zero (Writing o written rest) (Took (length rest)) = Some (Over [] 0 (Some (o, written ++ rest))).
Proof.
  intros e zero o written rest Nr. unfold answered. destruct (length rest) as [|n] eqn:L; [destruct rest; [contradiction | discriminate L]|].
  rewrite Nat.leb_refl. rewrite <- L, firstn_all, skipn_all. reflexivity.
Qed.

Definition ends_in (e : env) (zero : str) (n : nat) (st : state) : Prop :=
  exists more out status file, untroubled more /\ (length more <= n)%nat /\ Calls.after e zero st more = Some (Over out status file).

Lemma ends_more : forall e zero n n' st a st', match a with Failed _ => False | Took n => n <> O | _ => True end ->
  answered e zero st a = Some st' -> ends_in e zero n st' -> (n < n')%nat -> ends_in e zero n' st.
Proof.
  intros e zero n n' st a st' A H (more & out & status & file & U & L & E) N. exists (a :: more), out, status, file.
  split; [intros x [<- | X]; [exact A | exact (U x X)]|]. split; [cbn [length]; lia|]. cbn [Calls.after]. rewrite H. exact E.
Qed.

Lemma over_ends : forall e zero n out status file, ends_in e zero n (Over out status file).
Proof. intros. exists [], out, status, file. split; [intros a []|]. split; [cbn; lia | reflexivity]. Qed.

Lemma creating_ends : forall e zero o result, ends_in e zero 2 (Creating o result).
Proof.
  intros. apply (ends_more e zero 1 2 _ Opened (begin_writing o [] result)); [exact I | reflexivity | | lia].
  destruct result as [|b r]; [apply over_ends|]. unfold begin_writing.
  eapply (ends_more e zero 0 1 _ (Took (length (b :: r)))); [cbn [length]; discriminate | apply writing_ends; discriminate | apply over_ends | lia].
Qed.

Theorem C88_ends : forall e zero answers st, process_after e zero answers = Some st ->
  exists more out status file, untroubled more /\ (length more <= 4)%nat /\
    process_after e zero (answers ++ more) = Some (Over out status file).
Proof.
  intros e zero answers st H.
  assert (P : forall more, process_after e zero (answers ++ more) = Calls.after e zero st more).
  { intros more. unfold process_after in *. revert H. generalize (begin_main e). induction answers as [|a l IH]; intros s H.
    - injection H as ->. reflexivity.
    - cbn [app Calls.after] in *. destruct (answered e zero s a); [exact (IH _ H) | discriminate H]. }
  pose proof (process_sound _ _ _ _ H) as S.
  cut (ends_in e zero 4 st).
  { intros (more & out & status & file & U & L & E). exists more, out, status, file. rewrite P. auto. }
  assert (R : forall i o l, asks e i o -> untroubled l -> ends_in e zero 3 (Reading i o (bytes_read l))).
  { intros i o l A U. eapply (ends_more e zero 2 3 _ (Got [])); [exact I | reflexivity | | lia].
    pose proof (sound_go_on e l i o A U) as G. destruct (go_on e i o (bytes_read l)) eqn:E.
    - unfold go_on, begin_output, quit in E. destruct (utf8_decode _); [|discriminate E].
      destruct (assemble_text _ _ _) as [[|]|]; [destruct (str_eqb _ _); discriminate E | discriminate E | discriminate E].
    - unfold go_on, begin_output, quit in E. destruct (utf8_decode _); [|discriminate E].
      destruct (assemble_text _ _ _) as [[|]|]; [destruct (str_eqb _ _); discriminate E | discriminate E | discriminate E].
    - apply creating_ends.
    - unfold go_on, begin_output, quit in E. destruct (utf8_decode _); [|discriminate E].
      destruct (assemble_text _ _ _) as [[|]|]; [destruct (str_eqb _ _); discriminate E | discriminate E | discriminate E].
    - apply over_ends.
    - contradiction G. }
  assert (W : forall n n', (n <= n')%nat -> ends_in e zero n st -> ends_in e zero n' st).
  { intros n n' N (more & out & status & file & U & L & E). exists more, out, status, file. split; [exact U|]. split; [lia | exact E]. }
  destruct st as [i o|i o got|o result|o written rest|out status file|].
  - destruct S as (A & B & U). apply (ends_more e zero 3 4 _ Opened (Reading i o [])); [exact I | reflexivity | | lia].
    apply (R i o [] A). intros a [].
  - destruct S as (A & -> & U). apply (W 3%nat); [lia|]. apply R; assumption.
  - apply (W 2%nat); [lia|]. apply creating_ends.
  - destruct S as (_ & Nr & _). eapply (ends_more e zero 0 4 _ (Took (length rest))); [| apply writing_ends; exact Nr | apply over_ends | lia].
    cbn. destruct rest; [contradiction | discriminate].
  - apply over_ends.
  - contradiction S.
Qed.
Print Assumptions C88_ends.

(** No failing call goes unnoticed: the run ends with status 1 and a message that ends in the reason. *)
Theorem C88_failed : forall e zero answers a reason st,
  process_after e zero (answers ++ [a]) = Some st -> a = Failed reason \/ (a = Took 0 /\ reason = zero) ->
  exists message file, st = Over (utf8 (message ++ reason ++ [10])) 1 file /\ message <> [] /\
    forall path bytes, file = Some (path, bytes) -> read_hex bytes = None.
Proof.
  intros e zero answers a reason st H A. pose proof H as H0. unfold process_after in H. rewrite after_snoc in H.
  destruct (Calls.after e zero (begin_main e) answers) as [s|] eqn:E; [|discriminate H].
  assert (X : exists x y file, st = Over (utf8 (program_error e (u "Unable to " ++ x ++ y ++ u "'") ++ program_error e reason)) 1 file).
  { destruct s as [i o|i o got|o result|o written rest|out status file|];
      (destruct A as [-> | [-> ->]]; cbn [answered] in H; [|try discriminate H]); try discriminate H; injection H as <-.
    - exists (u "open input file '"), i, None. reflexivity.
    - exists (u "read contents of input file '"), i, None. reflexivity.
    - exists (u "create output file '"), o, None. reflexivity.
    - exists (u "write result to output file '"), o, (Some (o, written)). reflexivity.
    - exists (u "write result to output file '"), o, (Some (o, written)). reflexivity. }
  destruct X as (x & y & file & ->). unfold program_error.
  exists ((e_program e ++ u ": error: " ++ (u "Unable to " ++ x ++ y ++ u "'") ++ [10]) ++ e_program e ++ u ": error: "), file.
  split; [rewrite <- !app_assoc; reflexivity|]. split.
  - intros Z. apply app_eq_nil in Z. destruct Z as [Z _]. apply app_eq_nil in Z. destruct Z as [_ Z].
    apply app_eq_nil in Z. destruct Z as [Z _]. discriminate Z.
  - intros path bytes ->. destruct (C88_anytime _ _ _ _ path bytes H0 eq_refl) as (i & s1 & rs & text & rest & _ & _ & _ & _ & _ & _ & _ & N & Q).
    apply N. intros Z. apply Q in Z. destruct Z as (out & Z). discriminate Z.
Qed.
Print Assumptions C88_failed.

(** What was in the output file before is lost when the new file is made, not when it is complete: for every program
    there is a moment when the process can be ended and leaves neither. *)
Theorem C88_lost : forall e zero input output s rs, asks e input output -> output <> u "-" ->
  Forall scalar s -> compiles input s rs ->
  exists answers st, process_after e zero answers = Some st /\ bytes_read answers = utf8 s /\ untroubled answers /\
    made_so_far st = Some (output, []).
Proof.
  intros e zero input output s rs A D Sc C.
  destruct (assemble_text_spec e input s Sc) as [(text & rs' & T & C' & I')|(m & T & _ & No)]; [|contradiction (No rs C)].
  assert (U : utf8_decode (utf8 s) = Some s) by (apply decode_encoding; apply encoding_utf8; auto).
  assert (Nt : utf8 text <> []).
  { apply utf8_nonempty. intros ->. destruct (C38_written e input s [] Sc T) as (image & R & _). discriminate R. }
  assert (B : begin_main e = Opening input output).
  { destruct A as (m & E & H & V & F & O). unfold begin_main. rewrite E, H, V, F. cbv zeta. rewrite <- O. reflexivity. }
  assert (G : forall r, r = utf8 s -> Calls.after e zero (Reading input output r) [Got []; Opened] = Some (Writing output [] (utf8 text))).
  { intros r ->. cbn [Calls.after answered]. unfold go_on. rewrite U, T. unfold begin_output. apply str_eqb_neq in D. rewrite D.
    cbn [Calls.after answered]. unfold begin_writing. destruct (utf8 text); [contradiction | reflexivity]. }
  exists (Opened :: match utf8 s with [] => [] | b => [Got b] end ++ [Got []; Opened]), (Writing output [] (utf8 text)).
  unfold process_after. rewrite B. destruct (utf8 s) as [|b r] eqn:E.
  - split; [cbn [app]; exact (G [] eq_refl)|]. split; [reflexivity|]. split; [|reflexivity].
    intros a [<- | [<- | [<- | []]]]; exact I.
  - split; [cbn [app]; exact (G (b :: r) eq_refl)|]. split; [cbn; rewrite app_nil_r; reflexivity|]. split; [|reflexivity].
    intros a [<- | [<- | [<- | [<- | []]]]]; exact I.
Qed.
Print Assumptions C88_lost.

(** A run in pieces, with interruptions, and the same run on the way. *)
Definition in_pieces : list answer :=
  [Interrupted; Opened; Got (u ".db $A"); Interrupted; Got (u "B"); Got [10]; Got []; Opened; Took 1; Interrupted; Took 12].

Example C88_instance :
  let text := lines [":01000000AB54"; ":00000001FF"] in
  process_after sample_env [] (in_pieces ++ [Took 13]) = Some (Over [] 0 (Some (u "out.hex", text))) /\
  untroubled (in_pieces ++ [Took 13]) /\ bytes_read in_pieces = lines [".db $AB"] /\
  process_after sample_env [] in_pieces = Some (Writing (u "out.hex") (firstn 13 text) (skipn 13 text)) /\
  process_after sample_env (u "zero") (in_pieces ++ [Took 0]) =
    Some (Over (utf8 (lines ["c8s: error: Unable to write result to output file 'out.hex'"; "c8s: error: zero"])) 1
               (Some (u "out.hex", firstn 13 text))) /\
  process_after sample_env [] [Opened; Got (u ".d"); Failed (u "Input/output error")] =
    Some (Over (utf8 (lines ["c8s: error: Unable to read contents of input file 'in.s'"; "c8s: error: Input/output error"])) 1 None) /\
  process_after sample_env [] [Opened; Opened] = None.
Proof.
  cbv zeta. split; [vm_compute; reflexivity|].
  split; [intros a H; cbn in H; decompose [or] H; subst; try exact I; try discriminate; contradiction|].
  split; [vm_compute; reflexivity|]. split; [vm_compute; reflexivity|]. split; [vm_compute; reflexivity|].
  split; vm_compute; reflexivity.
Qed.

(** The same bytes in one piece: another way to the same end. *)
Definition at_once : list answer := [Opened; Got (lines [".db $AB"]); Got []; Opened; Took 26].
Example C88_instance_same :
  process_after sample_env (u "zero") at_once = Some (Over [] 0 (Some (u "out.hex", lines [":01000000AB54"; ":00000001FF"]))) /\
  untroubled at_once /\ bytes_read at_once = bytes_read (in_pieces ++ [Took 13]).
Proof.
  split; [vm_compute; reflexivity|].
  split; [intros a H; cbn in H; decompose [or] H; subst; try exact I; try discriminate; contradiction|vm_compute; reflexivity].
Qed.
