(** * PropBytes: C104, texts as bytes. *)

From Verif Require Import Base BaseFacts Text U12 Location Token Scanner ScannerB Parser Directive Opcode Instruction DataRange Assembler AssemblerB
  SpecLex LexTheorems SpecUtf8 UtfProofs SpecBytes BytesProofs ByteToolProofs Main MessageB MessageBProofs MainProofs PropLex PropOutput.
Open Scope N_scope.

(** ** C104: it does not matter that the model takes a text as a list of characters. *)

(** Scanning the bytes of a text gives the tokens of the text, with their texts as bytes; it does not panic. *)
Theorem C104_scan : forall file s bytes, encoding s bytes ->
  exists ts, lexes file [] s ts /\ scan_b file bytes = Done (map token_bytes ts).
Proof.
  intros file s bytes H. apply encoding_utf8 in H. destruct H as [F ->]. destruct (scan_total file s) as (ts & E).
  exists ts. split; [apply scan_lexes; exact E | apply scan_bytes; assumption].
Qed.
Print Assumptions C104_scan.

(** Cutting bytes out of a text panics unless the cuts are between characters. *)
Theorem C104_slice : forall s bytes a b mb, encoding s bytes ->
  slice_b bytes a b = Done mb <->
  exists x m y xb, s = x ++ m ++ y /\ encoding x xb /\ encoding m mb /\ a = N.of_nat (length xb) /\ b = a + N.of_nat (length mb).
Proof.
  intros s bytes a b mb H. apply encoding_utf8 in H. destruct H as [F ->]. rewrite slice_utf8 by exact F. split.
  - destruct (slice s a b) as [m|w] eqn:E; cbn [run_map]; [|discriminate]. intros [= <-].
    apply (C01_slice s a b m F) in E. destruct E as (x & y & xb & mb & Es & Ex & Em & A & B).
    pose proof Em as Eu. apply encoding_utf8 in Eu. destruct Eu as [_ Eu]. rewrite <- Eu.
    exists x, m, y, xb. tauto.
  - intros (x & m & y & xb & Es & Ex & Em & A & B).
    assert (E : slice s a b = Done m) by (apply (C01_slice s a b m F); exists x, y, xb, mb; tauto).
    rewrite E. cbn [run_map]. apply encoding_utf8 in Em. destruct Em as [_ ->]. reflexivity.
Qed.
Print Assumptions C104_slice.

(** Names, and the numerals in messages, are ASCII: the parser and the assembler compare the same lists, bytes or characters. *)
Theorem C104_names : forall file s bytes ts, encoding s bytes -> scan_b file bytes = Done ts ->
  forall t l, In (Identifier t l) ts \/ In (ErrorToken (DecimalLiteralOutOfRange t) l) ts \/ In (ErrorToken (BinaryLiteralOutOfRange t) l) ts ->
  Forall (fun c => c < 128) t.
Proof.
  intros file s bytes ts H E t l I. apply encoding_utf8 in H. destruct H as [F ->]. destruct (scan_total file s) as (ts' & E').
  pose proof (scan_bytes _ _ _ F E') as X. rewrite X in E. injection E as <-. pose proof (scan_plain _ _ _ E') as Pl.
  rewrite (map_raw _ Pl) in I. rewrite Forall_forall in Pl.
  assert (K : forall t0, In t0 (map raw ts') -> plain t0).
  { intros t0 J. apply in_map_iff in J. destruct J as (t1 & <- & J). specialize (Pl t1 J). destruct t1; exact Pl || exact I. }
  destruct I as [I | [I | I]]; exact (K _ I).
Qed.
Print Assumptions C104_names.

(** A string is in the file as it is, between quotation marks. *)
Theorem C104_strings : forall file s bytes ts, encoding s bytes -> scan_b file bytes = Done ts ->
  forall b l, In (StringLiteral b l) ts -> exists x y, bytes = x ++ 34 :: b ++ 34 :: y.
Proof.
  intros file s bytes ts H E b l I. apply encoding_utf8 in H. destruct H as [F ->]. destruct (scan_total file s) as (ts' & E').
  pose proof (scan_bytes _ _ _ F E') as X. rewrite X in E. injection E as <-. pose proof (scan_plain _ _ _ E') as Pl.
  rewrite (map_raw _ Pl) in I. apply in_map_iff in I. destruct I as (t & R & I).
  destruct t; cbn [raw] in R; try discriminate R. injection R as <- <-. apply scan_lexes in E'.
  destruct (lexes_string _ _ _ _ E' _ _ I) as (x & y & ->). exists (utf8 x), (utf8 y).
  unfold utf8. rewrite flat_map_app. cbn [flat_map]. rewrite flat_map_app. reflexivity.
Qed.
Print Assumptions C104_strings.

(** The data and the errors are the same. *)
Theorem C104_tool : forall file s bytes, encoding s bytes ->
  exists r, makes file s r /\ assemble_bytes file bytes = Done (outcome_bytes r).
Proof. intros file s bytes H. apply encoding_utf8 in H. destruct H as [F ->]. apply bytes_make. exact F. Qed.
Print Assumptions C104_tool.

(** So are the texts that are printed or written, in bytes. *)
Theorem C104_printed : forall e path s bytes, encoding s bytes ->
  match assemble_text e path s with
  | Done (Ok text) => assemble_text_b (env_bytes e) (utf8 path) bytes = Done (Ok (utf8 text))
  | Done (Err message) => assemble_text_b (env_bytes e) (utf8 path) bytes = Done (Err (utf8 message))
  | Crash _ => False
  end.
Proof.
  intros e path s bytes H. apply encoding_utf8 in H. destruct H as [F ->]. rewrite (text_bytes e path s F).
  destruct (assemble_text_spec e path s F) as [(text & rs & E & _)|(m & E & _)]; rewrite E; reflexivity.
Qed.
Print Assumptions C104_printed.

(** A string with an é and a comment with a €. *)
Definition accented : str := u ".db """ ++ [0xE9] ++ u """, 7 ; " ++ [0x20AC; LF] ++ u "ld v1, 2".
Definition accented_bytes : list byte := u ".db """ ++ [0xC3; 0xA9] ++ u """, 7 ; " ++ [0xE2; 0x82; 0xAC; 10] ++ u "ld v1, 2".

Example C104_instance : encoding accented accented_bytes /\
  (exists l, nth_error (match scan_b (u "f") accented_bytes with Done ts => ts | _ => [] end) 2 = Some (StringLiteral [0xC3; 0xA9] l)) /\
  assemble_bytes (u "f") accented_bytes = Done (Ok (Ok [mk_range 0 [0xC3; 0xA9; 7; 0x61; 2]])) /\
  slice_b accented_bytes 5 7 = Done [0xC3; 0xA9] /\ slice_b accented_bytes 5 6 = Crash BadSlice.
Proof.
  split; [|split; [|split; [|split]]]; try (vm_compute; reflexivity).
  - apply encoding_utf8. split; [|vm_compute; reflexivity]. unfold accented, scalar.
    repeat (apply Forall_app; split); repeat constructor; lia.
  - eexists. vm_compute. reflexivity.
Qed.

(** An error, with the text of the token. *)
Example C104_error_instance :
  match assemble_bytes (u "f") (u "ld """ ++ [0xC3; 0xA9] ++ u """") with
  | Done (Err (UnexpectedToken [x] (StringLiteral [0xC3; 0xA9] _))) => x = dn_instruction_field
  | _ => False
  end.
Proof. vm_compute. reflexivity. Qed.

(** A file called é; a character that is no token. *)
Example C104_printed_instance :
  assemble_text_b (env_bytes sample_env) [0xC3; 0xA9] [0xC3; 0xBC] =
  Done (Err ([0xC3; 0xA9] ++ u ":1:1: error: Encountered syntax error: Invalid character '" ++ [0xC3; 0xBC] ++ u "'." ++ [10] ++
             [0xC3; 0xA9] ++ u ":1:1: error: Expecting one of: directive marker, identifier." ++ [10])).
Proof. vm_compute. reflexivity. Qed.
