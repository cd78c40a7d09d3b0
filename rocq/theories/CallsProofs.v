(** * CallsProofs: every run call by call is one of Main.v. *)

From Verif Require Import Base Text Scanner Parser DataRange Assembler IHex Main SpecLex SpecLayout SpecHex SpecUtf8 SpecTool SpecCalls Calls BaseFacts UtfProofs MainProofs.
Open Scope N_scope.

Lemma bytes_read_snoc : forall l a, bytes_read (l ++ [a]) = bytes_read l ++ match a with Got b => b | _ => [] end.
Proof. intros. unfold bytes_read. rewrite flat_map_app. cbn [flat_map]. rewrite app_nil_r. reflexivity. Qed.

Lemma after_snoc : forall e z l s a, after e z s (l ++ [a]) =
  match after e z s l with Some s' => answered e z s' a | None => None end.
Proof.
  intros e z l. induction l as [|x l IH]; intros s a; cbn [app after].
  - destruct (answered e z s a); reflexivity.
  - destruct (answered e z s x); [apply IH | reflexivity].
Qed.

(** What is being written. *)
Definition to_write (e : env) (answers : list answer) (output : str) (bytes : list byte) : Prop :=
  exists input s text, asks e input output /\ output <> u "-" /\
    utf8_decode (bytes_read answers) = Some s /\ assemble_text e input s = Done (Ok text) /\ bytes = utf8 text.

Definition is_run (e e' : env) (answers : list answer) (out : list byte) (status : N) (file : option (str * list byte)) : Prop :=
  forall f, (forall input output, asks e input output -> f input = Some (bytes_read answers)) ->
  main e' f = Done (mk_outcome out status (with_file f file)).

Definition sound (e : env) (answers : list answer) (st : state) : Prop :=
  match st with
  | Opening i o => asks e i o /\ bytes_read answers = [] /\ untroubled answers
  | Reading i o got => asks e i o /\ got = bytes_read answers /\ untroubled answers
  | Creating o result => to_write e answers o result /\ untroubled answers
  | Writing o written rest => to_write e answers o (written ++ rest) /\ rest <> [] /\ untroubled answers
  | Over out status file =>
      (exists oe re ce we, is_run e (with_errors e oe re ce we) answers out status file) /\
      (untroubled answers -> is_run e (with_errors e None None None None) answers out status file) /\
      match file with
      | None => True
      | Some (p, bytes) => exists rest, to_write e answers p (bytes ++ rest) /\ (rest = [] <-> status = 0)
      end
  | Broken => False
  end.

Lemma untroubled_snoc : forall l a, untroubled l ->
  match a with Failed _ => False | Took n => n <> O | _ => True end -> untroubled (l ++ [a]).
Proof. intros l a H A x X. apply in_app_or in X. destruct X as [X | [<- | []]]; [exact (H x X) | exact A]. Qed.

Lemma troubled_failed : forall l r, untroubled (l ++ [Failed r]) -> False.
Proof. intros l r H. apply (H (Failed r)). apply in_or_app. right. left. reflexivity. Qed.

Lemma troubled_zero : forall l, untroubled (l ++ [Took 0]) -> False.
Proof. intros l H. apply (H (Took 0)); [|reflexivity]. apply in_or_app. right. left. reflexivity. Qed.

Lemma asks_det : forall e i o i' o', asks e i o -> asks e i' o' -> i' = i /\ o' = o.
Proof.
  intros e i o i' o' (m & E & _ & _ & F & O) (m' & E' & _ & _ & F' & O'). rewrite E in E'. injection E' as <-.
  rewrite F in F'. injection F' as ->. subst. auto.
Qed.

Lemma main_errors : forall e oe re ce we i o f, asks e i o ->
  main (with_errors e oe re ce we) f = assemble_file (with_errors e oe re ce we) f i o.
Proof.
  intros e oe re ce we i o f (m & E & H & V & F & O). unfold main. cbn [e_options with_errors].
  rewrite E, H, V, F. cbv zeta. rewrite <- O. reflexivity.
Qed.

(** Errors do not matter for what is between reading and writing. *)
Lemma assemble_text_errors : forall e oe re ce we i s, assemble_text (with_errors e oe re ce we) i s = assemble_text e i s.
Proof.
  intros. unfold assemble_text.
  assert (R : forall l, overlap_report (with_errors e oe re ce we) l = overlap_report e l).
  { induction l as [|[a b] l IH]; [reflexivity|]. cbn [overlap_report]. rewrite IH. reflexivity. }
  destruct (Scanner.scan i s); [|reflexivity]. cbn [bind]. destruct (Parser.parse a) as [[p|x]|]; [| reflexivity | reflexivity].
  cbn [bind]. destruct (Assembler.assemble p) as [[rs|x]|]; [| reflexivity | reflexivity]. cbn [bind]. rewrite R. reflexivity.
Qed.

Lemma read_ok : forall e ce we f i bytes s, f i = Some bytes -> utf8_decode bytes = Some s ->
  read_input (with_errors e None None ce we) f i = Ok s.
Proof. intros e ce we f i bytes s F D. unfold read_input. cbn [e_open_error e_read_error with_errors]. rewrite F, D. reflexivity. Qed.

Lemma run_written : forall e answers o bytes ce we, to_write e answers o bytes ->
  forall f, (forall i o, asks e i o -> f i = Some (bytes_read answers)) ->
  main (with_errors e None None ce we) f =
  match ce with
  | Some reason => fail (program_error e (u "Unable to create output file '" ++ o ++ u "'") ++ program_error e reason) f
  | None =>
      match we with
      | Some (reason, n) =>
          fail (program_error e (u "Unable to write result to output file '" ++ o ++ u "'") ++ program_error e reason)
               (fs_set f o (firstn n bytes))
      | None => Done (mk_outcome [] 0 (fs_set f o bytes))
      end
  end.
Proof.
  intros e answers o bytes ce we (i & s & text & A & D & U & T & ->) f F.
  rewrite (main_errors e None None ce we i o f A). unfold assemble_file.
  rewrite (read_ok e ce we f i _ s (F i o A) U). rewrite assemble_text_errors, T. cbn [bind].
  unfold write_output. cbv zeta. apply str_eqb_neq in D. rewrite D. reflexivity.
Qed.

Lemma to_write_same : forall e l l' o b, bytes_read l = bytes_read l' -> to_write e l o b -> to_write e l' o b.
Proof. intros e l l' o b E (i & s & t & H). exists i, s, t. rewrite <- E. exact H. Qed.

Lemma sound_begin : forall e, sound e [] (begin_main e).
Proof.
  intros e. unfold begin_main, sound, is_run.
  destruct (e_options e) as [m|r] eqn:E.
  2:{ unfold quit. assert (H : forall f, main (with_errors e None None None None) f = fail (program_error e r) f).
      { intros f. unfold main. cbn [e_options with_errors]. rewrite E. reflexivity. }
      split; [exists None, None, None, None; intros f _; exact (H f)|]. split; [intros _ f _; exact (H f) | exact I]. }
  destruct (m_help m) eqn:Hh.
  { assert (H : forall f, main (with_errors e None None None None) f = Done (mk_outcome (utf8 (usage_text e)) 0 f)).
    { intros f. unfold main. cbn [e_options with_errors]. rewrite E, Hh. reflexivity. }
    split; [exists None, None, None, None; intros f _; exact (H f)|]. split; [intros _ f _; exact (H f) | exact I]. }
  destruct (m_version m) eqn:Hv.
  { assert (H : forall f, main (with_errors e None None None None) f = Done (mk_outcome (utf8 version_text) 0 f)).
    { intros f. unfold main. cbn [e_options with_errors]. rewrite E, Hh, Hv. reflexivity. }
    split; [exists None, None, None, None; intros f _; exact (H f)|]. split; [intros _ f _; exact (H f) | exact I]. }
  cbv zeta. destruct (m_free m) as [|i [|x y]] eqn:Hf.
  2:{ split; [exists m; repeat split; assumption|]. split; [reflexivity | intros a []]. }
  all: unfold quit;
    assert (H : forall f, main (with_errors e None None None None) f = fail (usage_text e) f)
      by (intros f; unfold main; cbn [e_options with_errors]; rewrite E, Hh, Hv, Hf; reflexivity);
    (split; [exists None, None, None, None; intros f _; exact (H f)|]; split; [intros _ f _; exact (H f) | exact I]).
Qed.

Lemma sound_over : forall e l out file, untroubled l ->
  is_run e (with_errors e None None None None) l out 0 file ->
  match file with None => True | Some (p, bytes) => to_write e l p bytes end ->
  sound e l (Over out 0 file).
Proof.
  intros e l out file U R W. unfold sound. split; [exists None, None, None, None; exact R|]. split; [intros _; exact R|].
  destruct file as [[p b]|]; [|exact I]. exists []. rewrite app_nil_r. split; [exact W | tauto].
Qed.

Lemma sound_fails : forall e l message file, (untroubled l -> False) ->
  (exists oe re ce we, forall f, (forall input output, asks e input output -> f input = Some (bytes_read l)) ->
     main (with_errors e oe re ce we) f = fail message (with_file f file)) ->
  match file with None => True | Some (p, bytes) => exists rest, rest <> [] /\ to_write e l p (bytes ++ rest) end ->
  sound e l (quit message file).
Proof.
  intros e l message file U (oe & re & ce & we & R) W. unfold quit, sound.
  split; [exists oe, re, ce, we; exact R|]. split; [intros X; contradiction (U X)|].
  destruct file as [[p b]|]; [|exact I]. destruct W as (rest & Nr & W). exists rest. split; [exact W|].
  split; [intros ->; contradiction | discriminate].
Qed.

Lemma sound_writing : forall e l o written rest, untroubled l -> to_write e l o (written ++ rest) ->
  sound e l (begin_writing o written rest).
Proof.
  intros e l o written rest U W. unfold begin_writing. destruct rest as [|b rest].
  - rewrite app_nil_r in W. apply sound_over; [exact U | | exact W].
    intros f F. exact (run_written e l o written None None W f F).
  - split; [exact W|]. split; [discriminate | exact U].
Qed.

Lemma sound_go_on : forall e l i o, asks e i o -> untroubled l -> sound e l (go_on e i o (bytes_read l)).
Proof.
  intros e l i o A U. unfold go_on.
  assert (M : forall f, (forall i o, asks e i o -> f i = Some (bytes_read l)) ->
    main (with_errors e None None None None) f = assemble_file (with_errors e None None None None) f i o)
    by (intros f _; exact (main_errors e None None None None i o f A)).
  assert (Q : forall message, (forall f, (forall i o, asks e i o -> f i = Some (bytes_read l)) ->
      main (with_errors e None None None None) f = fail message f) -> sound e l (quit message None)).
  { intros message H. unfold quit, sound. split; [exists None, None, None, None; exact H|]. split; [intros _; exact H | exact I]. }
  destruct (utf8_decode (bytes_read l)) as [s|] eqn:D.
  - assert (Sc : Forall scalar s) by (apply decode_encoding in D; apply encoding_utf8 in D; tauto).
    destruct (assemble_text_spec e i s Sc) as [(text & rs & T & C & _)|(message & T & _)]; rewrite T.
    + unfold begin_output. destruct (str_eqb o (u "-")) eqn:Eo.
      * apply sound_over; [exact U | | exact I]. intros f F. rewrite (M f F). unfold assemble_file.
        rewrite (read_ok e None None f i _ s (F i o A) D). rewrite assemble_text_errors, T. cbn [bind].
        unfold write_output. cbv zeta. rewrite Eo. reflexivity.
      * split; [|exact U]. exists i, s, text. apply str_eqb_neq in Eo. auto.
    + apply Q. intros f F. rewrite (M f F). unfold assemble_file.
      rewrite (read_ok e None None f i _ s (F i o A) D). rewrite assemble_text_errors, T. reflexivity.
  - apply Q. intros f F. rewrite (M f F). unfold assemble_file, read_input. cbn [e_open_error e_read_error with_errors].
    rewrite (F i o A), D. reflexivity.
Qed.

Lemma sound_answered : forall e z l s a s', sound e l s -> answered e z s a = Some s' -> sound e (l ++ [a]) s'.
Proof.
  intros e z l s a s' S H.
  assert (B : match a with Got b => b = [] | _ => True end -> bytes_read (l ++ [a]) = bytes_read l).
  { intros Z. rewrite bytes_read_snoc. destruct a as [|b| | |]; try (rewrite app_nil_r; reflexivity). rewrite Z. apply app_nil_r. }
  destruct s as [i o|i o got|o result|o written rest|out status file|]; cbn [answered] in H.
  - destruct S as (A & E & U). destruct a as [|b|n| |r]; try discriminate H; injection H as <-.
    + split; [exact A|]. split; [rewrite B by exact I; symmetry; exact E | apply untroubled_snoc; [exact U | exact I]].
    + split; [exact A|]. split; [rewrite B by exact I; exact E | apply untroubled_snoc; [exact U | exact I]].
    + apply sound_fails; [apply troubled_failed | | exact I]. exists (Some r), None, None, None. intros f F.
      rewrite (main_errors e _ _ _ _ i o f A). unfold assemble_file, read_input. reflexivity.
  - destruct S as (A & -> & U). destruct a as [|b|n| |r]; try discriminate H.
    + destruct b as [|b0 b]; injection H as <-.
      * rewrite <- (B eq_refl). apply sound_go_on; [exact A | apply untroubled_snoc; [exact U | exact I]].
      * split; [exact A|]. split; [symmetry; apply bytes_read_snoc | apply untroubled_snoc; [exact U | exact I]].
    + injection H as <-. split; [exact A|].
      split; [symmetry; apply B; exact I | apply untroubled_snoc; [exact U | exact I]].
    + injection H as <-. apply sound_fails; [apply troubled_failed | | exact I]. exists None, (Some r), None, None. intros f F.
      rewrite (main_errors e _ _ _ _ i o f A). unfold assemble_file, read_input. cbn [e_open_error e_read_error with_errors].
      rewrite (F i o A). reflexivity.
  - destruct S as (W & U). destruct a as [|b|n| |r]; try discriminate H; injection H as <-;
      apply (to_write_same e l (l ++ [_]) _ _ (eq_sym (B I))) in W.
    + apply sound_writing; [apply untroubled_snoc; [exact U | exact I] | exact W].
    + split; [exact W | apply untroubled_snoc; [exact U | exact I]].
    + apply sound_fails; [apply troubled_failed | | exact I]. exists None, None, (Some r), None. intros f F.
      exact (run_written e _ o result (Some r) None W f F).
  - destruct S as (W & Nr & U). destruct a as [|b|n| |r]; try discriminate H;
      apply (to_write_same e l (l ++ [_]) _ _ (eq_sym (B I))) in W.
    + destruct n as [|n].
      * injection H as <-. apply sound_fails; [apply troubled_zero | | exists rest; split; [exact Nr | exact W]].
        exists None, None, None, (Some (z, length written)). intros f F.
        rewrite (run_written e _ o _ None (Some (z, length written)) W f F). rewrite firstn_app, Nat.sub_diag, firstn_all, firstn_O, app_nil_r.
        reflexivity.
      * destruct (Nat.leb (S n) (length rest)); [|discriminate H]. injection H as <-.
        apply sound_writing; [apply untroubled_snoc; [exact U | discriminate]|].
        change (to_write e (l ++ [Took (S n)]) o ((written ++ firstn (S n) rest) ++ skipn (S n) rest)).
        rewrite <- app_assoc, firstn_skipn. exact W.
    + injection H as <-. split; [exact W|]. split; [exact Nr | apply untroubled_snoc; [exact U | exact I]].
    + injection H as <-. apply sound_fails; [apply troubled_failed | | exists rest; split; [exact Nr | exact W]].
      exists None, None, None, (Some (r, length written)). intros f F.
      rewrite (run_written e _ o _ None (Some (r, length written)) W f F). rewrite firstn_app, Nat.sub_diag, firstn_all, firstn_O, app_nil_r.
      reflexivity.
  - discriminate H.
  - discriminate H.
Qed.

Theorem process_sound : forall e z answers s, process_after e z answers = Some s -> sound e answers s.
Proof.
  intros e z answers. unfold process_after. induction answers as [|a l IH] using rev_ind; intros s H.
  - injection H as <-. apply sound_begin.
  - rewrite after_snoc in H. destruct (after e z (begin_main e) l) as [s1|] eqn:E; [|discriminate H].
    exact (sound_answered e z l s1 a s (IH s1 eq_refl) H).
Qed.
