(** * IoProofs: the standard output of main.rs. *)

From Verif Require Import Base Text U12 Location Token Scanner Parser Directive Opcode
  Instruction DataRange Assembler IHex Main MainIO SpecLex SpecHex SpecTool SpecOut BaseFacts HexProofs MainProofs.
Open Scope N_scope.

(** ** Lines *)

Lemma cut_lines_newline : forall l, cut_lines (l ++ [10]) = (l ++ [10], []).
Proof.
  induction l as [|c l IH]; [reflexivity|]. cbn [app cut_lines]. rewrite IH.
  destruct (l ++ [10]) eqn:E; [destruct l; discriminate | reflexivity].
Qed.

Lemma cut_lines_none : forall l, ~ In 10 l -> cut_lines l = ([], l).
Proof.
  induction l as [|c l IH]; intros N; [reflexivity|]. cbn [cut_lines]. rewrite IH by (intros X; apply N; right; exact X).
  destruct (c =? 10) eqn:E; [|reflexivity]. exfalso. apply N. left. lia.
Qed.

Lemma cut_lines_spec : forall t a, complete_lines t a -> exists b, t = a ++ b /\ cut_lines t = (a, b).
Proof.
  intros t a (b & -> & N & H). exists b. split; [reflexivity|].
  assert (G : forall l, a = l ++ [10] -> cut_lines (a ++ b) = (a, b)).
  { clear H. intros l ->. induction l as [|c l IH]; cbn [app cut_lines].
    - rewrite (cut_lines_none b N). reflexivity.
    - rewrite IH. destruct (l ++ [10]) eqn:E; [destruct l; discriminate | reflexivity]. }
  destruct H as [->|[l H]]; [apply cut_lines_none; exact N | exact (G l H)].
Qed.

Lemma complete_exists : forall t, exists a, complete_lines t a.
Proof.
  induction t as [|c t (a & b & -> & N & H)].
  - exists [], []. auto.
  - destruct H as [->|[l ->]].
    + destruct (N.eq_dec c 10) as [->|D].
      * exists [10], b. split; [reflexivity|]. split; [exact N|]. right. exists []. reflexivity.
      * exists [], (c :: b). split; [reflexivity|]. split; [|left; reflexivity]. intros [X|X]; [congruence | exact (N X)].
    + exists (c :: l ++ [10]), b. split; [reflexivity|]. split; [exact N|]. right. exists (c :: l). reflexivity.
Qed.

Lemma complete_newline : forall l, complete_lines (l ++ [10]) (l ++ [10]).
Proof. intros l. exists []. rewrite app_nil_r. split; [reflexivity|]. split; [intros []|]. right. exists l. reflexivity. Qed.

Lemma complete_nil : complete_lines [] [].
Proof. exists []. auto. Qed.

Lemma utf8_app : forall a b, utf8 (a ++ b) = utf8 a ++ utf8 b.
Proof. intros a b. unfold utf8. apply flat_map_app. Qed.

Lemma utf8_newline : forall a, utf8 (a ++ [10]) = utf8 a ++ [10].
Proof. intros a. rewrite utf8_app. reflexivity. Qed.

(** ** Steps which print *)

Definition plain (room : nat) (out : list byte) (f : fs) : world := mk_world room out [] f.

(** [m] prints [t], made of complete lines, and then ends in [r]. *)
Definition prints {A : Type} (f : fs) (m : io A) (t : list byte) (r : step A) : Prop :=
  forall room out, m (plain room out f) =
    if Nat.leb (length t) room then (r, plain (room - length t) (out ++ t) f)
    else (Panicked, plain 0 (out ++ firstn room t) f).

Lemma put_line : forall t room out f, put (t ++ [10]) (plain room out f) =
  if Nat.leb (length (t ++ [10])) room then (true, plain (room - length (t ++ [10])) (out ++ t ++ [10]) f)
  else (false, plain 0 (out ++ firstn room (t ++ [10])) f).
Proof.
  intros t room out f. unfold put, plain. cbn [w_held app]. rewrite cut_lines_newline. unfold deliver. cbn [w_room w_out w_held w_fs].
  destruct (Nat.leb _ _); reflexivity.
Qed.

Lemma prints_say : forall f s, prints f (say (s ++ [10])) (utf8 (s ++ [10])) (Next tt).
Proof.
  intros f s room out. unfold say. rewrite utf8_newline, put_line. destruct (Nat.leb _ _); reflexivity.
Qed.

Lemma prints_log : forall f e s, prints f (log_error e s) (utf8 (program_error e s)) (Next tt).
Proof. intros f e s. unfold log_error, program_error. rewrite !app_assoc. apply prints_say. Qed.

Lemma prints_give : forall A f (a : A), prints f (give a) [] (Next a).
Proof.
  intros A f a room out. cbn [length]. rewrite app_nil_r, Nat.sub_0_r. reflexivity.
Qed.

Lemma prints_exit : forall A f c, prints f (@exit_with A c) [] (Exited c).
Proof.
  intros A f c room out. cbn [length]. rewrite app_nil_r, Nat.sub_0_r. reflexivity.
Qed.

Lemma prints_then : forall A B f (m : io A) (k : A -> io B) t t' a r,
  prints f m t (Next a) -> prints f (k a) t' r -> prints f (and_then m k) (t ++ t') r.
Proof.
  intros A B f m k t t' a r H H' room out. unfold and_then. rewrite H. rewrite app_length.
  destruct (Nat.leb (length t) room) eqn:E.
  - apply Nat.leb_le in E. rewrite H'. destruct (Nat.leb (length t') (room - length t)) eqn:E'.
    + apply Nat.leb_le in E'. replace (Nat.leb _ _) with true by (symmetry; apply Nat.leb_le; lia).
      rewrite <- app_assoc. f_equal. f_equal. lia.
    + apply Nat.leb_gt in E'. replace (Nat.leb _ _) with false by (symmetry; apply Nat.leb_gt; lia).
      rewrite firstn_app. rewrite (firstn_all2 t) by lia. rewrite <- app_assoc. reflexivity.
  - apply Nat.leb_gt in E. replace (Nat.leb _ _) with false by (symmetry; apply Nat.leb_gt; lia).
    rewrite firstn_app. replace (room - length t)%nat with 0%nat by lia. rewrite firstn_O, app_nil_r. reflexivity.
Qed.

Lemma prints_stop : forall A B f (m : io A) (k : A -> io B) t c,
  prints f m t (Exited c) -> prints f (and_then m k) t (Exited c).
Proof.
  intros A B f m k t c H room out. unfold and_then. rewrite H. destruct (Nat.leb _ _); reflexivity.
Qed.

Lemma prints_two : forall A f e a b,
  prints f (do* _ := log_error e a in do* _ := log_error e b in @exit_with A 1)
    (utf8 (program_error e a ++ program_error e b)) (Exited 1).
Proof.
  intros A f e a b. rewrite utf8_app. eapply prints_then; [apply prints_log|].
  rewrite <- (app_nil_r (utf8 (program_error e b))). eapply prints_then; [apply prints_log|]. apply prints_exit.
Qed.

Lemma bind_next : forall A B f (m : io A) (k : A -> io B) a t r,
  prints f m [] (Next a) -> prints f (k a) t r -> prints f (and_then m k) t r.
Proof. intros. change t with ([] ++ t). eapply prints_then; eassumption. Qed.

(** ** main.rs:34-105 *)

Lemma prints_read : forall e f path,
  match read_input e f path with
  | Ok s => exists bytes, prints f (open_input e path) [] (Next bytes) /\ prints f (read_to_string e path bytes) [] (Next s)
  | Err m => prints f (do* bytes := open_input e path in read_to_string e path bytes) (utf8 m) (Exited 1)
  end.
Proof.
  intros e f path. unfold read_input. cbv zeta.
  assert (G : forall reason, (e_open_error e = Some reason \/ e_open_error e = None /\ f path = None /\ reason = e_not_found e) ->
    prints f (open_input e path)
      (utf8 (program_error e (u "Unable to open input file '" ++ path ++ u "'") ++ program_error e reason)) (Exited 1)).
  { intros reason H room out. unfold open_input. cbv zeta. unfold plain at 2. cbn [w_fs].
    destruct H as [->|(-> & -> & ->)]; apply prints_two. }
  destruct (e_open_error e) as [r|] eqn:Eo.
  { apply prints_stop. apply G. left. reflexivity. }
  destruct (f path) as [bytes|] eqn:Ef.
  2:{ apply prints_stop. apply G. right. auto. }
  assert (O : prints f (open_input e path) [] (Next bytes)).
  { intros room out. unfold open_input. cbv zeta. rewrite Eo. unfold plain at 1. cbn [w_fs]. rewrite Ef. apply prints_give. }
  unfold read_to_string.
  destruct (e_read_error e) as [r|] eqn:Er.
  { eapply bind_next; [exact O|]. apply prints_two. }
  destruct (utf8_decode bytes) as [s|] eqn:Ed.
  - exists bytes. split; [exact O|]. rewrite Ed. apply prints_give.
  - eapply bind_next; [exact O|]. rewrite Ed. apply prints_two.
Qed.

Lemma prints_lift : forall A f (r : run A) a, r = Done a -> prints f (lift r) [] (Next a).
Proof. intros A f r a ->. apply prints_give. Qed.

Lemma prints_overlaps : forall e f l s, overlap_report e l = Done s -> prints f (log_overlaps e l) (utf8 s) (Next tt).
Proof.
  intros e f. induction l as [|[a b] l IH]; cbn [overlap_report log_overlaps]; intros s H.
  - injection H as <-. apply prints_give.
  - destruct (range_fmt a) as [sa|]; [|discriminate]. destruct (range_fmt b) as [sb|]; [|discriminate].
    cbn [bind] in H. destruct (overlap_report e l) as [s'|]; [|discriminate]. cbn [bind] in H. injection H as <-.
    rewrite !utf8_app. cbn [lift]. eapply bind_next; [apply prints_give|].
    eapply prints_then; [apply prints_log|]. eapply bind_next; [apply prints_give|].
    eapply prints_then; [apply prints_log|]. apply IH. reflexivity.
Qed.

Lemma prints_translate : forall e f path s,
  match assemble_text e path s with
  | Done (Ok text) => prints f (translate e path s) [] (Next text)
  | Done (Err m) => prints f (translate e path s) (utf8 m) (Exited 1)
  | Crash _ => True
  end.
Proof.
  intros e f path s. unfold assemble_text, translate.
  destruct (scan path s) as [ts|] eqn:Es; [|exact I]. cbn [bind].
  destruct (parse ts) as [[p|er]|] eqn:Ep; [| |exact I]; cbn [bind].
  2:{ destruct (parse_error_fmt er) as [m|] eqn:Em; [|exact I]. cbn [bind].
      eapply bind_next; [apply prints_give|]. eapply bind_next; [apply prints_lift; exact Ep|].
      apply prints_stop. eapply bind_next; [apply prints_lift; exact Em|].
      rewrite <- (app_nil_r (utf8 (m ++ [10]))). eapply prints_then; [apply prints_say | apply prints_exit]. }
  destruct (assemble p) as [[rs|er]|] eqn:Ea; [| |exact I]; cbn [bind].
  2:{ eapply bind_next; [apply prints_give|]. eapply bind_next; [apply prints_lift; exact Ep|].
      eapply bind_next; [apply prints_give|]. eapply bind_next; [apply prints_lift; exact Ea|].
      apply prints_stop.
      rewrite <- (app_nil_r (utf8 (semantic_error_fmt er ++ [10]))). eapply prints_then; [apply prints_say | apply prints_exit]. }
  assert (G : forall t r, prints f
    (do* _ := if Nat.ltb 0 (length (find_overlapping_ranges rs)) then
         do* _ := log_error e (u "Input file specifies overlapping data ranges.") in
         do* _ := log_error e (u "Data from one section has overflowed into the adjacent.") in
         do* _ := log_overlaps e (find_overlapping_ranges rs) in
         exit_with 1
       else give tt in
     lift (ihex_representation rs)) t r ->
    prints f (translate e path s) t r).
  { intros t r P. unfold translate. eapply bind_next; [apply prints_lift; exact Es|].
    eapply bind_next; [apply prints_lift; exact Ep|]. eapply bind_next; [apply prints_give|].
    eapply bind_next; [apply prints_lift; exact Ea|]. eapply bind_next; [apply prints_give|]. exact P. }
  unfold translate in G. destruct (Nat.ltb 0 (length (find_overlapping_ranges rs))) eqn:El.
  - destruct (overlap_report e (find_overlapping_ranges rs)) as [m|] eqn:Eo; [|exact I]. cbn [bind].
    rewrite Es in G. apply G. apply prints_stop. rewrite !utf8_app.
    eapply prints_then; [apply prints_log|]. eapply prints_then; [apply prints_log|].
    rewrite <- (app_nil_r (utf8 m)). eapply prints_then; [apply prints_overlaps; exact Eo | apply prints_exit].
  - destruct (ihex_representation rs) as [text|] eqn:Eh; [|exact I]. cbn [bind].
    rewrite Es in G. apply G. eapply bind_next; [apply prints_give|]. apply prints_give.
Qed.

(** A process which prints [t] and ends in [r]. *)
Lemma process_prints : forall (m : io unit) room f t r, prints f m t r ->
  process m room f = mk_outcome (firstn room t)
    (if Nat.leb (length t) room then match r with Next _ => 0 | Exited s => s | Panicked => 101 end else 101) f.
Proof.
  intros m room f t r H. unfold process. change (mk_world room [] [] f) with (plain room [] f). rewrite H.
  destruct (Nat.leb (length t) room) eqn:E; cbn [w_held plain]; unfold deliver; cbn [length Nat.leb w_room w_out w_held w_fs plain snd app];
    rewrite app_nil_r.
  - apply Nat.leb_le in E. rewrite firstn_all2 by lia. reflexivity.
  - reflexivity.
Qed.

(** The same for a text which does not end in a newline. *)
Lemma process_say : forall room f t lines, complete_lines (utf8 t) lines -> forall k c,
  (forall w, k w = (Exited c, w)) ->
  process (say t) room f = mk_outcome (firstn room (utf8 t)) (if Nat.leb (length lines) room then 0 else 101) f /\
  process (do* _ := say t in k) room f =
    mk_outcome (firstn room (utf8 t)) (if Nat.leb (length lines) room then c else 101) f.
Proof.
  intros room f t lines H k c K. destruct (cut_lines_spec _ _ H) as (rest & E & L).
  assert (S : say t (plain room [] f) =
    if Nat.leb (length lines) room then (Next tt, mk_world (room - length lines) lines rest f)
    else (Panicked, plain 0 (firstn room lines) f)).
  { unfold say, put, plain. cbn [w_held app]. rewrite L. unfold deliver. cbn [w_room w_out w_held w_fs app].
    destruct (Nat.leb _ _); reflexivity. }
  unfold process, and_then. change (mk_world room [] [] f) with (plain room [] f). rewrite S, E.
  destruct (Nat.leb (length lines) room) eqn:El.
  - rewrite K. apply Nat.leb_le in El. unfold deliver. cbn [w_room w_out w_held w_fs].
    rewrite firstn_app, (firstn_all2 lines) by lia.
    destruct (Nat.leb (length rest) (room - length lines)) eqn:Er; cbn [snd w_out w_fs]; [|split; reflexivity].
    apply Nat.leb_le in Er. rewrite (firstn_all2 rest) by lia. split; reflexivity.
  - apply Nat.leb_gt in El. rewrite firstn_app. replace (room - length lines)%nat with 0%nat by lia.
    rewrite firstn_O, app_nil_r. unfold deliver, plain. cbn [length Nat.leb snd w_room w_out w_held w_fs]. rewrite app_nil_r.
    split; reflexivity.
Qed.

Lemma hex_newline : forall rs text, ihex_representation rs = Done text -> exists t, text = t ++ [10].
Proof.
  intros rs text H. unfold ihex_representation in H. destruct (assert_ _); [|discriminate]. cbn [bind] in H.
  destruct (range_records rs); [|discriminate]. cbn [bind] in H. destruct (unwrap _) as [s|]; [|discriminate].
  cbn [bind] in H. injection H as <-. exists s. reflexivity.
Qed.

Lemma text_newline : forall e path s text, assemble_text e path s = Done (Ok text) -> exists t, text = t ++ [10].
Proof.
  intros e path s text H. unfold assemble_text in H. destruct (scan path s); [|discriminate]. cbn [bind] in H.
  destruct (parse _) as [[p|er]|]; cbn [bind] in H; [| |discriminate].
  2:{ destruct (parse_error_fmt er); discriminate. }
  destruct (assemble p) as [[rs|er]|]; cbn [bind] in H; try discriminate.
  destruct (Nat.ltb _ _).
  - destruct (overlap_report _ _); discriminate.
  - destruct (ihex_representation rs) eqn:E; [|discriminate]. cbn [bind] in H. injection H as <-. exact (hex_newline _ _ E).
Qed.

Definition status_of (r : step unit) : N := match r with Next _ => 0 | Exited s => s | Panicked => 101 end.

Lemma prints_write : forall e f full path t o, (path = u "-" -> e_write_error e = None) ->
  write_output e f path (t ++ [10]) = Done o ->
  exists g m r, (forall room out, write_result e full path (t ++ [10]) (plain room out f) = m (plain room out g)) /\
    prints g m (o_stdout o) r /\ status_of r = o_exit o /\ forall p, g p = o_fs o p.
Proof.
  intros e f full path t o N H. unfold write_output, fail in H. cbv zeta in H.
  destruct (str_eqb path (u "-")) eqn:Ep.
  - pose proof Ep as Ep'. apply str_eqb_eq in Ep'. rewrite (N Ep') in H. injection H as <-. cbn [o_fs o_stdout o_exit].
    exists f, (write_result e full path (t ++ [10])), (Next tt). split; [intros room out; reflexivity|]. split; [|split; reflexivity].
    intros room out. unfold write_result. cbv zeta. rewrite Ep. rewrite utf8_newline, put_line. destruct (Nat.leb _ _); [reflexivity|].
    rewrite (prints_two unit f e). rewrite utf8_app, app_length. unfold program_error at 1.
    rewrite !app_assoc, utf8_newline, app_length. cbn [length].
    replace (Nat.leb _ 0) with false by (symmetry; apply Nat.leb_gt; lia). rewrite firstn_O, app_nil_r. reflexivity.
  - unfold write_result. cbv zeta. rewrite Ep. destruct (e_create_error e) as [reason|].
    { injection H as <-. cbn [o_fs o_stdout o_exit]. exists f. eexists. exists (Exited 1).
      split; [intros room out; reflexivity|]. split; [|split; reflexivity]. apply prints_stop. apply prints_two. }
    destruct (e_write_error e) as [[reason n]|]; injection H as <-; cbn [o_fs o_stdout o_exit].
    + exists (fs_set (fs_set f path []) path (firstn n (utf8 (t ++ [10])))). eexists. exists (Exited 1).
      split; [intros room out; reflexivity|]. split; [apply prints_two|]. split; [reflexivity|].
      intros p. unfold fs_set. destruct (str_eqb p path); reflexivity.
    + exists (fs_set (fs_set f path []) path (utf8 (t ++ [10]))). exists (give tt), (Next tt).
      split; [intros room out; reflexivity|]. split; [apply prints_give|]. split; [reflexivity|].
      intros p. unfold fs_set. destruct (str_eqb p path); reflexivity.
Qed.

(** The formula for all runs. *)
Theorem process_main : forall e full f o lines room,
  (forall input, asks e input (u "-") -> e_write_error e = None) ->
  main e f = Done o -> complete_lines (o_stdout o) lines ->
  o_stdout (process (main_io e full) room f) = firstn room (o_stdout o) /\
  o_exit (process (main_io e full) room f) = (if Nat.leb (length lines) room then o_exit o else 101) /\
  forall p, o_fs (process (main_io e full) room f) p = o_fs o p.
Proof.
  intros e full f o lines room N H C.
  assert (G : forall (m m' : io unit) g r, (forall room out, m (plain room out f) = m' (plain room out g)) ->
    prints g m' (o_stdout o) r -> status_of r = o_exit o -> (forall p, g p = o_fs o p) ->
    (o_stdout o = [] \/ exists l, o_stdout o = l ++ [10]) ->
    o_stdout (process m room f) = firstn room (o_stdout o) /\
    o_exit (process m room f) = (if Nat.leb (length lines) room then o_exit o else 101) /\
    forall p, o_fs (process m room f) p = o_fs o p).
  { intros m m' g r E P S F L.
    assert (P' : process m room f = process m' room g) by (unfold process; change (mk_world room [] [] f) with (plain room [] f); rewrite E; reflexivity).
    rewrite P', (process_prints _ _ _ _ _ P). cbn [o_stdout o_exit o_fs].
    assert (lines = o_stdout o).
    { destruct (cut_lines_spec _ _ C) as (rest & E1 & E2).
      destruct L as [L|[l L]]; rewrite L in E2; [cbn in E2; congruence|]. rewrite cut_lines_newline in E2. congruence. }
    subst lines. split; [reflexivity|]. split; [|exact F]. rewrite <- S. reflexivity. }
  assert (K : forall (m : io unit) r, prints f m (o_stdout o) r -> status_of r = o_exit o -> o_fs o = f ->
    (o_stdout o = [] \/ exists l, o_stdout o = l ++ [10]) ->
    o_stdout (process m room f) = firstn room (o_stdout o) /\
    o_exit (process m room f) = (if Nat.leb (length lines) room then o_exit o else 101) /\
    forall p, o_fs (process m room f) p = o_fs o p).
  { intros m r P S F L. apply (G m m f r); auto. intros p. rewrite F. reflexivity. }
  assert (PE : forall e a, exists l, utf8 (program_error e a) = l ++ [10]).
  { intros e' a. unfold program_error. rewrite !app_assoc, utf8_newline. eexists. reflexivity. }
  unfold main in H. unfold main_io. destruct (e_options e) as [m|reason] eqn:Eo.
  2:{ unfold fail in H. injection H as <-. cbn [o_stdout] in *. eapply K; cbn [o_stdout o_exit o_fs].
      - rewrite <- (app_nil_r (utf8 (program_error e reason))). unfold program_error at 1. rewrite !app_assoc.
        eapply prints_then; [unfold program_error; rewrite !app_assoc; apply prints_say | apply prints_exit].
      - reflexivity. - reflexivity. - right. apply PE. }
  destruct (m_help m) eqn:Eh.
  { injection H as <-. cbn [o_stdout o_exit o_fs] in *.
    destruct (process_say room f _ _ C (exit_with 0) 0 (fun w => eq_refl)) as [-> _]. auto. }
  destruct (m_version m) eqn:Ev.
  { injection H as <-. cbn [o_stdout o_exit o_fs] in *.
    destruct (process_say room f version_text lines C (exit_with 0) 0 (fun w => eq_refl)) as [-> _]. auto. }
  cbv zeta in H. cbv zeta. set (output := match m_output m with Some p => p | None => u "a.hex" end) in *.
  destruct (m_free m) as [|input [|x y]] eqn:Ef.
  1,3: unfold fail in H; injection H as <-; cbn [o_stdout o_exit o_fs] in *;
    destruct (process_say room f _ _ C (exit_with 1) 1 (fun w => eq_refl)) as [_ ->]; auto.
  assert (A : asks e input output) by (exists m; repeat split; auto).
  unfold assemble_file, fail in H. unfold assemble_file_io.
  pose proof (prints_read e f input) as R. destruct (read_input e f input) as [s|msg] eqn:Er.
  2:{ injection H as <-. cbn [o_stdout o_exit o_fs] in *. eapply K; cbn [o_stdout o_exit o_fs].
      - instantiate (1 := Exited 1). intros room' out. specialize (R room' out). unfold and_then in R |- *.
        destruct (open_input e input (plain room' out f)) as [[bytes|c|] w]; [|destruct (Nat.leb (length (utf8 msg)) room'); inversion R; reflexivity|
           destruct (Nat.leb (length (utf8 msg)) room'); inversion R; reflexivity].
        rewrite R. destruct (Nat.leb (length (utf8 msg)) room'); reflexivity.
      - reflexivity. - reflexivity.
      - right. unfold read_input in Er. destruct (e_open_error e), (f input), (e_read_error e);
          try destruct (utf8_decode _); try discriminate; injection Er as <-; rewrite utf8_app;
          match goal with |- exists l, _ ++ utf8 (program_error e ?r) = _ => destruct (PE e r) as [? ->]; rewrite app_assoc; eexists; reflexivity end. }
  destruct R as (bytes & R1 & R2). pose proof (prints_translate e f input s) as T.
  destruct (assemble_text e input s) as [[text|msg]|] eqn:Ea; cbn [bind] in H; [| |discriminate].
  2:{ injection H as <-. cbn [o_stdout o_exit o_fs] in *. eapply K; cbn [o_stdout o_exit o_fs].
      - eapply bind_next; [exact R1|]. eapply bind_next; [exact R2|]. apply prints_stop. exact T.
      - reflexivity. - reflexivity.
      - right. clear - Ea PE. unfold assemble_text in Ea. destruct (scan input s); [|discriminate]. cbn [bind] in Ea.
        destruct (parse _) as [[p|er]|]; cbn [bind] in Ea; [| |discriminate].
        2:{ destruct (parse_error_fmt er); [|discriminate]. injection Ea as <-. rewrite utf8_newline. eauto. }
        destruct (assemble p) as [[rs|er]|]; cbn [bind] in Ea; try discriminate.
        2:{ injection Ea as <-. rewrite utf8_newline. eauto. }
        destruct (Nat.ltb _ _); [|destruct (ihex_representation rs); discriminate].
        destruct (overlap_report _ _) as [m|] eqn:Eo; [|discriminate]. cbn [bind] in Ea. injection Ea as <-.
        rewrite !utf8_app. assert (X : utf8 m = [] \/ exists l, utf8 m = l ++ [10]).
        { revert m Eo. induction (find_overlapping_ranges rs) as [|[ra rb] rl IH]; cbn [overlap_report]; intros m Eo.
          - injection Eo as <-. left. reflexivity.
          - destruct (range_fmt ra); [|discriminate]. destruct (range_fmt rb); [|discriminate]. cbn [bind] in Eo.
            destruct (overlap_report e rl) as [m'|]; [|discriminate]. cbn [bind] in Eo. injection Eo as <-. right.
            rewrite !utf8_app. destruct (IH m' eq_refl) as [->|[l' ->]].
            + rewrite app_nil_r. match goal with |- exists l, _ ++ utf8 (program_error e ?r) = _ => destruct (PE e r) as [l' ->]; rewrite app_assoc; eexists; reflexivity end.
            + rewrite !app_assoc. eexists. reflexivity. }
        destruct X as [->|[l ->]].
        + rewrite app_nil_r. match goal with |- exists l, _ ++ utf8 (program_error e ?r) = _ => destruct (PE e r) as [l' ->]; rewrite app_assoc; eexists; reflexivity end.
        + rewrite !app_assoc. eexists. reflexivity. }
  destruct (text_newline _ _ _ _ Ea) as [t ->].
  destruct (prints_write e f full output t o) as (g & m' & r & E & P & S & F); [intros X; apply (N input); rewrite <- X; exact A | exact H|].
  eapply (G _ m' g r).
  - intros room' out. unfold and_then. rewrite R1. cbn [length]. rewrite Nat.sub_0_r, app_nil_r. cbn [Nat.leb].
    rewrite R2. cbn [length]. rewrite Nat.sub_0_r, app_nil_r. cbn [Nat.leb]. rewrite T. cbn [length Nat.leb].
    rewrite Nat.sub_0_r, app_nil_r. apply E.
  - exact P.
  - exact S.
  - exact F.
  - unfold write_output, fail in H. cbv zeta in H. destruct (str_eqb output (u "-")).
    + destruct (e_write_error e) as [[re n]|]; injection H as <-; cbn [o_stdout].
      * right. rewrite (utf8_app (program_error _ _)). match goal with |- exists l, _ ++ _ ++ utf8 (program_error e ?r) = _ => destruct (PE e r) as [l' ->]; rewrite !app_assoc; eexists; reflexivity end.
      * right. rewrite utf8_newline. eauto.
    + destruct (e_create_error e); [|destruct (e_write_error e) as [[re n]|]]; injection H as <-; cbn [o_stdout]; auto;
        right; rewrite utf8_app; match goal with |- exists l, _ ++ utf8 (program_error e ?r) = _ => destruct (PE e r) as [l' ->]; rewrite !app_assoc; eexists; reflexivity end.
Qed.
