(** * PropIo: property C71, with instances. *)

From Verif Require Import Base Text U12 Location Token Scanner Parser Directive DataRange Assembler IHex Main MainIO
  SpecUtf8 SpecLex SpecGrammar SpecLayout SpecHex SpecTool SpecOut BaseFacts LexTheorems ParseProofs
  UtfProofs HexProofs MainProofs IoProofs PropOutput.
Open Scope N_scope.

(** ** C71: a standard output which cannot be written.

    Throughout, the standard output takes [room] bytes and then no more.  Where the result
    is to go to the standard output, the environment of [main] must not name a failure to
    write it: the device decides. *)
Definition device_decides (e : env) : Prop :=
  forall input, asks e input (u "-") -> e_write_error e = None.

(** What comes out is what would come out otherwise, as far as it fits; the files are the
    same; and the status is 101, that of a panic, exactly when a complete line was lost. *)
Theorem C71_exact : forall e full f o lines room, device_decides e ->
  main e f = Done o -> complete_lines (o_stdout o) lines ->
  o_stdout (process (main_io e full) room f) = firstn room (o_stdout o) /\
  o_exit (process (main_io e full) room f) = (if Nat.leb (length lines) room then o_exit o else 101) /\
  forall p, o_fs (process (main_io e full) room f) p = o_fs o p.
Proof. exact process_main. Qed.
Print Assumptions C71_exact.

(** With enough room the run is the one of the other properties. *)
Theorem C71_enough : forall e full f o room, device_decides e -> main e f = Done o ->
  (length (o_stdout o) <= room)%nat ->
  o_stdout (process (main_io e full) room f) = o_stdout o /\
  o_exit (process (main_io e full) room f) = o_exit o /\
  forall p, o_fs (process (main_io e full) room f) p = o_fs o p.
Proof.
  intros e full f o room N H R. destruct (complete_exists (o_stdout o)) as [lines C].
  destruct (process_main e full f o lines room N H C) as (S & X & F). rewrite S, X.
  split; [apply firstn_all2; exact R|]. split; [|exact F].
  destruct C as (rest & E & _). rewrite E, app_length in R.
  replace (Nat.leb _ _) with true by (symmetry; apply Nat.leb_le; lia). reflexivity.
Qed.
Print Assumptions C71_enough.

(** A run which assembles a file and ends with status 0 has delivered all of its result,
    to the file or to the standard output. *)
Theorem C71_success : forall e full f input output room, device_decides e -> asks e input output ->
  o_exit (process (main_io e full) room f) = 0 ->
  exists s rs text, reads e f input s /\ compiles input s rs /\ ihex_representation rs = Done text /\
    if str_eqb output (u "-")
    then o_stdout (process (main_io e full) room f) = text /\
         forall p, o_fs (process (main_io e full) room f) p = f p
    else o_stdout (process (main_io e full) room f) = [] /\
         o_fs (process (main_io e full) room f) output = Some text /\
         forall p, p <> output -> o_fs (process (main_io e full) room f) p = f p.
Proof.
  intros e full f input output room N A X0. destruct (main_total e f) as [o H].
  destruct (complete_exists (o_stdout o)) as [lines C].
  destruct (process_main e full f o lines room N H C) as (S & X & F). rewrite X in X0.
  destruct (Nat.leb (length lines) room) eqn:El; [|discriminate].
  assert (Y : exists s rs, reads e f input s /\ compiles input s rs).
  { unfold main in H. pose proof A as A'. destruct A' as (m & Em & Hh & Hv & Hf & Ho). rewrite Em, Hh, Hv, Hf in H. cbv zeta in H.
    rewrite <- Ho in H. unfold assemble_file, fail in H.
    destruct (read_input_spec e f input) as [(s & E & R)|(msg & E & _)]; rewrite E in H; [|injection H as <-; discriminate].
    destruct (assemble_text_spec e input s (reads_scalar _ _ _ _ R)) as [(t & rs & Et & Cc & _)|(msg & Et & _)];
      rewrite Et in H; cbn [bind] in H; [|injection H as <-; discriminate].
    exists s, rs. auto. }
  destruct Y as (s & rs & R & Cc). destruct (main_writes e f input output s rs A R Cc) as (text & Eh & _ & M).
  exists s, rs, text. split; [exact R|]. split; [exact Cc|]. split; [exact Eh|]. rewrite S. rewrite M in H.
  destruct (hex_newline _ _ Eh) as [t Et].
  destruct (str_eqb output (u "-")) eqn:Ep.
  - apply str_eqb_eq in Ep. subst output. rewrite (N input A) in H. injection H as <-. cbn [o_stdout o_fs] in *.
    split; [|exact F]. apply firstn_all2. subst text.
    destruct (cut_lines_spec _ _ C) as (rest & E1 & E2). rewrite cut_lines_newline in E2. injection E2 as <- <-.
    apply Nat.leb_le in El. exact El.
  - destruct (e_create_error e); [injection H as <-; discriminate|].
    destruct (e_write_error e) as [[r n]|]; injection H as <-; [discriminate|]. cbn [o_stdout o_fs] in *.
    split; [apply firstn_nil|]. split.
    + rewrite F. unfold fs_set. rewrite str_eqb_refl. reflexivity.
    + intros p D. rewrite F. unfold fs_set. apply str_eqb_neq in D. rewrite D. reflexivity.
Qed.
Print Assumptions C71_success.

(** It does not matter that [println!] writes a line in several pieces. *)
Lemma cut_app : forall x y l r l' r', cut_lines x = (l, r) -> cut_lines (r ++ y) = (l', r') ->
  cut_lines (x ++ y) = (l ++ l', r').
Proof.
  intros x y l r l' r' H H'.
  destruct (complete_exists x) as [a Ca]. destruct (cut_lines_spec _ _ Ca) as (b & E & Ec). rewrite H in Ec.
  injection Ec as <- <-. destruct (complete_exists (r ++ y)) as [a' Ca']. destruct (cut_lines_spec _ _ Ca') as (b' & E' & Ec').
  rewrite H' in Ec'. injection Ec' as <- <-.
  assert (C : complete_lines (x ++ y) (l ++ l')).
  { destruct Ca' as (b' & Eb & Nb & Hl). exists b'. split; [rewrite E, <- !app_assoc, Eb; reflexivity|]. split; [exact Nb|].
    destruct Hl as [->|[k ->]].
    - rewrite app_nil_r. destruct Ca as (_ & _ & _ & Hl). exact Hl.
    - right. exists (l ++ k). apply app_assoc. }
  destruct (cut_lines_spec _ _ C) as (b'' & E'' & Ec''). rewrite Ec''. f_equal.
  apply (app_inv_head (l ++ l')). rewrite <- E'', E, <- !app_assoc, E'. reflexivity.
Qed.

Theorem C71_pieces : forall a b w, and_then (say a) (fun _ => say b) w = say (a ++ b) w.
Proof.
  intros a b [room out held f]. unfold and_then, say, put. cbn [w_held]. rewrite utf8_app, app_assoc.
  destruct (cut_lines (held ++ utf8 a)) as [l r] eqn:E. unfold deliver at 1. cbn [w_room w_out w_held w_fs].
  destruct (Nat.leb (length l) room) eqn:El; cbn [hold w_room w_out w_held w_fs].
  - destruct (cut_lines (r ++ utf8 b)) as [l' r'] eqn:E'. rewrite (cut_app _ _ _ _ _ _ E E').
    unfold deliver, hold. cbn [w_room w_out w_held w_fs]. rewrite app_length. apply Nat.leb_le in El.
    destruct (Nat.leb (length l') (room - length l)) eqn:Er.
    + apply Nat.leb_le in Er. replace (Nat.leb (length l + length l') room) with true by (symmetry; apply Nat.leb_le; lia).
      rewrite app_assoc. replace (room - length l - length l')%nat with (room - (length l + length l'))%nat by lia. reflexivity.
    + apply Nat.leb_gt in Er. replace (Nat.leb (length l + length l') room) with false by (symmetry; apply Nat.leb_gt; lia).
      rewrite firstn_app, (firstn_all2 l) by lia. rewrite app_assoc. reflexivity.
  - destruct (cut_lines (r ++ utf8 b)) as [l' r'] eqn:E'. rewrite (cut_app _ _ _ _ _ _ E E').
    unfold deliver, hold. cbn [w_room w_out w_held w_fs]. rewrite app_length. apply Nat.leb_gt in El.
    replace (Nat.leb (length l + length l') room) with false by (symmetry; apply Nat.leb_gt; lia).
    rewrite firstn_app. replace (room - length l)%nat with 0%nat by lia.
    rewrite firstn_O, app_nil_r. reflexivity.
Qed.
Print Assumptions C71_pieces.

(** So the tool can panic after all (C43): on a full standard output, when it has to
    report an error, and when it is to write its result there. *)
Definition stdout_env : env :=
  mk_env (u "c8s") (Ok (mk_matches false false (Some (u "-")) [u "in.s"])) (fun s => s)
         None None None None (u "not found") (u "not UTF-8").

Theorem C71_panics : exists e full room f input output,
  asks e input output /\ device_decides e /\
  o_exit (process (main_io e full) room f) = 101.
Proof.
  exists stdout_env, (u "No space left on device"), 0%nat, (sample_fs (u "start: .db 1")), (u "in.s"), (u "-").
  split; [eexists; split; [reflexivity|]; repeat split; reflexivity|].
  split; [intros input A; reflexivity|]. vm_compute. reflexivity.
Qed.
Print Assumptions C71_panics.

(** A one byte program, on a standard output which takes everything, and on one which takes
    20 bytes: the first record, of 14 bytes and a newline, and some of the second. *)
Example C71_instance :
  device_decides stdout_env /\ asks stdout_env (u "in.s") (u "-") /\
  let run room := process (main_io stdout_env (u "No space left on device")) room (sample_fs (u "start: .db 1" ++ [10])) in
  o_stdout (run 100%nat) = u ":0100000001FE" ++ [10] ++ u ":00000001FF" ++ [10] /\ o_exit (run 100%nat) = 0 /\
  o_stdout (run 20%nat) = u ":0100000001FE" ++ [10] ++ u ":00000" /\ o_exit (run 20%nat) = 101.
Proof.
  split; [intros input A; reflexivity|]. split; [eexists; split; [reflexivity|]; repeat split; reflexivity|].
  cbv zeta. split; [vm_compute; reflexivity|]. split; [vm_compute; reflexivity|]. split; vm_compute; reflexivity.
Qed.
