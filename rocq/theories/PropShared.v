(** * PropShared: property C92, with instances. *)

From Verif Require Import Base Text Main Calls Shared SpecUtf8 SpecHex SpecTool SpecCalls SpecShared BaseFacts MainProofs CallsProofs
  PropText PropOutput SharedProofs.
Open Scope string_scope.
Open Scope list_scope.
Open Scope N_scope.

(** ** C92: several runs at once.

    [happens zero runs f0 tr f]: the runs were started with the files [f0], their calls came in the order [tr], and the
    files are now [f].  If no run writes what another one reads or writes, each does what it would do alone on the files
    [f0], in whatever order the calls come: what it prints, its status and the file it makes. *)
Theorem C92_alone : forall zero runs f0 tr f i e out status file, separate runs -> happens zero runs f0 tr f ->
  nth_error runs i = Some e -> process_after e zero (calls_of i tr) = Some (Over out status file) ->
  (exists opening reading creating writing,
     main (with_errors e opening reading creating writing) f0 = Done (mk_outcome out status (with_file f0 file))) /\
  (untroubled (calls_of i tr) -> main (with_errors e None None None None) f0 = Done (mk_outcome out status (with_file f0 file))) /\
  (forall path bytes, file = Some (path, bytes) -> f path = Some bytes).
Proof.
  intros zero runs f0 tr f i e out status file Sep H N P.
  destruct (all_in_order _ _ _ _ _ Sep H) as [A _]. destruct (A i e N) as (s & P' & R & O). rewrite P in P'. injection P' as <-.
  pose proof (process_sound _ _ _ _ P) as (S1 & S2 & S3). split; [|split].
  - destruct R as [R|(_ & -> & R)]; [|exact R]. destruct S1 as (oe & re & ce & we & S1). exists oe, re, ce, we. exact (S1 f0 R).
  - intros U. destruct R as [R|(X & _)]; [exact (S2 U f0 R) | contradiction (X U)].
  - intros path bytes ->. destruct S3 as (rest & (input & s & t & As & D & _) & _). exact (O input path As D).
Qed.
Print Assumptions C92_alone.

(** At every moment an output file holds what its run has written, and is as it was before the run made it; files that
    are not written stay the same. *)
Theorem C92_moment : forall zero runs f0 tr f i e input output, separate runs -> happens zero runs f0 tr f ->
  nth_error runs i = Some e -> asks e input output -> output <> u "-" ->
  exists s, process_after e zero (calls_of i tr) = Some s /\
    match made_so_far s with
    | Some (path, bytes) => path = output /\ f output = Some bytes
    | None => f output = f0 output
    end.
Proof.
  intros zero runs f0 tr f i e input output Sep H N As D.
  destruct (all_in_order _ _ _ _ _ Sep H) as [A _]. destruct (A i e N) as (s & P & _ & O). exists s. split; [exact P|].
  specialize (O input output As D). unfold output_is in O. pose proof (process_sound _ _ _ _ P) as S.
  destruct (made_so_far s) as [[path bytes]|] eqn:M; [|exact O]. split; [|exact O].
  destruct s as [i' o|i' o got|o r|o w r|out st file|]; try discriminate M; cbn [made_so_far] in M.
  - injection M as <- <-. destruct S as ((i' & s & t & As' & _) & _). apply (asks_det _ _ _ _ _ As As').
  - subst file. destruct S as (_ & _ & rest & (i' & s & t & As' & _) & _). apply (asks_det _ _ _ _ _ As As').
Qed.
Print Assumptions C92_moment.

Theorem C92_unwritten : forall zero runs f0 tr f e input output, separate runs -> happens zero runs f0 tr f ->
  In e runs -> asks e input output -> ~ writes runs input -> f input = f0 input.
Proof.
  intros zero runs f0 tr f e input output Sep H I As Nw. destruct (all_in_order _ _ _ _ _ Sep H) as [_ B].
  exact (B e input I (proj1 (asks_names _ _ _ As)) Nw).
Qed.
Print Assumptions C92_unwritten.

(** The order of the calls does not matter. *)
Theorem C92_order : forall zero zero' runs f0 tr tr' f f' i e out out' status status' file file', separate runs ->
  happens zero runs f0 tr f -> happens zero' runs f0 tr' f' -> nth_error runs i = Some e ->
  process_after e zero (calls_of i tr) = Some (Over out status file) -> untroubled (calls_of i tr) ->
  process_after e zero' (calls_of i tr') = Some (Over out' status' file') -> untroubled (calls_of i tr') ->
  out = out' /\ status = status' /\
  forall input output, asks e input output -> output <> u "-" -> f output = f' output.
Proof.
  intros zero zero' runs f0 tr tr' f f' i e out out' status status' file file' Sep H H' N P U P' U'.
  destruct (C92_alone _ _ _ _ _ _ _ _ _ _ Sep H N P) as (_ & M & _). specialize (M U).
  destruct (C92_alone _ _ _ _ _ _ _ _ _ _ Sep H' N P') as (_ & M' & _). specialize (M' U').
  rewrite M in M'. injection M' as <- <- E. split; [reflexivity|]. split; [reflexivity|]. intros input output A D.
  destruct (C92_moment _ _ _ _ _ _ _ _ _ Sep H N A D) as (s & Q & F). rewrite P in Q. injection Q as <-.
  destruct (C92_moment _ _ _ _ _ _ _ _ _ Sep H' N A D) as (s & Q' & F'). rewrite P' in Q'. injection Q' as <-.
  apply (f_equal (fun g => g output)) in E. cbn [made_so_far] in F, F'.
  assert (G : forall g fl, match fl with Some (path, bytes) => path = output /\ g output = Some bytes | None => g output = f0 output end ->
    with_file f0 fl output = g output).
  { intros g [[p b]|] X; cbn [with_file]; [|symmetry; exact X]. destruct X as [-> X]. rewrite fs_set_same. symmetry. exact X. }
  rewrite <- (G f file F), <- (G f' file' F'). exact E.
Qed.
Print Assumptions C92_order.

(** Two runs, each with its own files. *)
Definition run_of (input : string) (output : option str) : env :=
  mk_env (u "c8s") (Ok (mk_matches false false output [u input])) (fun b => b) None None None None [] [].
Definition two_files : fs := fun p =>
  if str_eqb p (u "a.s") then Some (utf8 (lines [".db 1"; ".org 16"; ".db 2"]))
  else if str_eqb p (u "b.s") then Some (utf8 (lines [".db 3"; ".org 16"; ".db 4"])) else None.
Definition a_text : list byte := utf8 (lines [":0100000001FE"; ":0100100002ED"; ":00000001FF"]).
Definition b_text : list byte := utf8 (lines [":0100000003FC"; ":0100100004EB"; ":00000001FF"]).

Definition read_both : list event :=
  [Call 0 Opened; Call 1 Opened; Call 0 (Got (utf8 (lines [".db 1"; ".org 16"; ".db 2"])));
   Call 1 (Got (utf8 (lines [".db 3"; ".org 16"; ".db 4"]))); Call 0 (Got []); Call 1 (Got []); Call 1 Opened; Call 0 Opened].
Definition write_both : list event := [Call 0 (Took 14); Call 1 (Took 40); Call 0 (Took 26)].

Definition apart_runs : list env := [run_of "a.s" (Some (u "a.hex")); run_of "b.s" (Some (u "b.hex"))].

Example C92_instance : separate apart_runs /\ exists f, happens [] apart_runs two_files (read_both ++ write_both) f /\
  process_after (run_of "a.s" (Some (u "a.hex"))) [] (calls_of 0 (read_both ++ write_both)) = Some (Over [] 0 (Some (u "a.hex", a_text))) /\
  process_after (run_of "b.s" (Some (u "b.hex"))) [] (calls_of 1 (read_both ++ write_both)) = Some (Over [] 0 (Some (u "b.hex", b_text))) /\
  untroubled (calls_of 0 (read_both ++ write_both)) /\ f (u "a.hex") = Some a_text /\ f (u "b.hex") = Some b_text.
Proof.
  split.
  - intros i j e e' input output input' output' D N N' A A' Do.
    assert (X : forall k x, nth_error apart_runs k = Some x -> forall p q, asks x p q ->
      (k = 0%nat /\ p = u "a.s" /\ q = u "a.hex") \/ (k = 1%nat /\ p = u "b.s" /\ q = u "b.hex")).
    { intros k x K p q (m & E & _ & _ & F & O). destruct k as [|[|k]]; cbn in K;
        [injection K as <- | injection K as <- | destruct k; discriminate K]; cbn in E; injection E as <-; cbn in F; injection F as <-; auto. }
    destruct (X i e N _ _ A) as [(-> & -> & ->)|(-> & -> & ->)], (X j e' N' _ _ A') as [(-> & -> & ->)|(-> & -> & ->)];
      try congruence; split; intros Z; discriminate Z.
  - destruct (play [] apart_runs [] two_files (read_both ++ write_both)) as [f|] eqn:P.
    + exists f. split; [exact (play_happens _ _ _ _ [] _ _ (h_start _ _ _) P)|].
      split; [vm_compute; reflexivity|]. split; [vm_compute; reflexivity|].
      split; [apply untroubled_b_ok; vm_compute; reflexivity|].
      pose proof (f_equal (fun o => match o with Some g => g (u "a.hex") | None => None end) P) as Fa.
      pose proof (f_equal (fun o => match o with Some g => g (u "b.hex") | None => None end) P) as Fb.
      cbv beta in Fa, Fb. rewrite <- Fa, <- Fb. split; vm_compute; reflexivity.
    + exfalso. apply (f_equal (fun o => match o with Some g => true | None => false end)) in P. vm_compute in P. discriminate P.
Qed.

(** Between the reading and the writing the file is there and empty. *)
Example C92_instance_moment : exists f, happens [] apart_runs two_files read_both f /\
  nth_error apart_runs 0 = Some (run_of "a.s" (Some (u "a.hex"))) /\
  asks (run_of "a.s" (Some (u "a.hex"))) (u "a.s") (u "a.hex") /\ u "a.hex" <> u "-" /\ f (u "a.hex") = Some [] /\ two_files (u "a.hex") = None.
Proof.
  destruct (play [] apart_runs [] two_files read_both) as [f|] eqn:P.
  - exists f. split; [exact (play_happens _ _ _ _ [] _ _ (h_start _ _ _) P)|]. split; [reflexivity|].
    split; [eexists; split; [reflexivity|]; repeat split; reflexivity|]. split; [discriminate|].
    pose proof (f_equal (fun o => match o with Some g => g (u "a.hex") | None => None end) P) as Fa.
    cbv beta in Fa. rewrite <- Fa. split; vm_compute; reflexivity.
  - exfalso. apply (f_equal (fun o => match o with Some g => true | None => false end)) in P. vm_compute in P. discriminate P.
Qed.

(** The default output is the same file for all: two runs in one directory, without -o.  Both may end with status 0 and
    leave a HEX file which is correct in itself and the program of neither. *)
Definition default_runs : list env := [run_of "a.s" None; run_of "b.s" None].

Theorem C92_default : exists f bytes image a b, happens [] default_runs two_files (read_both ++ write_both) f /\
  process_after (run_of "a.s" None) [] (calls_of 0 (read_both ++ write_both)) = Some (Over [] 0 (Some (u "a.hex", a_text))) /\
  process_after (run_of "b.s" None) [] (calls_of 1 (read_both ++ write_both)) = Some (Over [] 0 (Some (u "a.hex", b_text))) /\
  untroubled (calls_of 0 (read_both ++ write_both)) /\ untroubled (calls_of 1 (read_both ++ write_both)) /\
  f (u "a.hex") = Some bytes /\ read_hex bytes = Some image /\
  read_hex a_text = Some a /\ read_hex b_text = Some b /\ image <> a /\ image <> b.
Proof.
  destruct (play [] default_runs [] two_files (read_both ++ write_both)) as [f|] eqn:P.
  - exists f. eexists. eexists. eexists. eexists. split; [exact (play_happens _ _ _ _ [] _ _ (h_start _ _ _) P)|].
    split; [vm_compute; reflexivity|]. split; [vm_compute; reflexivity|].
    split; [apply untroubled_b_ok; vm_compute; reflexivity|].
    split; [apply untroubled_b_ok; vm_compute; reflexivity|].
    pose proof (f_equal (fun o => match o with Some g => g (u "a.hex") | None => None end) P) as Fa. cbv beta in Fa. rewrite <- Fa.
    split; [vm_compute; reflexivity|]. split; [vm_compute; reflexivity|]. split; [vm_compute; reflexivity|].
    split; [vm_compute; reflexivity|]. split; discriminate.
  - exfalso. apply (f_equal (fun o => match o with Some g => true | None => false end)) in P. vm_compute in P. discriminate P.
Qed.
Print Assumptions C92_default.
