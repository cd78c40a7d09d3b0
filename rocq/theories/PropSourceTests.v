(** * PropSourceTests: the project's own unit tests pass when their text is run.

    Claim C114 of properties.jsonl.  The tests are read from the files and run by the
    machine that runs the files themselves (SrcTests.v).  The reader and the machine were
    written for the code, the tests were written by the authors of c8s for the compiled
    program: that they all end as their authors expect is evidence, from outside the
    model, that the machine does what Rust does.

    One test is left out: opcode.rs:258 goes through all but one of the 65536 words, and
    more is proved of the same functions, for every word, in PropSource.v (C107). *)

From Coq Require Import String Ascii List NArith Bool FMapPositive.
From Verif Require Import Base SrcText SrcTestText SrcLex SrcParse SrcRun SrcCode SrcTests PropSourceMain.
Import ListNotations.
Open Scope string_scope.
Open Scope N_scope.
Open Scope list_scope.

(** The test that is left out *)
Definition too_long : string := "test_from_instruction_round_trips".

(** Whether a test ends as it should: with a panic when [should_panic] is written above
    it, and without one when it is not *)
Definition as_expected (panics : bool) (r : ending) : bool :=
  match r with Passed => negb panics | Panicked _ => panics | Unfinished _ => false end.

(** The tests of a file that do not end as they should *)
Definition failing (p : program) (ts : list tok) : list string :=
  flat_map (fun t => if String.eqb (fst t) too_long then []
                     else if as_expected (snd t) (run_test p (fst t)) then [] else [fst t])
           (named false ts).

(** The same for a program and one of its files: its tests, and those that fail *)
Definition report (p : program) (mf : string * list string) : option (nat * list string) :=
  match tokens (snd mf) with
  | Some ts =>
      match with_tests p (fst mf) ts with
      | Some q => Some (length (named false ts), failing q ts)
      | None => None
      end
  | None => None
  end.

Lemma reports : map (report c8s) unit_tests =
  map (fun n => Some (S n, [])) [1; 28; 7; 4; 5; 0; 16; 11; 5; 5]%nat.
Proof. vm_compute. reflexivity. Qed.

Lemma none_failing p ts : failing p ts = [] ->
  forall f panics, In (f, panics) (named false ts) -> f <> too_long ->
  as_expected panics (run_test p f) = true.
Proof.
  unfold failing. induction (named false ts) as [|[g b] l IH]; [intros _ f panics []|].
  cbn [flat_map fst snd]. intros H f panics I N.
  apply app_eq_nil in H. destruct H as [H1 H2].
  destruct I as [I|I]; [|exact (IH H2 f panics I N)].
  injection I as -> ->.
  destruct (String.eqb_spec f too_long) as [E|_]; [contradiction|].
  destruct (as_expected panics (run_test p f)); [reflexivity|discriminate].
Qed.

Lemma report_inv (o : option (list tok)) (w : list tok -> option program) n :
  match o with
  | Some ts => match w ts with Some q => Some (length (named false ts), failing q ts) | None => None end
  | None => None
  end = Some (S n, []) ->
  exists ts q, o = Some ts /\ w ts = Some q /\ named false ts <> [] /\ failing q ts = [].
Proof.
  destruct o as [ts|]; [|discriminate]. destruct (w ts) as [q|] eqn:E; [|discriminate].
  intros H. exists ts, q. split; [reflexivity|]. split; [exact E|].
  assert (X : forall (k : nat) (l : list string), Some (k, l) = Some (S n, []) -> k = S n /\ l = []).
  { intros k l Z. injection Z as -> ->. split; reflexivity. }
  destruct (X _ _ H) as [L F]. split; [intro Z; rewrite Z in L; discriminate|exact F].
Qed.

Lemma expected_inv panics r : as_expected panics r = true ->
  if panics then exists why, r = Panicked why else r = Passed.
Proof.
  destruct r as [|why|s]; destruct panics; try discriminate; [reflexivity|].
  intros _. exists why. reflexivity.
Qed.

Lemma of_report p md text n : report p (md, text) = Some (S n, []) ->
  exists ts q,
    tokens text = Some ts /\ with_tests p md ts = Some q /\ named false ts <> [] /\
    forall f panics, In (f, panics) (named false ts) -> f <> too_long ->
      if panics then exists why, run_test q f = Panicked why else run_test q f = Passed.
Proof.
  intros R. destruct (report_inv (tokens text) (with_tests p md) n R) as (ts & q & H1 & H2 & H3 & F).
  exists ts, q. split; [exact H1|]. split; [exact H2|]. split; [exact H3|].
  intros f panics J N. exact (expected_inv panics _ (none_failing q ts F f panics J N)).
Qed.

Lemma of_reports (g : string * list string -> option (nat * list string)) l :
  forall ns, map g l = map (fun n => Some (S n, [])) ns ->
  forall md text, In (md, text) l -> exists n, g (md, text) = Some (S n, []).
Proof.
  induction l as [|x l IH]; intros ns H md text I; [destruct I|].
  destruct ns as [|n ns]; [discriminate|]. cbn [map] in H.
  injection H as H1 H2.
  destruct I as [I|I]; [rewrite I in H1; exists n; exact H1|exact (IH ns H2 md text I)].
Qed.

(** Every unit test of every file, but the one left out, when its text is read with the
    text of the files and run: it ends, without a panic unless it is to end with one. *)
Theorem C114_unit_tests :
  forall md text, In (md, text) unit_tests ->
  exists ts p,
    tokens text = Some ts /\ with_tests c8s md ts = Some p /\ named false ts <> [] /\
    forall f panics, In (f, panics) (named false ts) -> f <> too_long ->
      if panics then exists why, run_test p f = Panicked why else run_test p f = Passed.
Proof.
  intros md text I. destruct (of_reports (report c8s) unit_tests _ reports md text I) as [n R].
  exact (of_report c8s md text n R).
Qed.
Print Assumptions C114_unit_tests.

(** What is read as a test: 92 functions, of which these are to panic *)
Example C114_instance :
  map (fun mf => option_map (fun ts => (length (named false ts), map fst (filter snd (named false ts))))
                            (tokens (snd mf))) unit_tests
  = [ Some (2, []); Some (29, []); Some (8, []); Some (5, []);
      Some (6, ["test_new_asserts_on_zero_line"; "test_new_asserts_on_zero_length";
                "test_new_asserts_on_zero_location"]);
      Some (1, []); Some (17, []);
      Some (12, ["test_error_display_unexpected_eof_panics_on_zero_expectations";
                 "test_error_display_unexpected_token_error_panics_on_zero_expectations";
                 "test_error_display_unexpected_token_panics_on_zero_expectations"]);
      Some (6, []);
      Some (6, ["test_ihex_representation_of_data_ranges_panics_when_overlapping"]) ]%nat.
Proof. vm_compute. reflexivity. Qed.

(** A program with line [n] of the file [f] replaced *)
Definition replaced (n : nat) (by_ : string) (l : list string) : list string :=
  firstn (pred n) l ++ by_ :: skipn n l.
Definition with_line (f : string) (n : nat) (by_ : string) : program :=
  match read_files (map (fun mf => if String.eqb (fst mf) f then (f, replaced n by_ (snd mf)) else mf) files) with
  | Some p => p
  | None => mk_program (PositiveMap.empty node) [] [] []
  end.

(** The tests see that 'ret' has become 'cls' in the printed form: *)
Example C114_instance_seen :
  nth (pred 119) opcode_rs "" = "      Opcode::RET                                                     => { format!(""ret"") }" /\
  map (report (with_line "opcode" 119 "      Opcode::RET                                                     => { format!(""cls"") }")) (firstn 2 unit_tests)
  = [Some (2, ["test_to_assembly_string"]); Some (29, [])]%nat.
Proof. split; [reflexivity|]. vm_compute. reflexivity. Qed.

(** They do not see that everything before the last '.org' is left out of the object
    file, which the theorems rule out (C112_file says what is written). *)
Definition losing_tool : program :=
  Eval vm_compute in with_line "assembler" 213 "".
Definition two_parts : str := u ".org $200" ++ [10] ++ u "cls" ++ [10] ++ u ".org $300" ++ [10] ++ u "ret" ++ [10].
Example C114_instance_unseen :
  nth (pred 213) assembler_rs "" = "              data_ranges.push(previous_range);" /\
  map (report losing_tool) unit_tests = map (report c8s) unit_tests /\
  ends losing_tool [u "a.s"] two_parts 0 (u "a.hex")
  = Some ([], 0, Some (u ":0203000000EE0D" ++ [10] ++ u ":00000001FF" ++ [10])) /\
  ends c8s [u "a.s"] two_parts 0 (u "a.hex")
  = Some ([], 0, Some (u ":0202000000E01C" ++ [10] ++ u ":0203000000EE0D" ++ [10] ++ u ":00000001FF" ++ [10])).
Proof.
  split; [reflexivity|]. split; [rewrite reports; vm_compute; reflexivity|].
  split; vm_compute; reflexivity.
Qed.
