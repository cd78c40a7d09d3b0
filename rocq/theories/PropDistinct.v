(** * PropDistinct: C74, different errors have different messages. *)

From Verif Require Import Base Text U12 Location Token Scanner Parser Directive Instruction DataRange Assembler IHex
  SpecUtf8 SpecOpcode SpecRefusal SpecLayout SpecWrite SpecCode SpecDiag SpecDistinct Main BaseFacts DiagProofs DistinctProofs PropOutput.
Open Scope string_scope.
Open Scope list_scope.
Open Scope N_scope.

(** Two texts get the same message exactly if they are refused for the same reason at the same
    place, up to the three details [said] drops. *)
Theorem C74_distinct : forall file s s' r r', Forall scalar s -> Forall scalar s' -> refused file s r -> refused file s' r' ->
  (message r = message r' <-> said r = said r').
Proof.
  intros file s s' r r' F F' R R'. split.
  - apply (message_inj file); [exact (refused_reason _ _ _ F R) | exact (refused_reason _ _ _ F' R')].
  - intros E. rewrite <- (message_said r), E. apply message_said.
Qed.
Print Assumptions C74_distinct.

(** The operands an instruction was refused for can be read off the message. *)
Theorem C74_operands : forall fs fs', Forall writable_field fs -> Forall writable_field fs' ->
  listed fs = listed fs' -> fs = fs'.
Proof. apply listed_inj. Qed.
Print Assumptions C74_operands.

(** What the tool prints for a text it does not assemble: the message of the refusal, or the
    report of the overlapping ranges. *)
Lemma printed : forall e file s m, Forall scalar s -> assemble_text e file s = Done (Err m) ->
  (exists r x, refused file s r /\ message r = Done (x ++ u ".") /\ m = (x ++ u ".") ++ [10]) \/
  (exists p rs x y, parsed file s p /\ assemble p = Done (Ok rs) /\
     overlap_report e (find_overlapping_ranges rs) = Done x /\ x = y ++ u ")" ++ [10] /\
     m = program_error e (u "Input file specifies overlapping data ranges.")
           ++ program_error e (u "Data from one section has overflowed into the adjacent.") ++ x).
Proof.
  intros e file s m F H. unfold assemble_text in H.
  destruct (scan file s) as [ts|] eqn:S; [|discriminate H]. cbn [bind] in H.
  destruct (parse ts) as [[p|err]|] eqn:P; [| |discriminate H]; cbn [bind] in H.
  - assert (PS : parsed file s p) by (exists ts; split; assumption).
    destruct (assemble p) as [[rs|err]|] eqn:A; [| |discriminate H]; cbn [bind] in H.
    + destruct (Nat.ltb 0 (length (find_overlapping_ranges rs))) eqn:L.
      * destruct (overlap_report e (find_overlapping_ranges rs)) as [x|] eqn:O; [|discriminate H].
        assert (N : find_overlapping_ranges rs <> []) by (intros N; rewrite N in L; discriminate L).
        destruct (report_bracket _ _ _ N O) as (y & Y). right. exists p, rs, x, y.
        split; [exact PS|]. split; [exact A|]. split; [exact O|]. split; [exact Y|]. cbn [bind] in H.
        assert (I : forall a b : str, Done (Err (A := str) a) = Done (Err b) -> a = b) by (intros a b I; injection I as I; exact I).
        apply I in H. symmetry. exact H.
      * destruct (ihex_representation rs); discriminate H.
    + left. assert (R : refused file s (Semantic err)) by (exists p; split; assumption).
      destruct (reason_full_stop file _ (refused_reason _ _ _ F R)) as (x & E). exists (Semantic err), x.
      split; [exact R|]. split; [exact E|]. cbn [message] in E. injection E as E. rewrite E in H. injection H as H.
      symmetry. exact H.
  - left. assert (R : refused file s (Syntax err)) by (exists ts; split; assumption).
    destruct (reason_full_stop file _ (refused_reason _ _ _ F R)) as (x & E). exists (Syntax err), x.
    split; [exact R|]. split; [exact E|]. cbn [message] in E. rewrite E in H. cbn [bind] in H. injection H as H.
    symmetry. exact H.
Qed.

(** So from what the tool prints one can tell why it refused the text. *)
Theorem C74_text : forall e file s s' m, Forall scalar s -> Forall scalar s' ->
  assemble_text e file s = Done (Err m) -> assemble_text e file s' = Done (Err m) ->
  (exists r r', refused file s r /\ refused file s' r' /\ said r = said r') \/
  (exists p p' rs rs', parsed file s p /\ assemble p = Done (Ok rs) /\ parsed file s' p' /\ assemble p' = Done (Ok rs') /\
     said_ranges (find_overlapping_ranges rs) = said_ranges (find_overlapping_ranges rs')).
Proof.
  assert (D : forall a b x : str, x ++ u ")" ++ [10] <> (a ++ u ".") ++ [10]).
  { intros a b x E. rewrite (app_assoc x) in E. apply app_inj_tail in E. destruct E as [E _].
    apply app_inj_tail in E. destruct E as [_ E]. discriminate E. }
  intros e file s s' m F F' H H'.
  destruct (printed _ _ _ _ F H) as [(r & x & R & M & E)|(p & rs & x & y & P & A & O & Y & E)];
  destruct (printed _ _ _ _ F' H') as [(r' & x' & R' & M' & E')|(p' & rs' & x' & y' & P' & A' & O' & Y' & E')].
  - left. exists r, r'. split; [exact R|]. split; [exact R'|]. apply (C74_distinct file s s' r r' F F' R R').
    rewrite M, M'. rewrite E in E'. apply app_inj_tail in E'. destruct E' as [-> _]. reflexivity.
  - exfalso. rewrite E in E'. subst x'. rewrite !app_assoc in E'. symmetry in E'. rewrite <- (app_assoc _ (u ")")) in E'.
    apply D in E'; [exact E' | exact []].
  - exfalso. rewrite E' in E. subst x. rewrite !app_assoc in E. symmetry in E. rewrite <- (app_assoc _ (u ")")) in E.
    apply D in E; [exact E | exact []].
  - right. exists p, p', rs, rs'. split; [exact P|]. split; [exact A|]. split; [exact P'|]. split; [exact A'|].
    rewrite E in E'. apply app_inv_head, app_inv_head in E'. rewrite <- E' in O'. exact (report_inj _ _ _ _ O O').
Qed.
Print Assumptions C74_text.

(** Runs of the code. *)
Definition refusal_of (text : str) : option refusal :=
  match scan (u "f") text with
  | Done ts =>
      match parse ts with
      | Done (Ok p) => match assemble p with Done (Err e) => Some (Semantic e) | _ => None end
      | Done (Err e) => Some (Syntax e)
      | _ => None
      end
  | _ => None
  end.

Lemma refusal_refused : forall s r, refusal_of s = Some r -> refused (u "f") s r.
Proof.
  intros s r H. unfold refusal_of in H. destruct (scan (u "f") s) as [ts|] eqn:S; [|discriminate H].
  destruct (parse ts) as [[p|e]|] eqn:P; [| |discriminate H].
  - destruct (assemble p) as [[rs|e]|] eqn:A; [discriminate H| |discriminate H]. injection H as <-.
    exists p. split; [exists ts; split; assumption | exact A].
  - injection H as <-. exists ts. split; assumption.
Qed.

Definition printed_for (text : str) : option str :=
  match assemble_text sample_env (u "f") text with Done (Err m) => Some m | _ => None end.

(** Two texts refused for different reasons with the same message: the digits of the number are
    not said.  Another message says how many bytes a '.db' has. *)
Example C74_instance :
  (exists r r', refused (u "f") (u ".db %1000000000000") r /\ refused (u "f") (u ".db %1111111111111") r' /\
     r <> r' /\ said r = said r' /\ message r = message r') /\
  printed_for (u ".org $FFF" ++ [10] ++ u ".db 1, 2" ++ [10]) =
    Some (u "f:2:2-3: error: Directive (.db [2 bytes]) would cause the 12-bit address counter to overflow." ++ [10]).
Proof.
  split; [|vm_compute; reflexivity].
  destruct (refusal_of (u ".db %1000000000000")) as [r|] eqn:E; [|vm_compute in E; discriminate E].
  destruct (refusal_of (u ".db %1111111111111")) as [r'|] eqn:E'; [|vm_compute in E'; discriminate E'].
  exists r, r'. split; [apply refusal_refused; exact E|]. split; [apply refusal_refused; exact E'|].
  vm_compute in E, E'. injection E as <-. injection E' as <-.
  split; [discriminate|]. split; vm_compute; reflexivity.
Qed.
