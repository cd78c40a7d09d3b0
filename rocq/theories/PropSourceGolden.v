(** * PropSourceGolden: the programs in /repo/tests, assembled by the text of the source.

    Claim C114 of properties.jsonl, continued.  GoldenTests.v has the programs of
    /repo/tests and the object files next to them, which are the output of the real
    tool.  Here the text of the files of /repo is run by the machine of SrcRun.v from
    [main] on, as the tool 'c8s a.s', and writes the same object files. *)

From Coq Require Import String List NArith Bool.
From Verif Require Import Base Text Main MainIO GoldenTests SrcRun SrcCode SrcTool PropSourceMain PropSourceFindings.
Import ListNotations.
Open Scope string_scope.
Open Scope list_scope.
Open Scope N_scope.

(** A program and its object file *)
Definition small_programs : list (string * string) :=
  [ (src_test, hex_test); (src_test_constants, hex_test_constants);
    (src_test_special_instructions, hex_test_special_instructions) ].

(** The object files of these programs are those in /repo/tests, byte for byte; and the
    program whose '.equ' has no label is refused, though there is an object file of it in
    /repo/tests as well (see Findings.v). *)
Theorem C114_golden :
  (forall src hex, In (src, hex) small_programs -> makes (u src) (Some (u hex))) /\
  makes (u src_test_directives) None.
Proof.
  split.
  - intros src hex [E|[E|[E|[]]]]; injection E as <- <-; apply (seen_in 500 1000); vm_compute; reflexivity.
  - apply (seen_in 500 1000). vm_compute. reflexivity.
Qed.
Print Assumptions C114_golden.

(** The two larger programs: tests, whose evaluation is not part of the proof term (the
    independent checker has no virtual machine). *)
Definition written (src hex : string) : bool :=
  match drive c8s (some_host [u "a.s"]) 500 (N.to_nat 20000) (Call "main" [] [])
              (mk_world 1000 [] [] (some_files (utf8 (u src)))) with
  | Some r => match o_fs (left_behind r) (u "a.hex") with Some s => str_eqb s (u hex) | None => false end
  | None => false
  end.
Goal True. (* golden_test_standard_instructions *)
Proof. run_test (written src_test_standard_instructions hex_test_standard_instructions). Qed.
Goal True. (* golden_test_PONG *)
Proof. run_test (written src_test_PONG hex_test_PONG). Qed.
