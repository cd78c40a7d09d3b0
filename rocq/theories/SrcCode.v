(** * SrcCode: the source of c8s as a program for the machine of SrcRun.v. *)

From Coq Require Import String Ascii List NArith Bool FMapPositive.
From Verif Require Import Base SrcText SrcLex SrcParse SrcRun.
Import ListNotations.
Open Scope string_scope.
Open Scope list_scope.

(** The files of src/assembler/ the theorems of PropSource.v run: opcode.rs,
    instruction.rs, directive.rs, data_range.rs, source_file_location.rs, token.rs,
    scanner.rs, parser.rs, assembler.rs, ihex_writer.rs; and src/main.rs *)
Definition files : list (string * list string) :=
  [ ("opcode", opcode_rs); ("instruction", instruction_rs); ("directive", directive_rs);
    ("data_range", data_range_rs); ("source_file_location", source_file_location_rs);
    ("token", token_rs); ("scanner", scanner_rs); ("parser", parser_rs);
    ("assembler", assembler_rs); ("ihex_writer", ihex_writer_rs); ("main", main_rs) ].

(** What reading them gives *)
Definition c8s : program :=
  Eval vm_compute in match read_files files with Some p => p | None => mk_program (PositiveMap.empty node) [] [] [] end.

Lemma c8s_read : read_files files = Some c8s.
Proof. vm_compute. reflexivity. Qed.
