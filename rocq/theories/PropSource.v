(** * C107: the text of the source, read and executed.

    SrcText.v has the lines of the source as they are.  SrcLex.v and SrcParse.v read
    them; SrcRun.v executes what was read.  The theorems say that executing a function of
    the text ends, for all arguments, with what the model of that function gives.
    [reaches c8s (Call f args K) (Back v args' K)] is: the call of [f] returns [v], and its
    arguments are [args'] then. *)

From Coq Require Import String List NArith Bool Lia.
From Verif Require Import Base Text U12 Parser Opcode Instruction
  SrcText SrcLex SrcParse SrcRun SrcCode SrcEnc SrcFacts SrcOpcodeProofs SrcInstructionProofs.
Import ListNotations.
Open Scope string_scope.
Open Scope list_scope.
Open Scope N_scope.

(** The program is what the text of the files says. *)
Theorem C107_text : read_files files = Some c8s.
Proof. exact c8s_read. Qed.
Print Assumptions C107_text.

(** A run has one end. *)
Theorem C107_one_end : forall p s t t', ended t = true -> ended t' = true ->
  reaches p s t -> reaches p s t' -> t = t'.
Proof. exact one_end. Qed.
Print Assumptions C107_one_end.

(** ** opcode.rs *)
Theorem C107_from_instruction : forall w K,
  reaches c8s (Call "Opcode::from_instruction" [VInt IU16 w] K)
              (Back (e_opcode (from_instruction w)) [VInt IU16 w] K).
Proof. exact src_from_instruction. Qed.
Print Assumptions C107_from_instruction.

Theorem C107_to_assembly_string : forall o K,
  reaches c8s (Call "Opcode::to_assembly_string" [e_opcode o] K)
              (Back (VStr (to_assembly_string o)) [e_opcode o] K).
Proof. exact src_to_assembly_string. Qed.
Print Assumptions C107_to_assembly_string.

Theorem C107_to_formatted_assembly_string : forall o n K,
  reaches c8s (Call "Opcode::to_formatted_assembly_string" [e_opcode o; VInt IUsize n] K)
              (Back (VStr (to_formatted_assembly_string o (N.to_nat n))) [e_opcode o; VInt IUsize n] K).
Proof. exact src_formatted. Qed.
Print Assumptions C107_to_formatted_assembly_string.

Theorem C107_as_instruction : forall o K,
  reaches c8s (Call "Opcode::as_instruction" [e_opcode o] K)
              match as_instruction o with
              | Done w => Back (VInt IU16 w) [e_opcode o] K
              | Crash why => Panic why
              end.
Proof.
  intros o K. generalize (src_as_instruction o K). unfold outcome, done_u16.
  destruct (as_instruction o); exact (fun H => H).
Qed.
Print Assumptions C107_as_instruction.

(** ** instruction.rs, and the text of a field, parser.rs:171-184 *)
Theorem C107_instruction_from : forall mnemonic fields labels K,
  reaches c8s (Call "Instruction::from_mnemonic_and_parameters"
                 [VStr mnemonic; VVec (map e_field fields); e_labels labels] K)
              (Back match instruction_from mnemonic fields labels with
                    | Ok o => VCon "Ok" [("0", VCon "Instruction" [("0", e_opcode o)])]
                    | Err e => VCon "Err" [("0", e_instruction_error e)]
                    end
                    [VStr mnemonic; VVec (map e_field fields); e_labels labels] K).
Proof.
  intros m fs l K. generalize (src_from m fs l K). unfold e_result.
  destruct (instruction_from m fs l); exact (fun H => H).
Qed.
Print Assumptions C107_instruction_from.

Theorem C107_instruction_into_vec : forall o K,
  reaches c8s (Call "Instruction::into_vec" [VCon "Instruction" [("0", e_opcode o)]] K)
              match instruction_into_vec o with
              | Done l => Back (VVec (map (VInt IU8) l)) [VCon "Instruction" [("0", e_opcode o)]] K
              | Crash why => Panic why
              end.
Proof.
  intros o K. generalize (src_into_vec o K). unfold outcome, done_bytes.
  destruct (instruction_into_vec o); exact (fun H => H).
Qed.
Print Assumptions C107_instruction_into_vec.

(** [write!] goes to the formatter, the second argument. *)
Theorem C107_instruction_error_fmt : forall e K,
  reaches c8s (Call "instruction::Error::fmt" [e_instruction_error e; VStr []] K)
              (Back (VCon "Ok" [("0", VTup [])]) [e_instruction_error e; VStr (instruction_error_fmt e)] K).
Proof. exact src_instruction_error_fmt. Qed.
Print Assumptions C107_instruction_error_fmt.

Theorem C107_field_fmt : forall f K,
  reaches c8s (Call "InstructionField::fmt" [e_field f; VStr []] K)
              (Back (VCon "Ok" [("0", VTup [])]) [e_field f; VStr (field_fmt f)] K).
Proof. exact src_field_fmt. Qed.
Print Assumptions C107_field_fmt.

(** ** Cases *)

(** The text, and what it is read as: opcode.rs:79 *)
Example C107_instance_read :
  tokens ["((hi4 as u16) << 12) | u16::from(imm12) // and so on"]
  = Some [TP "("; TP "("; TId "hi4"; TId "as"; TId "u16"; TP ")"; TP "<<"; TNum 12 ""; TP ")"; TP "|";
          TId "u16"; TP "::"; TId "from"; TP "("; TId "imm12"; TP ")"]
  /\ nth_error opcode_rs 78 = Some "      (0x1, _,   _,   _  ) => { Opcode::JP            { target: imm12 } }".
Proof. split; reflexivity. Qed.

(** Another text is another program: with [hi4 as u16) << 11] the same call returns another
    word, so that no theorem as above is to be had for it. *)
Definition other_text : list string :=
  map (fun l => if String.eqb l "  ((hi4 as u16) << 12) | u16::from(imm12)"
                then "  ((hi4 as u16) << 11) | u16::from(imm12)" else l) opcode_rs.
Definition other : program :=
  Eval vm_compute in match read_files [("opcode", other_text)] with Some p => p | None => c8s end.
Example C107_instance_other :
  read_files [("opcode", other_text)] = Some other /\
  steps other 200 (Call "Opcode::as_instruction" [e_opcode (JP 0x234)] [])
  = Back (VInt IU16 0xA34) [e_opcode (JP 0x234)] [] /\
  steps c8s 200 (Call "Opcode::as_instruction" [e_opcode (JP 0x234)] [])
  = Back (VInt IU16 0x1234) [e_opcode (JP 0x234)] [].
Proof. repeat split; vm_compute; reflexivity. Qed.

(** A panic: opcode.rs:232 *)
Example C107_instance_panic :
  steps c8s 200 (Call "Opcode::as_instruction" [e_opcode (SE_K 16)] []) = Panic AssertFailed.
Proof. vm_compute. reflexivity. Qed.

(** A message, from the text alone *)
Example C107_instance_message :
  match steps c8s 2000 (Call "Instruction::from_mnemonic_and_parameters"
          [VStr (u "JP"); VVec [e_field (FRegister 3); e_field (FNumeric 4)]; VMap []] []) with
  | Back (VCon "Err" [(_, e)]) _ _ => steps c8s 200 (Call "instruction::Error::fmt" [e; VStr []] [])
  | s => s
  end
  = Back (ok_ unit_) [VCon "instruction::Error::NoMatchingFormat"
                        [("0", VStr (u "JP")); ("1", some_ (VStr (u "register:3, literal:$4")))];
                      VStr (u "No matching instruction: JP register:3, literal:$4.")] [].
Proof. vm_compute. reflexivity. Qed.
