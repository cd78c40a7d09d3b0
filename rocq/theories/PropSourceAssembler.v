(** * C108: the text of directive.rs, data_range.rs, source_file_location.rs and assembler.rs, executed.

    As C107; SrcText.v has the text. *)

From Coq Require Import String List NArith Bool Lia.
From Verif Require Import Base Text U12 Location Parser Directive Instruction DataRange Assembler
  SrcText SrcLex SrcParse SrcRun SrcCode SrcEnc SrcFacts SrcDirectiveProofs SrcRangeProofs SrcAssemblerProofs.
Import ListNotations.
Open Scope string_scope.
Open Scope list_scope.
Open Scope N_scope.

(** ** directive.rs *)
Theorem C108_directive_from : forall identifier arguments K,
  reaches c8s (Call "Directive::from_identifier_and_parameters" [VStr identifier; VVec (map e_literal arguments)] K)
              (Back match directive_from identifier arguments with
                    | Ok d => VCon "Ok" [("0", e_directive d)]
                    | Err e => VCon "Err" [("0", e_directive_error e)]
                    end [VStr identifier; VVec (map e_literal arguments)] K).
Proof.
  intros i a K. generalize (src_directive_from i a K). destruct (directive_from i a); exact (fun H => H).
Qed.
Print Assumptions C108_directive_from.

Theorem C108_directive_size : forall d K,
  reaches c8s (Call "Directive::size" [e_directive d] K) (Back (VInt IUsize (directive_size d)) [e_directive d] K).
Proof. exact src_directive_size. Qed.
Print Assumptions C108_directive_size.

Theorem C108_directive_into_vec : forall d K,
  reaches c8s (Call "Directive::into_vec" [e_directive d] K)
              (Back (VVec (map (VInt IU8) (directive_into_vec d))) [e_directive d] K).
Proof. exact src_directive_into_vec. Qed.
Print Assumptions C108_directive_into_vec.

(** ** data_range.rs: the range may have changed *)
Theorem C108_append : forall r bytes K,
  reaches c8s (Call "DataRange::append" [e_range r; VVec (map (VInt IU8) bytes)] K)
              match range_append r bytes with
              | Done (ok, r') => Back (VBool ok) [e_range r'; VVec (map (VInt IU8) bytes)] K
              | Crash why => Panic why
              end.
Proof.
  intros r b K. generalize (src_append r b K). destruct (range_append r b) as [[? ?]|]; exact (fun H => H).
Qed.
Print Assumptions C108_append.

Theorem C108_find_overlapping_ranges : forall l K,
  reaches c8s (Call "find_overlapping_ranges" [VVec (map e_range l)] K)
              (Back (VVec (map (fun p => VTup [e_range (fst p); e_range (snd p)]) (find_overlapping_ranges l)))
                    [VVec (map e_range l)] K).
Proof. exact src_overlapping. Qed.
Print Assumptions C108_find_overlapping_ranges.

Theorem C108_range_fmt : forall r K,
  reaches c8s (Call "DataRange::fmt" [e_range r; VStr []] K)
              match range_fmt r with
              | Done s => Back (VCon "Ok" [("0", VTup [])]) [e_range r; VStr s] K
              | Crash why => Panic why
              end.
Proof. intros r K. generalize (src_range_fmt r K). destruct (range_fmt r); exact (fun H => H). Qed.
Print Assumptions C108_range_fmt.

(** ** source_file_location.rs *)
Theorem C108_location_new : forall file line location length K,
  reaches c8s (Call "SourceFileLocation::new"
                 [VStr file; VInt IUsize line; VInt IUsize location; VInt IUsize length] K)
              match loc_new file line location length with
              | Done l => Back (e_loc l) [VStr file; VInt IUsize line; VInt IUsize location; VInt IUsize length] K
              | Crash why => Panic why
              end.
Proof. intros f a b c K. generalize (src_loc_new f a b c K). destruct (loc_new f a b c); exact (fun H => H). Qed.
Print Assumptions C108_location_new.

Theorem C108_location_fmt : forall l K, 0 < l_location l ->
  reaches c8s (Call "SourceFileLocation::fmt" [e_loc l; VStr []] K)
              (Back (VCon "Ok" [("0", VTup [])]) [e_loc l; VStr (loc_fmt l)] K).
Proof. intros l K H. exact (src_loc_fmt l H K). Qed.
Print Assumptions C108_location_fmt.

Theorem C108_directive_fmt : forall d K,
  reaches c8s (Call "Directive::fmt" [e_directive d; VStr []] K)
              (Back (VCon "Ok" [("0", VTup [])]) [e_directive d; VStr (directive_fmt d)] K).
Proof. exact src_directive_fmt. Qed.
Print Assumptions C108_directive_fmt.

Theorem C108_directive_error_fmt : forall e K,
  reaches c8s (Call "directive::Error::fmt" [e_directive_error e; VStr []] K)
              (Back (VCon "Ok" [("0", VTup [])]) [e_directive_error e; VStr (directive_error_fmt e)] K).
Proof. exact src_directive_error_fmt. Qed.
Print Assumptions C108_directive_error_fmt.

(** ** assembler.rs *)
Theorem C108_define_labels : forall nodes K,
  reaches c8s (Call "define_labels" [VVec (map e_node nodes)] K)
              (Back match define_labels nodes with
                    | Ok labels => VCon "Ok" [("0", e_labels labels)]
                    | Err e => VCon "Err" [("0", e_semantic_error e)]
                    end [VVec (map e_node nodes)] K).
Proof. intros l K. generalize (src_define_labels l K). destruct (define_labels l); exact (fun H => H). Qed.
Print Assumptions C108_define_labels.

Theorem C108_emit_data_ranges : forall nodes labels K,
  reaches c8s (Call "emit_data_ranges" [VVec (map e_node nodes); e_labels labels] K)
              match emit_data_ranges nodes labels with
              | Done (Ok ranges) =>
                  Back (VCon "Ok" [("0", VVec (map e_range ranges))]) [VVec (map e_node nodes); e_labels labels] K
              | Done (Err e) =>
                  Back (VCon "Err" [("0", e_semantic_error e)]) [VVec (map e_node nodes); e_labels labels] K
              | Crash why => Panic why
              end.
Proof.
  intros l m K. generalize (src_emit l m K). destruct (emit_data_ranges l m) as [[?|?]|]; exact (fun H => H).
Qed.
Print Assumptions C108_emit_data_ranges.

Theorem C108_assemble : forall nodes K,
  reaches c8s (Call "assemble" [VVec (map e_node nodes)] K)
              match assemble nodes with
              | Done (Ok ranges) => Back (VCon "Ok" [("0", VVec (map e_range ranges))]) [VVec (map e_node nodes)] K
              | Done (Err e) => Back (VCon "Err" [("0", e_semantic_error e)]) [VVec (map e_node nodes)] K
              | Crash why => Panic why
              end.
Proof. intros l K. generalize (src_assemble l K). destruct (assemble l) as [[?|?]|]; exact (fun H => H). Qed.
Print Assumptions C108_assemble.

(** The message, if the place it is about has a column; [loc_new] panics if it has not. *)
Theorem C108_message : forall e K, 0 < l_location (error_loc e) ->
  reaches c8s (Call "SemanticError::fmt" [e_semantic_error e; VStr []] K)
              (Back (VCon "Ok" [("0", VTup [])]) [e_semantic_error e; VStr (semantic_error_fmt e)] K).
Proof. intros e K H. exact (src_semantic_error_fmt e H K). Qed.
Print Assumptions C108_message.

(** ** Cases *)
Definition here : loc := mk_loc (u "a.s") 1 1 2.
Definition nodes : list Parser.node :=
  [NDirective here (u "org") [LNumeric 0x200]; NLabel here (u "x"); NDirective here (u "EQU") [LNumeric 0x123];
   NLabel here (u "y"); NInstruction here (u "call") [FIdentifier (u "x")]; NInstruction here (u "jp") [FIdentifier (u "y")];
   NDirective here (u "org") [LNumeric 0x300]; NDirective here (u "db") [LNumeric 7; LString (u "A")]].
(** All the way, by steps *)
Example C108_instance :
  steps c8s 4900 (Call "assemble" [VVec (map e_node nodes)] [])
  = Back (VCon "Ok" [("0", VVec [VCon "DataRange" [("start_address", VInt IU12 0x200);
                                                  ("data", VVec (map (VInt IU8) [0x21; 0x23; 0x12; 0x00]))];
                                 VCon "DataRange" [("start_address", VInt IU12 0x300);
                                                   ("data", VVec (map (VInt IU8) [0x07; 0x41]))]])])
         [VVec (map e_node nodes)] [].
Proof. vm_compute. reflexivity. Qed.

Example C108_instance_fmt :
  let shown f v s := steps c8s 1000 (Call f [v; VStr []] []) = Back (VCon "Ok" [("0", VTup [])]) [v; VStr s] [] in
  let l := mk_loc (u "a.s") 3 7 4 in
  0 < l_location l /\ shown "SourceFileLocation::fmt" (e_loc l) (u "a.s:3:7-10") /\
  shown "Directive::fmt" (e_directive (Db [1; 2; 3])) (u ".db [3 bytes]") /\
  shown "directive::Error::fmt" (e_directive_error (UnrecognizedDirective (u "x"))) (u "Unrecognized directive '.x'.").
Proof.
  cbv zeta. split; [reflexivity|]. split; [vm_compute; reflexivity|]. split; [vm_compute; reflexivity|vm_compute; reflexivity].
Qed.

(** A label twice: the error, and its text *)
Example C108_instance_error :
  match steps c8s 4900 (Call "assemble" [VVec (map e_node [NLabel here (u "x"); NLabel here (u "x")])] []) with
  | Back (VCon "Err" [(_, e)]) _ _ =>
      match steps c8s 900 (Call "SemanticError::fmt" [e; VStr []] []) with
      | Back _ [_; VStr s] _ => s
      | _ => []
      end
  | _ => []
  end
  = u "a.s:1:1-2: error: Attempted re-definition of label 'x'."
  /\ 0 < l_location (error_loc (RedefinitionOfLabel here (u "x"))).
Proof. split; vm_compute; reflexivity. Qed.

(** Another text is another program: with [>=] exchanged for [>] in data_range.rs:73 a
    full range is refused its last byte. *)
Definition other_text : list string :=
  map (fun l => if String.eqb l "    if self.bytes_remaining() >= data.len() {"
                then "    if self.bytes_remaining() > data.len() {" else l) data_range_rs.
Definition other : program :=
  Eval vm_compute in match read_files [("data_range", other_text)] with Some p => p | None => c8s end.
Definition last : list value := [VCon "DataRange" [("start_address", VInt IU12 0xFFF); ("data", VVec [])]; VVec [VInt IU8 1]].
Example C108_instance_other :
  read_files [("data_range", other_text)] = Some other /\
  steps other 200 (Call "DataRange::append" last []) = Back (VBool false) last [] /\
  steps c8s 200 (Call "DataRange::append" last [])
  = Back (VBool true) [VCon "DataRange" [("start_address", VInt IU12 0xFFF); ("data", VVec [VInt IU8 1])];
                       VVec [VInt IU8 1]] [].
Proof. repeat split; vm_compute; reflexivity. Qed.
