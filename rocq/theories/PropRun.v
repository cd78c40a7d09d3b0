(** * PropRun: property C70, with an instance. *)

From Verif Require Import Base Text U12 Location Token Scanner Parser Directive Opcode Instruction DataRange
  Assembler IHex Main SpecUtf8 SpecLex SpecGrammar SpecOpcode SpecDisasm SpecLayout SpecHex SpecTool SpecErase BaseFacts
  LexProofs ParseProofs LayoutProofs EmitProofs PipelineProofs MainProofs PropLayout PropOutput SpecRun RunProofs.
Open Scope string_scope.
Open Scope list_scope.
Open Scope N_scope.

(** ** C70: the program that runs is the program that was written.

    For any processor which takes its instructions from memory and reads them by the README's
    tables. *)

Theorem C70_step : forall P p rs s s', Forall node_ok p -> assemble p = Done (Ok rs) -> loaded P (memory rs) s ->
  (program_step P p s s' <-> at_statement P p s /\ machine_step P s s').
Proof. intros P p rs s s' F H L. apply assemble_ok in H; [|exact F]. destruct H. eapply step_same; eassumption. Qed.
Print Assumptions C70_step.

(** At a statement the processor can go on, and in one way only. *)
Theorem C70_progress : forall P p rs s, Forall node_ok p -> assemble p = Done (Ok rs) -> loaded P (memory rs) s ->
  at_statement P p s -> exists s', machine_step P s s' /\ forall s'', machine_step P s s'' -> s'' = s'.
Proof.
  intros P p rs s F H L A. pose proof (C70_step P p rs s) as St. apply assemble_ok in H; [|exact F]. destruct H as [W O].
  destruct (step_exists P p rs s F W O L A) as (s' & S' & U). exists s'. split; [|exact U].
  apply (step_same P p rs s s' F W O L). exact S'.
Qed.
Print Assumptions C70_progress.

(** As long as the program does not change itself and stays among its instructions, its runs are
    those of the processor. *)
Theorem C70_run : forall P p rs s s', Forall node_ok p -> assemble p = Done (Ok rs) ->
  (runs (program_step P p) (loaded P (memory rs)) s s' <->
   runs (machine_step P) (fun s => loaded P (memory rs) s /\ at_statement P p s) s s').
Proof.
  intros P p rs s s' F H. pose proof H as H'. apply assemble_ok in H'; [|exact F]. destruct H' as [W O]. split; intros R.
  - induction R as [s|s s' s'' I T _ IH]; [constructor|].
    apply (step_same P p rs s s' F W O I) in T. destruct T as [A M]. econstructor; [split; assumption | exact M | exact IH].
  - induction R as [s|s s' s'' [I A] T _ IH]; [constructor|].
    econstructor; [exact I | | exact IH]. apply (step_same P p rs s s' F W O I). split; assumption.
Qed.
Print Assumptions C70_run.

(** From the source file to the processor. *)
Theorem C70_tool : forall e f input output s rs, asks e input output ->
  reads e f input s -> compiles input s rs -> output <> u "-" ->
  e_create_error e = None -> e_write_error e = None ->
  exists p text image, stands_for input s p /\ main e f = Done (mk_outcome [] 0 (fs_set f output text)) /\
    read_hex text = Some image /\
    forall P st st', runs (program_step P p) (loaded P image) st st' <->
      runs (machine_step P) (fun st => loaded P image st /\ at_statement P p st) st st'.
Proof.
  intros e f input output s rs A R C D Ec Ew.
  destruct (C42_file e f input output s rs A R C D Ec Ew) as (text & _ & L & M).
  destruct C as (ts & p & Lx & G & W & O & _). exists p, text, (memory rs).
  split; [exists ts; split; assumption|]. split; [exact M|]. split; [exact L|].
  pose proof (program_node_ok ts p G (lexes_token_ok _ _ _ _ Lx)) as F. intros P st st'.
  apply C70_run; [exact F|]. apply assemble_ok; [exact F | split; assumption].
Qed.
Print Assumptions C70_tool.

(** A processor with four instructions. *)
Record small : Type := mk_small { s_pc : N; s_v0 : N; s_mem : N -> byte }.

Definition small_exec (i : meaning) (s : small) : small :=
  match i with
  | ("ADD"%string, [Register 0; Number v]) => mk_small (s_pc s + 2) (s_v0 s + v) (s_mem s)
  | ("SE"%string, [Register 0; Number v]) => mk_small (if s_v0 s =? v then s_pc s + 4 else s_pc s + 2) (s_v0 s) (s_mem s)
  | ("JP"%string, [Number a]) => mk_small a (s_v0 s) (s_mem s)
  | _ => mk_small (s_pc s + 2) (s_v0 s) (s_mem s)
  end.

Definition small_processor : processor := mk_processor small s_pc s_mem small_exec.

Definition counting : list node := nodes
  (u ".org $200" ++ nl ++ u "again: add v0, 2" ++ nl ++ u "se v0, 4" ++ nl ++ u "jp again" ++ nl ++ u "stop: jp stop" ++ nl).

(** Some memory with the program in it. *)
Definition counting_memory (a : N) : byte := nth (N.to_nat (a - 0x200)) [0x70; 2; 0x30; 4; 0x12; 0; 0x12; 6] 0xFF.

Lemma counting_ok : exists rs, assemble counting = Done (Ok rs) /\ memory rs =
  map (fun a => (a, counting_memory a)) [0x200; 0x201; 0x202; 0x203; 0x204; 0x205; 0x206; 0x207].
Proof. eexists. split; vm_compute; reflexivity. Qed.

Lemma counting_step : forall v k l m fields i s', nth_error counting k = Some (NInstruction l m fields) ->
  statement_says (lookup counting) m fields i -> s' = small_exec i (mk_small (address counting k) v counting_memory) ->
  program_step small_processor counting (mk_small (address counting k) v counting_memory) s'.
Proof. intros v k l m fields i s' N S ->. exists k, l, m, fields, i. auto. Qed.

Lemma says_add : statement_says (lookup counting) (u "add") [FRegister 0; FNumeric 2] ("ADD"%string, [Register 0; Number 2]).
Proof.
  exists "7xkk"%string, "ADD"%string, ["Vx"; "nn"]%string. eexists.
  split; [apply (nth_error_In table 8); reflexivity|]. split; [vm_compute; reflexivity|]. split; [|reflexivity].
  constructor; [split; [constructor | reflexivity]|]. constructor; [|constructor].
  split; [|reflexivity]. apply fits_value; [right; left; reflexivity | reflexivity].
Qed.

Lemma says_se : statement_says (lookup counting) (u "se") [FRegister 0; FNumeric 4] ("SE"%string, [Register 0; Number 4]).
Proof.
  exists "3xkk"%string, "SE"%string, ["Vx"; "nn"]%string. eexists.
  split; [apply (nth_error_In table 4); reflexivity|]. split; [vm_compute; reflexivity|]. split; [|reflexivity].
  constructor; [split; [constructor | reflexivity]|]. constructor; [|constructor].
  split; [|reflexivity]. apply fits_value; [right; left; reflexivity | reflexivity].
Qed.

Lemma says_jp : statement_says (lookup counting) (u "jp") [FIdentifier (u "again")] ("JP"%string, [Number 0x200]).
Proof.
  exists "1nnn"%string, "JP"%string, ["addr"]%string. eexists.
  split; [apply (nth_error_In table 2); reflexivity|]. split; [vm_compute; reflexivity|]. split; [|reflexivity].
  constructor; [|constructor]. split; [apply fits_value; [left; reflexivity | reflexivity]|].
  exists 0x200. split; vm_compute; reflexivity.
Qed.

(** Twice round the loop. *)
Example C70_instance : exists rs, assemble counting = Done (Ok rs) /\ Forall node_ok counting /\
  runs (program_step small_processor counting) (loaded small_processor (memory rs))
    (mk_small 0x200 0 counting_memory) (mk_small 0x206 4 counting_memory).
Proof.
  destruct counting_ok as (rs & A & M). exists rs. split; [exact A|]. split; [apply nodes_ok|].
  assert (L : forall pc v, loaded small_processor (memory rs) (mk_small pc v counting_memory)).
  { intros pc v a b I. rewrite M in I. apply in_map_iff in I. destruct I as (x & E & _). injection E as <- <-. reflexivity. }
  assert (A2 : address counting 2 = 0x200) by (vm_compute; reflexivity).
  assert (A3 : address counting 3 = 0x202) by (vm_compute; reflexivity).
  assert (A4 : address counting 4 = 0x204) by (vm_compute; reflexivity).
  eapply runs_step; [apply L | rewrite <- A2 at 1; eapply (counting_step 0 2); [vm_compute; reflexivity | exact says_add | reflexivity]|].
  rewrite A2. change (small_exec _ _) with (mk_small 0x202 2 counting_memory).
  eapply runs_step; [apply L | rewrite <- A3 at 1; eapply (counting_step 2 3); [vm_compute; reflexivity | exact says_se | reflexivity]|].
  rewrite A3. change (small_exec _ _) with (mk_small 0x204 2 counting_memory).
  eapply runs_step; [apply L | rewrite <- A4 at 1; eapply (counting_step 2 4); [vm_compute; reflexivity | exact says_jp | reflexivity]|].
  rewrite A4. change (small_exec _ _) with (mk_small 0x200 2 counting_memory).
  eapply runs_step; [apply L | rewrite <- A2 at 1; eapply (counting_step 2 2); [vm_compute; reflexivity | exact says_add | reflexivity]|].
  rewrite A2. change (small_exec _ _) with (mk_small 0x202 4 counting_memory).
  eapply runs_step; [apply L | rewrite <- A3 at 1; eapply (counting_step 4 3); [vm_compute; reflexivity | exact says_se | reflexivity]|].
  rewrite A3. change (small_exec _ _) with (mk_small 0x206 4 counting_memory). constructor.
Qed.
