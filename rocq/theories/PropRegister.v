(** * PropRegister: property C106, with instances. *)

From Verif Require Import Base Text U12 Location Token Scanner Parser Directive Opcode Instruction DataRange Assembler
  IHex Main SpecLex SpecErase SpecCode SpecOpcode SpecRefusal SpecLayout SpecHex SpecTool SpecUtf8 SpecMeta SpecRewrite SpecRun BaseFacts
  LayoutProofs EmitProofs TextProofs TextCode PropLayout PropOutput EditProofs SpecRegister RegisterProofs.
From Verif Require OutputProofs.
Open Scope string_scope.
Open Scope list_scope.
Open Scope N_scope.

(** ** C106: other registers in place of those of a program.

    The digits of a word that are registers are those of [exchange_word], and no others change. *)
Theorem C106_word : forall f lk m fields w, exchanges f -> Forall field_ok fields -> encodes lk m fields w ->
  encodes lk m (map (exchange_field f) fields) (exchange_word f w).
Proof. exact encodes_exchanged. Qed.
Print Assumptions C106_word.

(** An accepted program is accepted with the other registers; the addresses of its ranges are the same, and its bytes are, but
    for these digits of its instructions.  So are labels, and so is data. *)
Theorem C106_memory : forall f p rs, exchanges f -> Forall node_ok p -> assemble p = Done (Ok rs) ->
  exists rs' bs, assemble (map (exchange f) p) = Done (Ok rs') /\ Forall2 same_place rs rs' /\ Forall2 (node_bytes (lookup p)) p bs /\
    memory rs = concat (map (fun i => place (address p i) (nth i bs [])) (seq 0 (length p))) /\
    memory rs' = concat (map (fun i => place (address p i) (nth i (map (fun nb => exchange_bytes f (fst nb) (snd nb)) (combine p bs)) [])) (seq 0 (length p))).
Proof.
  intros f p rs E F A. destruct (exchanged_memory f E p rs F A) as (rs' & bs & A' & P & B & M & M'). exists rs', bs.
  assert (L := OutputProofs.forall2_len _ _ _ _ _ B).
  split; [exact A'|]. split; [exact P|]. split; [exact B|]. rewrite M, M'. unfold exchange_all.
  split; apply OutputProofs.image_at; [exact L|]. rewrite map_length, combine_length. lia.
Qed.
Print Assumptions C106_memory.

(** A program which is refused is refused with the other registers, for the same reason and at the same place; only the list of
    the operands of an instruction which does not exist is another. *)
Theorem C106_errors : forall f p e, exchanges f -> Forall node_ok p -> assemble p = Done (Err e) ->
  exists e', assemble (map (exchange f) p) = Done (Err e') /\ same_error e e'.
Proof. intros f p e E. exact (exchanged_errors f E p e). Qed.
Print Assumptions C106_errors.

(** For source files: the text [s'] is that of [s] with other registers, and laid out in any way. *)
Theorem C106_text : forall e f file file' s s' p p' text, exchanges f -> Forall scalar s -> Forall scalar s' ->
  parsed file s p -> parsed file' s' p' -> same_program p' (map (exchange f) p) ->
  assemble_text e file s = Done (Ok text) ->
  exists text' bs, assemble_text e file' s' = Done (Ok text') /\ Forall2 (node_bytes (lookup p)) p bs /\
    read_hex text = Some (concat (map (fun i => place (address p i) (nth i bs [])) (seq 0 (length p)))) /\
    read_hex text' = Some (concat (map (fun i => place (address p i)
      (nth i (map (fun nb => exchange_bytes f (fst nb) (snd nb)) (combine p bs)) [])) (seq 0 (length p)))).
Proof.
  intros e f file file' s s' p p' text E Sc Sc' P P' S H. assert (F := parsed_ok _ _ _ P).
  destruct (text_memory _ _ _ _ _ Sc P H) as (rs & A & R & D).
  destruct (C106_memory f p rs E F A) as (rs' & bs & A' & Pl & B & M & M').
  apply (assemble_same_ok _ _ _ (same_program_sym _ _ S)) in A'.
  assert (Q : map fst (memory rs') = map fst (memory rs)).
  { clear - Pl. unfold memory. induction Pl as [|r r' rs rs' [St L] _ IH]; [reflexivity|]. cbn [flat_map]. rewrite !map_app, IH, St. f_equal.
    apply place_addresses. exact L. }
  destruct (memory_text e file' _ _ _ Sc' P' A') as (text' & T'); [rewrite Q; exact D|].
  destruct (text_memory _ _ _ _ _ Sc' P' T') as (rs2 & A2 & R2 & _). rewrite A' in A2. injection A2 as <-.
  exists text', bs. split; [exact T'|]. split; [exact B|]. rewrite R, R2, M, M'. split; reflexivity.
Qed.
Print Assumptions C106_text.

(** On a processor whose instructions do not care which register is which, as far as the program uses them: [g] moves the
    registers of a state, and the program with the other registers goes through the states moved. *)
Theorem C106_run : forall (P : processor) f g p s s' inv, exchanges f -> Forall node_ok p ->
  (forall s, pc P (g s) = pc P s) ->
  (forall l m fields i s, In (NInstruction l m fields) p -> statement_says (lookup p) m fields i ->
    exec P (exchange_meaning f i) (g s) = g (exec P i s)) ->
  runs (program_step P p) inv s s' -> runs (program_step P (map (exchange f) p)) (fun t => exists s0, t = g s0 /\ inv s0) (g s) (g s').
Proof.
  intros P f g p s s' inv E F Hpc Hex R. induction R as [s|s s1 s2 I St _ IH]; [constructor|].
  eapply runs_step; [exists s; split; [reflexivity | exact I] | | exact IH]. exact (step_exchanged f E P g p s s1 F Hpc Hex St).
Qed.
Print Assumptions C106_run.

(** V0 cannot be exchanged: one instruction asks for it. *)
Theorem C106_zero : exists p f rs e, (forall r, r <= 15 -> f r <= 15) /\ (forall r, r <= 15 -> f (f r) = r) /\ Forall node_ok p /\
  assemble p = Done (Ok rs) /\ assemble (map (exchange f) p) = Done (Err e).
Proof.
  exists (nodes (u "jp v0, 512" ++ nl)), (fun r => if r =? 0 then 1 else if r =? 1 then 0 else r). do 2 eexists.
  split; [intros r H; destruct (r =? 0) eqn:A, (r =? 1) eqn:B; lia|].
  split; [intros r H; destruct (r =? 0) eqn:A, (r =? 1) eqn:B; rewrite ?A, ?B; cbn [N.eqb Pos.eqb]; lia|].
  split; [apply nodes_ok|]. split; vm_compute; reflexivity.
Qed.
Print Assumptions C106_zero.

(** Registers 1 to 15 the other way round. *)
Definition turned (r : N) : N := if r =? 0 then 0 else 16 - r.

Example C106_instance :
  let x := u "ld v1, $12" ++ nl ++ u "add v1, v2" ++ nl ++ u "shl v3" ++ nl ++ u "drw v4, v5, 6" ++ nl ++ u "jp v0, 512" ++ nl ++ u ".db $11, $22" ++ nl in
  let y := u "ld vf, 18" ++ nl ++ u "add vf, ve ; more" ++ nl ++ u "shl vd" ++ nl ++ u "drw vc, vb, 6" ++ nl ++ u "jp v0, 512" ++ nl ++ u ".db $11, $22" ++ nl in
  exchanges turned /\
  (exists p p', parsed (u "f") x p /\ parsed (u "f") y p' /\ same_program p' (map (exchange turned) p)) /\
  assemble (nodes x) = Done (Ok [mk_range 0 [97; 18; 129; 36; 131; 14; 212; 86; 178; 0; 17; 34]]) /\
  assemble (nodes y) = Done (Ok [mk_range 0 [111; 18; 143; 228; 141; 14; 220; 182; 178; 0; 17; 34]]) /\
  assemble (map (exchange turned) (nodes x)) = assemble (nodes y) /\
  exists text, assemble_text sample_env (u "f") x = Done (Ok text).
Proof.
  cbv zeta. split; [intros r H; unfold turned; destruct (r =? 0) eqn:A; lia|].
  split; [match goal with |- exists p p', parsed _ ?x p /\ parsed _ ?y p' /\ _ => exists (nodes x), (nodes y) end; split;
    [unfold parsed; eexists; split; [vm_compute; reflexivity | vm_compute; reflexivity]|]; split;
    [unfold parsed; eexists; split; [vm_compute; reflexivity | vm_compute; reflexivity] | vm_compute; reflexivity]|].
  split; [vm_compute; reflexivity|]. split; [vm_compute; reflexivity|]. split; [vm_compute; reflexivity|]. eexists. vm_compute. reflexivity.
Qed.

(** A processor with two registers and two instructions. *)
Record pair : Type := mk_pair { p_pc : N; p_v1 : N; p_v2 : N; p_mem : N -> byte }.

Definition pair_get (s : pair) (r : N) : N := if r =? 1 then p_v1 s else if r =? 2 then p_v2 s else 0.

Definition pair_set (s : pair) (r v : N) : pair :=
  if r =? 1 then mk_pair (p_pc s + 2) v (p_v2 s) (p_mem s)
  else if r =? 2 then mk_pair (p_pc s + 2) (p_v1 s) v (p_mem s)
  else mk_pair (p_pc s + 2) (p_v1 s) (p_v2 s) (p_mem s).

Definition pair_exec (i : meaning) (s : pair) : pair :=
  match snd i with
  | [Register x; Number v] => if String.eqb (fst i) "LD" then pair_set s x v else pair_set s 0 0
  | [Register x; Register y] => if String.eqb (fst i) "ADD" then pair_set s x (pair_get s x + pair_get s y) else pair_set s 0 0
  | _ => pair_set s 0 0
  end.

Definition pair_processor : processor := mk_processor pair p_pc p_mem pair_exec.

(** V1 and V2 for each other, in programs and in the processor. *)
Definition swapped (r : N) : N := if r =? 1 then 2 else if r =? 2 then 1 else r.
Definition swap_pair (s : pair) : pair := mk_pair (p_pc s) (p_v2 s) (p_v1 s) (p_mem s).

Definition adding : list node := nodes (u "ld v1, 5" ++ nl ++ u "ld v2, 7" ++ nl ++ u "add v1, v2" ++ nl).

Lemma swapped_set : forall s r v, pair_set (swap_pair s) (swapped r) v = swap_pair (pair_set s r v).
Proof.
  intros s r v. unfold pair_set, swapped.
  destruct (r =? 1) eqn:A; [reflexivity|]. destruct (r =? 2) eqn:B; [reflexivity|]. rewrite A, B. reflexivity.
Qed.

Lemma swapped_get : forall s r, pair_get (swap_pair s) (swapped r) = pair_get s r.
Proof.
  intros s r. unfold pair_get, swapped.
  destruct (r =? 1) eqn:A; [reflexivity|]. destruct (r =? 2) eqn:B; [reflexivity|]. rewrite A, B. reflexivity.
Qed.

Lemma swapped_exec : forall i s, pair_exec (exchange_meaning swapped i) (swap_pair s) = swap_pair (pair_exec i s).
Proof.
  intros [name os] s. unfold pair_exec, exchange_meaning. cbn [fst snd].
  assert (Z : pair_set (swap_pair s) 0 0 = swap_pair (pair_set s 0 0)) by exact (swapped_set s 0 0).
  destruct os as [|[x|v|y] [|[x'|v'|y'] [|o os]]]; cbn [map exchange_operand]; try exact Z.
  - destruct (String.eqb name "ADD"); [|exact Z]. rewrite !swapped_get. apply swapped_set.
  - destruct (String.eqb name "LD"); [|exact Z]. apply swapped_set.
Qed.

Example C106_instance_run :
  exchanges swapped /\ Forall node_ok adding /\ (forall s, p_pc (swap_pair s) = p_pc s) /\
  (forall l m fields i s, In (NInstruction l m fields) adding -> statement_says (lookup adding) m fields i ->
    exec pair_processor (exchange_meaning swapped i) (swap_pair s) = swap_pair (exec pair_processor i s)) /\
  runs (program_step pair_processor adding) (fun _ => True)
    (mk_pair 0 0 0 (fun _ => 0)) (mk_pair 6 12 7 (fun _ => 0)) /\
  runs (program_step pair_processor (map (exchange swapped) adding)) (fun t => exists s, t = swap_pair s /\ True)
    (mk_pair 0 0 0 (fun _ => 0)) (mk_pair 6 7 12 (fun _ => 0)).
Proof.
  assert (F : exchanges swapped).
  { intros r H. unfold swapped. destruct (r =? 1) eqn:A; [lia|]. destruct (r =? 2) eqn:B; lia. }
  assert (R : runs (program_step pair_processor adding) (fun _ => True)
    (mk_pair 0 0 0 (fun _ => 0)) (mk_pair 6 12 7 (fun _ => 0))).
  { eapply runs_step; [exact I | exists 0%nat; do 3 eexists; exists ("LD"%string, [Register 1; Number 5]) |].
    { split; [vm_compute; reflexivity|]. split; [vm_compute; reflexivity|]. split; [|reflexivity].
      exists "6xkk"%string, "LD"%string, ["Vx"; "nn"]%string. eexists.
      split; [vm_compute; tauto|]. split; [vm_compute; reflexivity|]. split; [|reflexivity].
      constructor; [split; [constructor | reflexivity]|]. constructor; [|constructor].
      split; [|reflexivity]. apply fits_value; [right; left; reflexivity | reflexivity]. }
    eapply runs_step; [exact I | exists 1%nat; do 3 eexists; exists ("LD"%string, [Register 2; Number 7]) |].
    { split; [vm_compute; reflexivity|]. split; [vm_compute; reflexivity|]. split; [|reflexivity].
      exists "6xkk"%string, "LD"%string, ["Vx"; "nn"]%string. eexists.
      split; [vm_compute; tauto|]. split; [vm_compute; reflexivity|]. split; [|reflexivity].
      constructor; [split; [constructor | reflexivity]|]. constructor; [|constructor].
      split; [|reflexivity]. apply fits_value; [right; left; reflexivity | reflexivity]. }
    eapply runs_step; [exact I | exists 2%nat; do 3 eexists; exists ("ADD"%string, [Register 1; Register 2]) | apply runs_done].
    split; [vm_compute; reflexivity|]. split; [vm_compute; reflexivity|]. split; [|reflexivity].
    exists "8xy4"%string, "ADD"%string, ["Vx"; "Vy"]%string. eexists.
    split; [vm_compute; tauto|]. split; [vm_compute; reflexivity|]. split; [|reflexivity].
    constructor; [split; [constructor | reflexivity]|]. constructor; [split; [constructor | reflexivity] | constructor]. }
  split; [exact F|]. split; [apply nodes_ok|]. split; [reflexivity|]. split; [intros l m fields i s _ _; exact (swapped_exec i s)|].
  split; [exact R|].
  exact (C106_run pair_processor swapped swap_pair adding _ _ _ F (nodes_ok _) (fun s => eq_refl)
           (fun l m fields i s _ _ => swapped_exec i s) R).
Qed.
