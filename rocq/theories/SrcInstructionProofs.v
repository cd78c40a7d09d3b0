(** * SrcInstructionProofs: running the text of instruction.rs. *)

From Coq Require Import String List NArith Lia.
From Verif Require Import Base BaseFacts Text U12 Parser Opcode Instruction Arms ArmsProofs
  SrcParse SrcRun SrcCode SrcEnc SrcFacts SrcOpcodeProofs.
Import ListNotations.
Open Scope string_scope.
Open Scope list_scope.
Open Scope N_scope.

(** parser.rs:171-184 *)
Lemma src_field_fmt f : returns "InstructionField::fmt" [e_field f; VStr []]
  (Done (ok_ unit_, [e_field f; VStr (field_fmt f)])).
Proof. intro K. destruct f; run; finish_fmt. Qed.

Lemma src_instruction_error_fmt e : returns "instruction::Error::fmt" [e_instruction_error e; VStr []]
  (Done (ok_ unit_, [e_instruction_error e; VStr (instruction_error_fmt e)])).
Proof. intro K. destruct e as [| | |m [f|]]; run; finish_fmt. Qed.

Lemma map_get_pairs m k : map_get (e_pairs m) k = match label_get m k with Some a => Some (e_u12 a) | None => None end.
Proof.
  unfold e_pairs. induction m as [|[k' a] m IH]; [reflexivity|].
  cbn [map map_get label_get fst snd]. destruct (str_eqb k' k); [reflexivity|exact IH].
Qed.

Lemma src_resolve label m : gives "resolve_label_with_map" [VStr label; e_labels m]
  (Done (e_result e_instruction_error e_u12 (resolve_label label m))).
Proof. intro K. unfold resolve_label. run. rewrite map_get_pairs. destruct (label_get m label); again (calls_of []); finish. Qed.

Lemma src_8 n : gives "numeric_literal_to_8_bit_field" [e_u12 n]
  (Done (e_result e_instruction_error e_u8 (to_8_bit n))).
Proof. intro K. unfold to_8_bit. run. destruct (u8_failable_from_u12 n); again (calls_of []); finish. Qed.

Lemma src_4 n : gives "numeric_literal_to_4_bit_field" [e_u12 n]
  (Done (e_result e_instruction_error e_u8 (to_4_bit n))).
Proof. intro K. unfold to_4_bit. run. destruct (u8_failable_from_u12 n); again (calls_of []); finish. Qed.

Lemma src_instruction_size o : gives "Instruction::size" [e_instruction o] (Done (e_usize 2)).
Proof. intro K. run. finish. Qed.

Definition done_bytes (r : run (list byte)) : run value := match r with Done l => Done (e_bytes l) | Crash w => Crash w end.
Lemma src_into_vec o : gives "Instruction::into_vec" [e_instruction o] (done_bytes (instruction_into_vec o)).
Proof.
  intro K. pose proof (src_as_instruction o) as L. unfold instruction_into_vec.
  generalize dependent (as_instruction o). intros r L.
  destruct o; run_to (calls_of ["Opcode::as_instruction"]); (use L); (destruct r as [w|]; run; [|finish]).
  all: rewrite N.shiftr_0_r, nibble_small, byte_small by reflexivity.
  all: cbn [bind done_bytes]; unfold e_bytes; rewrite !enc_cons, enc_nil; finish.
Qed.

Definition from_env (opcode : value) (m i : str) (fields labels : value) : env :=
  [("mnemonic", VStr m); ("lowercase_mnemonic_string", VStr m); ("opcode", opcode);
   ("input_mnemonic", VStr i); ("fields", fields); ("label_map", labels)].

Definition F : string := "Instruction::from_mnemonic_and_parameters".

Lemma v_strs_enc {A} (f : A -> str) l : v_strs (map (fun a => VStr (f a)) l) = map f l.
Proof. unfold v_strs. rewrite map_map. reflexivity. Qed.

Lemma src_from_tail o m i fields labels K :
  reaches c8s (Block (body_of F) 7 (from_env (e_option e_opcode o) m i (VVec (enc e_field fields)) labels) (KPop 3 :: KFun 3 "" :: K))
    (Back (e_result e_instruction_error e_instruction
             (ok_or o (NoMatchingFormat i match fields with
                                          | [] => None
                                          | _ => Some (join (u ", ") (map field_fmt fields))
                                          end)))
          [VStr i; VVec (enc e_field fields); labels] K).
Proof.
  destruct o as [o|].
  - cbn [e_option ok_or e_result]. unfold e_instruction. generalize (e_opcode o). intro v. run. apply reaches_refl.
  - cbn [e_option ok_or e_result]. run. decide_any.
    + destruct fields as [|f fs]; [|discriminate E]. run. apply reaches_refl.
    + destruct fields as [|f fs]; [discriminate E|]. run.
      match goal with
      | |- reaches c8s (Mapping ?w [] ?l ?e ?k) _ =>
          assert (M : forall fs done, reaches c8s (Mapping w done (enc e_field fs) e k)
                    (Retn (VIter (v_rev done ++ map (fun f => VStr (field_fmt f)) fs)) e k))
      end.
      { induction fs0 as [|a todo IH]; intro done.
        - one. rewrite app_nil_r. apply reaches_refl.
        - rewrite enc_cons. cbn [map].
          replace (v_rev done ++ VStr (field_fmt a) :: map (fun f0 => VStr (field_fmt f0)) todo)
            with (v_rev (VStr (field_fmt a) :: done) ++ map (fun f0 => VStr (field_fmt f0)) todo)
            by (unfold v_rev; cbn [rev]; rewrite <- app_assoc; reflexivity).
          pose proof (src_field_fmt a) as L. generalize dependent (field_fmt a). intros s L.
          eapply reaches_trans; [|apply IH].
          destruct a; apply reaches_step; run_to (calls_of ["InstructionField::fmt"]); (use L); run; apply reaches_refl. }
      use M. cbn [v_rev rev app]. rewrite <- (v_strs_enc field_fmt).
      generalize (map (fun f0 => VStr (field_fmt f0)) (f :: fs)). intro l. run. apply reaches_refl.
Qed.

Ltac at_tail := run_on (or_else (at_statement c8s F 7) (calls_of ["resolve_label_with_map"; "numeric_literal_to_8_bit_field"; "numeric_literal_to_4_bit_field"])).

Definition from_goal i fields labels K :=
  reaches c8s (Call F [VStr i; VVec (enc e_field fields); e_labels labels] K)
    (Back (e_result e_instruction_error e_instruction (instruction_from_arms i fields labels)) 
       [VStr i; VVec (enc e_field fields); e_labels labels] K).

Lemma from_tail i fields labels K o :
  reaches c8s (Block (body_of F) 7 (from_env (e_option e_opcode o) (to_lowercase i) i (VVec (enc e_field fields)) (e_labels labels)) (KPop 3 :: KFun 3 "" :: K))
    (Back (e_result e_instruction_error e_instruction
             (ok_or o (NoMatchingFormat i match fields with
                                          | [] => None
                                          | _ => Some (join (u ", ") (map field_fmt fields))
                                          end)))
       [VStr i; VVec (enc e_field fields); e_labels labels] K).
Proof. apply src_from_tail. Qed.

(** [GeneralPurposeRegister(0)] *)
Ltac tidy :=
  repeat match goal with
         | |- context [both ?c (0 =? 0)] => change (both c (0 =? 0)) with (both c true); rewrite (both_true_r c)
         | |- context [both ?c (N.pos ?p =? 0)] => change (both c (N.pos p =? 0)) with (both c false); rewrite (both_false_r c)
         end.

Ltac run_arms :=
  run_to (or_else (at_statement c8s F 7) (calls_of ["resolve_label_with_map"; "numeric_literal_to_8_bit_field"; "numeric_literal_to_4_bit_field"]));
  cbn [first_arm rbind assigned]; tidy;
  lazymatch goal with
  | |- reaches c8s (Branch _ _ _) _ => first [decide_closed | decide_any]; run_arms
  | |- reaches c8s (Opt _ _ _ _ _) _ => decide_opt; run_arms
  | |- reaches c8s (Call "resolve_label_with_map" [VStr ?l; VMap (e_pairs ?m)] _) _ =>
      use (src_resolve l m); destruct (resolve_label l m); cbn [e_result]; run_arms
  | |- reaches c8s (Call "numeric_literal_to_8_bit_field" [VInt IU12 ?l] _) _ =>
      use (src_8 l); destruct (to_8_bit l); cbn [e_result]; run_arms
  | |- reaches c8s (Call "numeric_literal_to_4_bit_field" [VInt IU12 ?l] _) _ =>
      use (src_4 l); destruct (to_4_bit l); cbn [e_result]; run_arms
  | _ => idtac
  end.
Ltac leaf T :=
  lazymatch goal with
  | |- reaches c8s (Block _ _ _ _) (Back (e_result _ _ (ok_or ?o _)) _ _) => exact (T o)
  | |- reaches c8s (Back _ _ _) _ => apply reaches_refl
  end.

Lemma named_none m n : named m n None = None.
Proof. unfold named. destruct (str_eqb m (u n)); reflexivity. Qed.

Lemma src_from_0 i labels K : from_goal i [] labels K.
Proof.
  unfold from_goal, instruction_from_arms. pose proof (from_tail i [] labels K) as T.
  rewrite enc_nil in *. unfold arms_0, named. run_arms; leaf T.
Qed.

Lemma src_from_1 i f labels K : from_goal i [f] labels K.
Proof.
  unfold from_goal, instruction_from_arms. pose proof (from_tail i [f] labels K) as T.
  rewrite enc_cons, enc_nil in *. generalize dependent (Some (join (u ", ") (map field_fmt [f]))). intros d T.
  unfold arms_1. destruct f; rewrite ?named_none; unfold named; run_arms; leaf T.
Qed.

Lemma src_from_2 i f g labels K : from_goal i [f; g] labels K.
Proof.
  unfold from_goal, instruction_from_arms. pose proof (from_tail i [f; g] labels K) as T.
  rewrite !enc_cons, enc_nil in *. generalize dependent (Some (join (u ", ") (map field_fmt [f; g]))). intros d T.
  unfold arms_2. destruct f as [|r| | | | | | | |]; [|destruct r|..]; destruct g; rewrite ?named_none; unfold named; run_arms; leaf T.
Qed.

Lemma src_from_3 i f g h labels K : from_goal i [f; g; h] labels K.
Proof.
  unfold from_goal, instruction_from_arms. pose proof (from_tail i [f; g; h] labels K) as T.
  rewrite !enc_cons, enc_nil in *. generalize dependent (Some (join (u ", ") (map field_fmt [f; g; h]))). intros d T.
  unfold arm_3_numeric, arm_3_label. destruct f; [|destruct g; [|destruct h|..]|..]; rewrite ?named_none; unfold named; run_arms; leaf T.
Qed.

Lemma src_from_4 i a b c d r labels K : from_goal i (a :: b :: c :: d :: r) labels K.
Proof.
  unfold from_goal, instruction_from_arms. pose proof (from_tail i (a :: b :: c :: d :: r) labels K) as T. cbv iota in T.
  assert (E0 : (v_len (enc e_field (a :: b :: c :: d :: r)) =? 0) = false) by (rewrite enc_length; cbn [length]; lia).
  assert (E1 : (v_len (enc e_field (a :: b :: c :: d :: r)) =? 1) = false) by (rewrite enc_length; cbn [length]; lia).
  assert (E2 : (v_len (enc e_field (a :: b :: c :: d :: r)) =? 2) = false) by (rewrite enc_length; cbn [length]; lia).
  assert (E3 : (v_len (enc e_field (a :: b :: c :: d :: r)) =? 3) = false) by (rewrite enc_length; cbn [length]; lia).
  cbn [rbind].
  generalize dependent (enc e_field (a :: b :: c :: d :: r)). intros l T E0 E1 E2 E3.
  generalize dependent (Some (join (u ", ") (map field_fmt (a :: b :: c :: d :: r)))). intros x T.
  run_arms. leaf T.
Qed.

Theorem src_from i fields labels : gives "Instruction::from_mnemonic_and_parameters"
  [VStr i; VVec (enc e_field fields); e_labels labels]
  (Done (e_result e_instruction_error e_instruction (instruction_from i fields labels))).
Proof.
  rewrite <- instruction_arms_same. intro K.
  destruct fields as [|a [|b [|c [|d r]]]];
    [apply src_from_0|apply src_from_1|apply src_from_2|apply src_from_3|apply src_from_4].
Qed.
