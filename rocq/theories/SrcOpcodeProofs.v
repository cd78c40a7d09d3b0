(** * SrcOpcodeProofs: running the text of opcode.rs. *)

From Coq Require Import String List NArith Lia.
From Verif Require Import Base BaseFacts Text U12 Opcode Arms ArmsProofs
  SrcParse SrcRun SrcCode SrcEnc SrcFacts.
Import ListNotations.
Open Scope string_scope.
Open Scope list_scope.
Open Scope N_scope.

Definition done_u16 (r : run N) : run value := match r with Done n => Done (e_u16 n) | Crash w => Crash w end.

Lemma shl_12 h : h <= 15 -> N.shiftl h 12 mod 65536 = N.shiftl h 12.
Proof. intro H. rewrite N.shiftl_mul_pow2. apply N.mod_small. change (2 ^ 12) with 4096. lia. Qed.
Lemma shl_8 h : h <= 15 -> N.shiftl h 8 mod 65536 = N.shiftl h 8.
Proof. intro H. rewrite N.shiftl_mul_pow2. apply N.mod_small. change (2 ^ 8) with 256. lia. Qed.
Lemma shl_4 h : h <= 15 -> N.shiftl h 4 mod 65536 = N.shiftl h 4.
Proof. intro H. rewrite N.shiftl_mul_pow2. apply N.mod_small. change (2 ^ 4) with 16. lia. Qed.

Lemma src_imm12 h i : gives "format_instruction_imm12" [e_u8 h; e_u12 i] (done_u16 (format_instruction_imm12 h i)).
Proof.
  intro K. run. decide_any; run.
  - rewrite shl_12 by (apply N.leb_le; exact E). finish.
  - finish.
Qed.
Lemma src_x_imm8 h x i : gives "format_instruction_x_imm8" [e_u8 h; e_u8 x; e_u8 i] (done_u16 (format_instruction_x_imm8 h x i)).
Proof.
  intro K. run_on (calls_of []); try finish.
  rewrite shl_12, shl_8 by (apply N.leb_le; assumption). finish.
Qed.
Lemma src_x_y h x y i : gives "format_instruction_x_y" [e_u8 h; e_u8 x; e_u8 y; e_u8 i] (done_u16 (format_instruction_x_y h x y i)).
Proof.
  intro K. run_on (calls_of []); try finish.
  rewrite shl_12, shl_8, shl_4 by (apply N.leb_le; assumption). finish.
Qed.


Lemma src_as_instruction o : gives "Opcode::as_instruction" [e_opcode o] (done_u16 (as_instruction o)).
Proof.
  intro K. destruct o;
    run_to (calls_of ["format_instruction_imm12"; "format_instruction_x_imm8"; "format_instruction_x_y"]); try finish.
  all: first [use src_imm12 | use src_x_imm8 | use src_x_y].
  all: cbn [as_instruction];
    match goal with |- reaches c8s (outcome match done_u16 ?r with _ => _ end _) _ => destruct r; run; finish end.
Qed.

Definition done_str (r : run str) : run value := match r with Done n => Done (VStr n) | Crash w => Crash w end.

Lemma src_to_assembly_string o : gives "Opcode::to_assembly_string" [e_opcode o] (Done (VStr (to_assembly_string o))).
Proof.
  intro K. destruct o; run; finish_text.
Qed.

Lemma land_small w m : N.land w m <= m.
Proof. apply N.ldiff_le. apply N.bits_inj_0. intro i. rewrite N.ldiff_spec, N.land_spec. destruct (N.testbit w i), (N.testbit m i); reflexivity. Qed.
Lemma nibble_small w m k : N.shiftr m k < 256 -> N.shiftr (N.land w m) k mod 256 = N.shiftr (N.land w m) k.
Proof.
  intro H. apply N.mod_small. eapply N.le_lt_trans; [|exact H]. rewrite !N.shiftr_div_pow2.
  apply N.div_le_mono; [apply N.pow_nonzero; discriminate|apply land_small].
Qed.
Lemma byte_small w m : m < 256 -> N.land w m mod 256 = N.land w m.
Proof. intro H. apply N.mod_small. eapply N.le_lt_trans; [apply land_small|exact H]. Qed.

(** The first arm that fits *)
Definition pick (digits : list N) (l : list (list (option N) * opcode)) : opcode :=
  match List.find (fun a => fits (fst a) digits) l with Some a => snd a | None => NOP end.
Lemma pick_cons d a l : pick d (a :: l) = if fits (fst a) d then snd a else pick d l.
Proof. unfold pick. cbn [List.find]. destruct (fits (fst a) d); reflexivity. Qed.

Ltac arm :=
  lazymatch goal with
  | |- reaches c8s (Branch ?c ?s1 ?s2) (outcome (Done (e_opcode (pick ?d (?a :: ?l)), ?f)) ?K) =>
      apply (reaches_branch c8s c s1 s2); rewrite (pick_cons d a l);
      replace c with (fits (fst a) d)
        by (cbn [fst fits]; unfold both; rewrite ?Bool.andb_true_r; rewrite 1?(N.eqb_sym _ 0);
            repeat match goal with
                   | |- context [?n =? ?m] =>
                       lazymatch m with 0 => fail | Npos _ => fail | _ => rewrite (N.eqb_sym n m) end
                   end; reflexivity);
      destruct (fits (fst a) d); cbv iota; [cbn [snd]; run; finish | run]
  end.

Lemma src_from_instruction w : gives "Opcode::from_instruction" [e_u16 w] (Done (e_opcode (from_instruction w))).
Proof.
  intro K. rewrite <- decode_arms_same. run.
  rewrite !nibble_small by reflexivity. rewrite !byte_small by reflexivity. rewrite !N.shiftr_0_r.
  unfold from_instruction_arms. cbv zeta. fold (pick [N.shiftr (N.land w 61440) 12; N.shiftr (N.land w 3840) 8; N.shiftr (N.land w 240) 4; N.land w 15]
     (decode_arms (N.shiftr (N.land w 3840) 8) (N.shiftr (N.land w 240) 4) (u12_unchecked_into (N.land w 4095)) (N.land w 255) (N.land w 15))).
  unfold decode_arms. unfold gives. cbv iota.
  repeat arm. unfold pick. finish.
Qed.

Lemma src_opcode_fmt o : returns "Opcode::fmt" [e_opcode o; VStr []]
  (Done (ok_ unit_, [e_opcode o; VStr (to_assembly_string o)])).
Proof.
  intro K. pose proof (src_to_assembly_string o) as L. generalize dependent (to_assembly_string o).
  intros s L. destruct o; run_to (calls_of ["Opcode::to_assembly_string"]); (use L); run; finish.
Qed.

(** [(0..n).map(|_| " ")] *)
Lemma count_up_length n a : length (count_up n a) = n.
Proof. revert a. induction n as [|n IH]; intro a; [reflexivity|]. cbn [count_up length]. rewrite IH. reflexivity. Qed.
Lemma concat_spaces {A} (l : list A) : v_concat ((map (fun _ => VStr (u " ")) l)) = repeat 32 (length l).
Proof. induction l as [|a l IH]; [reflexivity|]. cbn [map length repeat]. rewrite <- IH. reflexivity. Qed.

Lemma src_formatted o n : gives "Opcode::to_formatted_assembly_string" [e_opcode o; e_usize n]
  (Done (VStr (to_formatted_assembly_string o (N.to_nat n)))).
Proof.
  intro K. pose proof (src_opcode_fmt o) as L. unfold to_formatted_assembly_string, gives. cbv iota.
  generalize dependent (to_assembly_string o). intro s.
  remember (e_opcode o) as v eqn:Hv. intro L.
  run.
  match goal with
  | |- reaches c8s (Mapping ?w [] ?l ?e ?k) _ =>
      assert (M : forall todo done, reaches c8s (Mapping w done todo e k)
        (Retn (VIter (v_rev done ++ map (fun _ => VStr (u " ")) todo)) e k))
  end.
  { induction todo as [|a todo IH]; intro done.
    - one. rewrite app_nil_r. apply reaches_refl.
    - again (calls_of []). use IH. unfold v_rev. cbn [rev map]. rewrite <- app_assoc. apply reaches_refl. }
  use M. clear M. cbn [v_rev rev app].
  assert (E : v_concat ((map (fun _ => VStr (u " ")) (v_range 0 n))) = repeat 32 (N.to_nat n)).
  { rewrite concat_spaces. unfold v_range. rewrite count_up_length, N.sub_0_r. reflexivity. }
  generalize dependent (map (fun _ => VStr (u " ")) (v_range 0 n)). intros l E.
  apply reaches_step. one. rewrite E. subst v. clear E.
  destruct o; run_to (calls_of ["Opcode::fmt"]); (use L); run; apply reaches_refl.
Qed.
