(** * SrcAssemblerProofs: running the text of assembler.rs. *)

From Coq Require Import String List NArith Lia.
From Verif Require Import Base BaseFacts Text U12 Location Scanner Parser Directive Instruction DataRange Assembler
  SrcParse SrcRun SrcCode SrcEnc SrcFacts SrcOpcodeProofs SrcInstructionProofs SrcDirectiveProofs SrcRangeProofs.
Import ListNotations.
Open Scope string_scope.
Open Scope list_scope.
Open Scope N_scope.

Ltac quick t ::=
  eval lazy -[N.add N.sub N.mul N.eqb N.leb N.ltb N.land N.lor N.shiftl N.shiftr N.modulo N.div
              N.pow N.max N.min str_eqb to_lowercase byte_len drop_bytes take_bytes slice
              from_str_radix fmt_hex fmt_dec pad_left join starts_with label_get utf8 enc
              s_app v_len v_app v_rev v_concat v_chars v_bytes v_strs v_range map_get has v_get v_slice found
              find_whitespace find_string_literal find_hex_literal find_bin_literal
              find_decimal_literal find_identifier u12_unchecked_into u12_failable_into
              u12_checked_add u12_wrapping_add u8_failable_from_u12 usize_checked_shl
              u12_max len_utf8 both either u e_pairs resolve_label to_8_bit to_4_bit
              e_node e_literal e_field e_directive_error e_instruction_error
              directive_size instruction_from directive_from define_labels_loop define_labels emit_loop range_append e_opcode ] in t.

Lemma has_pairs m k : has (map_get (e_pairs m) k) = contains_key m k.
Proof. unfold has, contains_key. rewrite map_get_pairs. destruct (label_get m k); reflexivity. Qed.

Ltac label IH :=
  match goal with E : has (map_get (e_pairs _) _) = _ |- _ => rewrite has_pairs in E; cbn [peek_constant]; rewrite E; cbv iota end;
  match goal with
  | E : contains_key _ _ = true |- _ => finish
  | _ => lazymatch goal with
         | |- context [define_labels_loop ?m ?a ?l] => refine (IH l m a _); cbn [length] in *; lia
         end
  end.

Lemma src_define_labels l : gives "define_labels" [VVec (enc e_node l)]
  (Done (e_result e_semantic_error e_labels (define_labels l))).
Proof.
  intro K. run. 
  match goal with
  | |- reaches c8s (While ?w (_ :: _ :: _ :: ?e) ?k) _ =>
      assert (M : forall n rest labels addr, (length rest <= n)%nat ->
        reaches c8s (While w (("list_walker", VIter (enc e_node rest)) :: ("current_address", VInt IU12 addr)
                              :: ("label_address_map", e_labels labels) :: e) k)
          (Back (e_result e_semantic_error e_labels (define_labels_loop labels addr rest)) [VVec (enc e_node l)] K))
  end.
  { induction n as [|n IH]; intros [|[loc i args|loc i|loc m fields] rest] labels addr H; cbn [length] in H; try lia.
    - rewrite enc_nil. again (calls_of []). again (calls_of []). cbn [define_labels_loop]. finish.
    - rewrite enc_nil. again (calls_of []). again (calls_of []). cbn [define_labels_loop]. finish.
    - rewrite enc_cons. cbn [e_node].
      pose proof (src_directive_from i args) as L.
      again (calls_of []). apply reaches_step. run_to (calls_of ["Directive::from_identifier_and_parameters"]).
  cbn [define_labels_loop]. generalize dependent (directive_from i args). intros r L. use L. destruct r as [d|x].
      + pose proof (src_directive_size d) as S. cbn [map_err rbind].
        generalize dependent (directive_size d). intros size S.
        destruct d as [a|bytes|a]; run_to (calls_of ["Directive::size"]); (use S); clear S; run.
        all: (destruct (u12_failable_into size) as [s|]; cbn [ok_or rbind]; again (calls_of []); [|finish]).
        all: (destruct (u12_checked_add addr s) as [a'|]; cbn [ok_or rbind]; again (calls_of []); [|finish]).
        * apply (IH rest labels a). lia.
        * apply (IH rest labels a'). lia.
        * finish.
      + run_on (calls_of []). finish.
    - rewrite enc_cons. cbn [e_node define_labels_loop]. again (calls_of []). again (calls_of []).
      destruct rest as [|[loc' i' args'|loc' i'|loc' m' fields'] rest].
      + rewrite enc_nil. again (calls_of []); label IH.
      + rewrite enc_cons. cbn [e_node peek_constant length] in *. pose proof (src_directive_from i' args') as L.
        apply reaches_step. run_to (calls_of ["Directive::from_identifier_and_parameters"]).
        generalize dependent (directive_from i' args'). intros r L. use L. destruct r as [[a|bytes|a]|x].
        * run_on (calls_of []); label IH.
        * run_on (calls_of []); label IH.
        * run_on (calls_of []). again (calls_of []); label IH.
        * run_on (calls_of []); label IH.
      + rewrite enc_cons. cbn [e_node]. again (calls_of []); label IH.
      + rewrite enc_cons. cbn [e_node]. again (calls_of []); label IH.
    - rewrite enc_cons. cbn [e_node]. again (calls_of []). again (calls_of []).
      cbn [define_labels_loop]. change bytes_per_instruction with 2. destruct (u12_checked_add addr 2) as [a|]; cbn [ok_or rbind]; again (calls_of []).
      + apply (IH rest labels a). lia.
      + finish. }
  exact (M (length l) l [] 0 (le_n _)).
Qed.

Definition done_ranges (r : run (result semantic_error (list data_range))) : run value :=
  match r with
  | Done x => Done (e_result e_semantic_error (fun l => VVec (enc e_range l)) x)
  | Crash w => Crash w
  end.

Ltac emitted IH := lazymatch goal with |- context [emit_loop _ ?r ?c _] => exact (IH r c) end.
Ltac append current bytes IH :=
  run_to (calls_of ["DataRange::append"]);
  let L := fresh "L" in let r := fresh "r" in let b := fresh "b" in
  pose proof (src_append current bytes) as L; unfold append_asserted;
  generalize dependent (range_append current bytes); intros r L; use L;
  destruct r as [[b current']|why]; cbn [bind]; [|finish];
  run_on (calls_of []); cbn [assert_ bind]; [emitted IH|finish].

Lemma src_emit l labels : gives "emit_data_ranges" [VVec (enc e_node l); e_labels labels]
  (done_ranges (emit_data_ranges l labels)).
Proof.
  intro K. unfold emit_data_ranges. run_to (calls_of ["DataRange::new"]). use (src_range_new 0). run.
  match goal with
  | |- reaches c8s (Loop ?w _ (_ :: _ :: ?e) ?k) _ =>
      assert (M : forall rest ranges current,
        reaches c8s (Loop w (enc e_node rest) (("current_range", e_range current) :: ("data_ranges", VVec (enc e_range ranges)) :: e) k)
          (outcome (match done_ranges (emit_loop labels ranges current rest) with
                    | Done v => Done (v, [VVec (enc e_node l); e_labels labels]) | Crash why => Crash why end) K))
  end.
  { induction rest as [|[loc i args|loc i|loc m fields] rest IH]; intros ranges current.
    - rewrite enc_nil. cbn [emit_loop]. unfold push_range. pose proof (src_range_len current) as L. generalize dependent (range_len current).
      intros n L. apply reaches_step. run_to (calls_of ["DataRange::len"]).
      use L. run_on (calls_of []).
      + cbn [done_ranges e_result]. rewrite enc_app. finish.
      + finish.
    - rewrite enc_cons. cbn [e_node emit_loop]. apply reaches_step. run_to (calls_of ["Directive::from_identifier_and_parameters"]).
      pose proof (src_directive_from i args) as L. generalize dependent (directive_from i args). intros r L.
      use L. destruct r as [d|x]; [|run; try_closed; finish].
      pose proof (src_directive_into_vec d) as V. generalize dependent (directive_into_vec d). intros bytes V.
      destruct d as [a|data|a].
      + run_to (calls_of ["DataRange::new"]). use (src_range_new a).
        pose proof (src_range_len current) as N. unfold push_range. generalize dependent (range_len current). intros n N.
        run_to (calls_of ["DataRange::len"]). use N. run_on (calls_of []).
        * eapply reaches_trans; [|apply IH]. rewrite enc_app. finish.
        * emitted IH.
      + run_to (calls_of ["Directive::into_vec"]). use V. append current bytes IH.
      + run_to (calls_of ["Directive::into_vec"]). use V. append current bytes IH.
    - rewrite enc_cons. cbn [e_node emit_loop]. again (calls_of []). apply IH.
    - rewrite enc_cons. cbn [e_node emit_loop]. apply reaches_step. run_to (calls_of ["Instruction::from_mnemonic_and_parameters"]).
      pose proof (src_from m fields labels) as L. generalize dependent (instruction_from m fields labels). intros r L.
      use L. destruct r as [o|x]; [|run_on (calls_of []); finish].
      run_to (calls_of ["Instruction::into_vec"]).
      pose proof (src_into_vec o) as I. generalize dependent (instruction_into_vec o). intros r I. use I.
      destruct r as [bytes|w]; cbn [bind]; [|finish].
      append current bytes IH. }
  exact (M l [] (range_new 0)).
Qed.

Lemma src_assemble l : gives "assemble" [VVec (enc e_node l)] (done_ranges (assemble l)).
Proof.
  intro K. run_to (calls_of ["define_labels"]). pose proof (src_define_labels l) as L. unfold assemble.
  generalize dependent (define_labels l). intros r L. use L. destruct r as [labels|e].
  - run_to (calls_of ["emit_data_ranges"]).
    pose proof (src_emit l labels) as E. generalize dependent (emit_data_ranges l labels). intros r E. use E.
    destruct r as [[v|e]|why]; cbn [done_ranges]; [| |finish]; run_on (calls_of []); finish.
  - destruct e; run_on (calls_of []); finish.
Qed.

(** ** The texts, assembler.rs:53-102 *)
Lemma src_description e : gives "SemanticError::description" [e_semantic_error e] (Done (VStr (semantic_error_description e))).
Proof. intro K. destruct e; run; finish. Qed.

(** The place a message is about *)
Definition error_loc (e : semantic_error) : loc :=
  match e with
  | DirectiveInvalid l _ | DirectiveTooLarge l _ | DirectiveWouldOverflow l _ | InstructionWouldOverflow l
  | RedefinitionOfLabel l _ | AssemblyFailed l _ | ConstantWithoutLabel l => l
  end.

Lemma src_semantic_error_fmt e : 0 < l_location (error_loc e) ->
  returns "SemanticError::fmt" [e_semantic_error e; VStr []]
  (Done (ok_ unit_, [e_semantic_error e; VStr (semantic_error_fmt e)])).
Proof.
  intros H K. pose proof (src_loc_fmt _ H) as L. 
  destruct e as [l x|l d|l d|l|l i|l x|l]; cbn [error_loc] in L;
    unfold semantic_error_fmt; generalize dependent (loc_fmt l); intros t L.
  - pose proof (src_directive_error_fmt x) as X. generalize dependent (directive_error_fmt x). intros t' X.
    run_to (calls_of ["SourceFileLocation::fmt"]). use L.
    destruct x; cbn [e_directive_error] in *; run_to (calls_of ["directive::Error::fmt"]); (use X); run; finish_fmt.
  - pose proof (src_directive_fmt d) as X. generalize dependent (directive_fmt d). intros t' X.
    pose proof (src_directive_size d) as S. generalize dependent (directive_size d). intros n S.
    destruct d; run_to (calls_of ["Directive::size"]); (use S); run_to (calls_of ["SourceFileLocation::fmt"]); (use L);
      run_to (calls_of ["Directive::fmt"]); (use X); run; finish_fmt.
  - pose proof (src_directive_fmt d) as X. generalize dependent (directive_fmt d). intros t' X.
    destruct d; run_to (calls_of ["SourceFileLocation::fmt"]); (use L);
      run_to (calls_of ["Directive::fmt"]); (use X); run; finish_fmt.
  - run_to (calls_of ["SourceFileLocation::fmt"]). use L. run. finish_fmt.
  - run_to (calls_of ["SourceFileLocation::fmt"]). use L. run. finish_fmt.
  - pose proof (src_instruction_error_fmt x) as X. generalize dependent (instruction_error_fmt x). intros t' X.
    run_to (calls_of ["SourceFileLocation::fmt"]). use L.
    destruct x as [| | |m [f|]]; cbn [e_instruction_error] in *; run_to (calls_of ["instruction::Error::fmt"]); (use X); run; finish_fmt.
  - run_to (calls_of ["SourceFileLocation::fmt"]). use L. run. finish_fmt.
Qed.
