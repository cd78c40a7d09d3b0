(** * PropLimit: property C99, with instances. *)

From Verif Require Import Base Text Location Parser Directive Instruction DataRange Assembler
  SpecOpcode SpecRefusal SpecLayout BaseFacts LayoutProofs EmitProofs LocalProofs PropLayout PropLocal LimitProofs.
Open Scope string_scope.
Open Scope list_scope.
Open Scope N_scope.

(** ** C99: which numbers may stand where.

    A value of an instruction, a number or a label, replaced by another value in an accepted program: the
    new program is accepted exactly if the value is at most what its column in the README's
    tables allows. *)
Theorem C99_operand : forall a l m fs1 f f' fs2 b rs v', is_value f = true -> is_value f' = true -> field_ok f' ->
  Forall node_ok (a ++ NInstruction l m (fs1 ++ f :: fs2) :: b) ->
  assemble (a ++ NInstruction l m (fs1 ++ f :: fs2) :: b) = Done (Ok rs) ->
  value_of (lookup (a ++ NInstruction l m (fs1 ++ f :: fs2) :: b)) f' = Some v' -> v' <= 4095 ->
  exists pattern name os1 c os2 v w before s d e after,
    row_for m (fs1 ++ f :: fs2) (pattern, name, os1 ++ c :: os2) /\ length os1 = length fs1 /\
    value_of (lookup (a ++ NInstruction l m (fs1 ++ f :: fs2) :: b)) f = Some v /\ v <= limit c /\ v <= w /\
    rs = before ++ mk_range s (d ++ [w / 256; w mod 256] ++ e) :: after /\
    s + N.of_nat (length d) = address (a ++ NInstruction l m (fs1 ++ f :: fs2) :: b) (length a) /\
    assemble (a ++ NInstruction l m (fs1 ++ f' :: fs2) :: b) =
      Done (if v' <=? limit c
            then let w' := w - v + v' in Ok (before ++ mk_range s (d ++ [w' / 256; w' mod 256] ++ e) :: after)
            else Err (AssemblyFailed l (too_big c v'))).
Proof.
  intros a l m fs1 f f' fs2 b rs v' V V' Ok' F A Vf' L12. set (p := a ++ NInstruction l m (fs1 ++ f :: fs2) :: b) in *.
  pose proof A as A'. apply (assemble_ok _ _ F) in A'. destruct A' as [W Out].
  assert (I : In (NInstruction l m (fs1 ++ f :: fs2)) p) by (apply in_app_iff; right; left; reflexivity).
  destruct (wf_instructions _ W _ _ _ I) as (w & En).
  destruct (value_changed _ _ _ _ _ _ V En) as (pattern & name & os1 & c & os2 & v & R & L & Vc & Vf & Lf & Lw & Ch).
  destruct (Ch f' v' V' Vf' L12) as [Yes No].
  assert (Nok : node_ok (NInstruction l m (fs1 ++ f :: fs2))) by (rewrite Forall_forall in F; apply F, I).
  assert (Nok' : node_ok (NInstruction l m (fs1 ++ f' :: fs2))).
  { destruct Nok as [Am Fo]. split; [exact Am|]. apply Forall_app in Fo. destruct Fo as [F1 F2]. inversion F2; subst.
    apply Forall_app. split; [exact F1 | constructor; assumption]. }
  assert (F' : Forall node_ok (a ++ NInstruction l m (fs1 ++ f' :: fs2) :: b)).
  { apply Forall_app in F. destruct F as [Fa Fb]. inversion Fb; subst. apply Forall_app. split; [exact Fa | constructor; assumption]. }
  assert (Bs : forall n' bs', node_ok n' -> size (NInstruction l m (fs1 ++ f :: fs2)) = size n' -> node_bytes (lookup p) n' bs' ->
    exists before s d e after, rs = before ++ mk_range s (d ++ [w / 256; w mod 256] ++ e) :: after /\
      assemble (a ++ n' :: b) = Done (Ok (before ++ mk_range s (d ++ bs' ++ e) :: after)) /\
      s + N.of_nat (length d) = address p (length a)).
  { intros n' bs' On Sz B. destruct (C64_bytes a _ n' b rs bs' F On Sz ltac:(cbn; lia) A B) as (before & s & d & bs & e & after & E1 & E2 & E3 & _ & E4).
    inversion E3 as [? ? ? w0 En0| | | |]; subst.
    assert (w0 = w).
    { eapply (encodes_det p m (fs1 ++ f :: fs2)); try eassumption; [|apply Nok | apply Nok].
      intros i e0 Vi. exact (violation_not_wf _ i e0 W Vi). }
    subst w0. exists before, s, d, e, after. auto. }
  exists pattern, name, os1, c, os2, v, w. destruct (v' <=? limit c) eqn:Lim.
  - apply N.leb_le in Lim. specialize (Yes Lim).
    destruct (Bs _ _ Nok' eq_refl (nb_instruction _ l _ _ _ Yes)) as (before & s & d & e & after & E1 & E2 & E3).
    exists before, s, d, e, after. cbv zeta. auto 10.
  - apply N.leb_gt in Lim. specialize (No Lim).
    destruct (Bs _ _ Nok eq_refl (nb_instruction _ l _ _ _ En)) as (before & s & d & e & after & E1 & E2 & E3).
    exists before, s, d, e, after. do 7 (split; [assumption|]).
    apply (C30_reported _ _ F'). apply (instruction_refused a l m (fs1 ++ f :: fs2)); assumption.
Qed.
Print Assumptions C99_operand.

(** A number among the values of a '.db' replaced by another. *)
Theorem C99_data : forall a l id args1 v v' args2 b rs, names id "DB" = true ->
  Forall node_ok (a ++ NDirective l id (args1 ++ LNumeric v :: args2) :: b) ->
  assemble (a ++ NDirective l id (args1 ++ LNumeric v :: args2) :: b) = Done (Ok rs) ->
  v <= 255 /\ exists before s d e after,
    rs = before ++ mk_range s (d ++ [v] ++ e) :: after /\
    s + N.of_nat (length d) = address (a ++ NDirective l id (args1 ++ LNumeric v :: args2) :: b) (length a) +
      N.of_nat (length (flat_map literal_bytes args1)) /\
    assemble (a ++ NDirective l id (args1 ++ LNumeric v' :: args2) :: b) =
      Done (if v' <=? 255 then Ok (before ++ mk_range s (d ++ [v'] ++ e) :: after)
            else Err (DirectiveInvalid l (AllNumericParametersMustBeByteLiterals (u "db") v'))).
Proof.
  intros a l id args1 v v' args2 b rs Db F A. set (n := NDirective l id (args1 ++ LNumeric v :: args2)) in *.
  pose proof A as A'. apply (assemble_ok _ _ F) in A'. destruct A' as [W _].
  assert (I : In n (a ++ n :: b)) by (apply in_app_iff; right; left; reflexivity).
  destruct (wf_directives _ W _ _ _ I) as (dir & M).
  assert (D : exists bytes, dir = Directive.Db bytes).
  { pose proof (names_one id "DB" "ORG" Db ltac:(vm_compute; discriminate)) as N1.
    pose proof (names_one id "DB" "EQU" Db ltac:(vm_compute; discriminate)) as N2.
    inversion M; subst; try congruence. eauto. }
  destruct D as (bytes & ->). destruct (byte_changed _ _ _ _ _ M) as (Lv & d0 & e0 & -> & Ed & Ee & Ch).
  destruct (Ch v') as [Yes No]. split; [exact Lv|].
  assert (Nok : node_ok n) by (rewrite Forall_forall in F; apply F, I).
  assert (F' : Forall node_ok (a ++ NDirective l id (args1 ++ LNumeric v' :: args2) :: b)).
  { apply Forall_app in F. destruct F as [Fa Fb]. inversion Fb; subst. apply Forall_app. split; [exact Fa | constructor; assumption]. }
  assert (Sz : forall v', size (NDirective l id (args1 ++ LNumeric v' :: args2)) = N.of_nat (length (d0 ++ [v'] ++ e0))).
  { intros x. cbn [size]. rewrite Db. subst d0. rewrite flat_map_app. cbn [flat_map literal_bytes]. subst e0. reflexivity. }
  assert (Bs : forall n' bs', node_ok n' -> size n = size n' -> node_bytes (lookup (a ++ n :: b)) n' bs' ->
    exists before s d e after, rs = before ++ mk_range s (d ++ (d0 ++ [v] ++ e0) ++ e) :: after /\
      assemble (a ++ n' :: b) = Done (Ok (before ++ mk_range s (d ++ bs' ++ e) :: after)) /\
      s + N.of_nat (length d) = address (a ++ n :: b) (length a)).
  { intros n' bs' On Sn B.
    assert (Em : 0 < size n) by (subst n; rewrite Sz, !app_length; cbn [length]; lia).
    destruct (C64_bytes a n n' b rs bs' F On Sn Em A B) as (before & s & d & bs & e & after & E1 & E2 & E3 & _ & E4).
    exists before, s, d, e, after. split; [|split; assumption]. rewrite E1. do 4 f_equal.
    assert (Inj : forall d', means id (args1 ++ LNumeric v :: args2) d' -> d' = Directive.Db (d0 ++ [v] ++ e0)).
    { intros d' M'. inversion M' as [? ? X|? ? X|? ? X Y Z T]; subst.
      - pose proof (names_one id "DB" "ORG" Db ltac:(vm_compute; discriminate)). congruence.
      - pose proof (names_one id "DB" "EQU" Db ltac:(vm_compute; discriminate)). congruence.
      - rewrite flat_map_app. reflexivity. }
    subst n. inversion E3 as [|? ? ? ? M'|? ? ? ? M'|? ? ? ? M'|]; subst; apply Inj in M'; try discriminate M'. injection M' as ->. reflexivity. }
  destruct (v' <=? 255) eqn:Lim.
  - apply N.leb_le in Lim.
    destruct (Bs (NDirective l id (args1 ++ LNumeric v' :: args2)) (d0 ++ [v'] ++ e0)) as (before & s & d & e & after & E1 & E2 & E3);
      [exact Nok | unfold n; rewrite !Sz, !app_length; reflexivity | apply nb_db; exact (Yes Lim)|].
    exists before, s, (d ++ d0), (e0 ++ e), after. rewrite app_length, Nat2N.inj_add.
    split; [rewrite E1, <- !app_assoc; reflexivity|]. split; [subst d0; lia|]. rewrite E2, <- !app_assoc. reflexivity.
  - apply N.leb_gt in Lim.
    destruct (Bs n (d0 ++ [v] ++ e0)) as (before & s & d & e & after & E1 & E2 & E3); [exact Nok | reflexivity | apply nb_db; exact M|].
    exists before, s, (d ++ d0), (e0 ++ e), after. rewrite app_length, Nat2N.inj_add.
    split; [rewrite E1, <- !app_assoc; reflexivity|]. split; [subst d0; lia|].
    apply (C30_reported _ _ F'). apply (directive_refused a l id (args1 ++ LNumeric v :: args2)); [exact W | exact (No Lim)].
Qed.
Print Assumptions C99_data.

(** The other directives take a number of at most 12 bits; there are no others. *)
Theorem C99_directive : forall p rs l id args v, Forall node_ok p -> assemble p = Done (Ok rs) ->
  In (NDirective l id args) p -> In (LNumeric v) args ->
  names id "DB" = true /\ v <= 255 \/
  (names id "ORG" = true \/ names id "EQU" = true) /\ args = [LNumeric v] /\ v <= 4095.
Proof.
  intros p rs l id args v F A I Iv. apply (assemble_ok _ _ F) in A. destruct A as [W _].
  destruct (wf_directives _ W _ _ _ I) as (d & M). inversion M as [? ? Nm Le|? ? Nm Le|? ? Nm Ne Fa]; subst.
  - destruct Iv as [E|[]]. injection E as ->. right. auto.
  - destruct Iv as [E|[]]. injection E as ->. right. auto.
  - left. rewrite Forall_forall in Fa. specialize (Fa _ Iv). auto.
Qed.
Print Assumptions C99_directive.

(** The README (line 42) has 12-bit numbers valid "in the context of a mnemonic only, not within
    directives".  That is not so, *)
Theorem C99_twelve_refuted : exists p rs l id v, Forall node_ok p /\ assemble p = Done (Ok rs) /\
  In (NDirective l id [LNumeric v]) p /\ 255 < v /\ memory rs <> [].
Proof.
  exists (nodes (u ".org $200" ++ nl ++ u "cls" ++ nl)). do 4 eexists. split; [apply nodes_ok|].
  split; [vm_compute; reflexivity|]. split; [vm_compute; left; reflexivity|]. split; [reflexivity | discriminate].
Qed.
Print Assumptions C99_twelve_refuted.

(** but where there is such a number the directive is one of the other two. *)
Theorem C99_twelve : forall p rs l id args v, Forall node_ok p -> assemble p = Done (Ok rs) ->
  In (NDirective l id args) p -> In (LNumeric v) args -> 255 < v ->
  (names id "ORG" = true \/ names id "EQU" = true) /\ args = [LNumeric v].
Proof.
  intros p rs l id args v F A I Iv L. destruct (C99_directive p rs l id args v F A I Iv) as [[_ X]|(X & Y & _)]; [lia | auto].
Qed.
Print Assumptions C99_twelve.

(** ** Instances *)

Definition drawing (n : string) (b : string) : list node := nodes
  (u ".org $200" ++ nl ++ u "x: drw v1, v2, " ++ u n ++ nl ++ u "jp x" ++ nl ++ u ".db ""ab"", " ++ u b ++ u ", 3" ++ nl).

Example C99_instance :
  assemble (drawing "5" "7") = Done (Ok [mk_range 0x200 [0xD1; 0x25; 0x12; 0; 97; 98; 7; 3]]) /\
  assemble (drawing "15" "7") = Done (Ok [mk_range 0x200 [0xD1; 0x2F; 0x12; 0; 97; 98; 7; 3]]) /\
  assemble (drawing "16" "7") = Done (Err (AssemblyFailed (mk_loc (u "f") 2 4 3) (too_big "n" 16))) /\
  assemble (drawing "5" "255") = Done (Ok [mk_range 0x200 [0xD1; 0x25; 0x12; 0; 97; 98; 255; 3]]) /\
  exists l, assemble (drawing "5" "256") = Done (Err (DirectiveInvalid l (AllNumericParametersMustBeByteLiterals (u "db") 256))).
Proof.
  split; [vm_compute; reflexivity|]. split; [vm_compute; reflexivity|]. split; [vm_compute; reflexivity|].
  split; [vm_compute; reflexivity|]. eexists. vm_compute. reflexivity.
Qed.
