(** * InstructionProofs: instructions against the README tables (C20-C23). *)

From Verif Require Import Base Text U12 Parser Opcode Instruction SpecLex SpecOpcode
  BaseFacts OpcodeProofs.
Open Scope N_scope.

(** ** Letter case *)

Definition lower (c : char) : char := if (65 <=? c) && (c <=? 90) then c + 32 else c.

Lemma to_lowercase_ascii : forall s, ascii s -> to_lowercase s = map lower s.
Proof.
  induction 1 as [|c s Hc H IH]; [reflexivity|]. unfold to_lowercase in *. cbn [flat_map map].
  rewrite IH. unfold lower_char, lower. change (c_ "A") with 65. change (c_ "Z") with 90.
  destruct ((65 <=? c) && (c <=? 90)); [reflexivity|].
  replace (c =? 8490) with false by lia. replace (c =? 304) with false by lia. reflexivity.
Qed.

Lemma upper_lower : forall c, upper (lower c) = upper c.
Proof.
  intros c. unfold upper, lower.
  destruct ((65 <=? c) && (c <=? 90)) eqn:E1; [|reflexivity].
  replace ((97 <=? c + 32) && (c + 32 <=? 122)) with true by lia.
  replace ((97 <=? c) && (c <=? 122)) with false by lia. lia.
Qed.

Lemma lower_upper : forall c, lower (upper c) = lower c.
Proof.
  intros c. unfold upper, lower.
  destruct ((97 <=? c) && (c <=? 122)) eqn:E2; [|reflexivity].
  replace ((65 <=? c - 32) && (c - 32 <=? 90)) with true by lia.
  replace ((65 <=? c) && (c <=? 90)) with false by lia. lia.
Qed.

Lemma named_lowercase : forall m name, ascii m ->
  map upper (map lower (u name)) = u name ->
  (named m name <-> str_eqb (to_lowercase m) (map lower (u name)) = true).
Proof.
  intros m name A N. rewrite str_eqb_eq, to_lowercase_ascii by exact A. unfold named. split; intros H.
  - rewrite <- H, map_map. apply map_ext. intros. symmetry. apply lower_upper.
  - rewrite <- N, <- H, !map_map. apply map_ext. intros c. rewrite !upper_lower. reflexivity.
Qed.

(** ** Helpers *)

Lemma to_8_bit_ok : forall v, v <= 255 -> to_8_bit v = Ok v.
Proof. intros v H. unfold to_8_bit, u8_failable_from_u12. replace (v <=? 255) with true by lia. reflexivity. Qed.

Lemma to_8_bit_err : forall v, 255 < v -> to_8_bit v = Err (ExpectingEightBitValue v).
Proof. intros v H. unfold to_8_bit, u8_failable_from_u12. replace (v <=? 255) with false by lia. reflexivity. Qed.

Lemma to_4_bit_ok : forall v, v <= 15 -> to_4_bit v = Ok v.
Proof.
  intros v H. unfold to_4_bit, u8_failable_from_u12. replace (v <=? 255) with true by lia.
  replace (v <? 16) with true by lia. reflexivity.
Qed.

Lemma to_4_bit_err : forall v, 15 < v -> to_4_bit v = Err (ExpectingFourBitValue v).
Proof.
  intros v H. unfold to_4_bit, u8_failable_from_u12. destruct (v <=? 255) eqn:E; [|reflexivity].
  replace (v <? 16) with false by lia. reflexivity.
Qed.

(** ** From a row of the table to the code

    [resolved labels f]: what the code makes of a value operand. *)
Definition resolved (labels : label_map) (f : field) : result instruction_error N :=
  match f with
  | FNumeric v => Ok v
  | FIdentifier label => resolve_label label labels
  | _ => Err (UnableToResolveLabel [])
  end.

Definition narrow (operand : string) (v : N) : result instruction_error N :=
  if String.eqb operand "addr" then Ok v
  else if String.eqb operand "nn" then to_8_bit v
  else to_4_bit v.

Definition reg (f : field) : N := match f with FRegister r => r | _ => 0 end.

(** What a row makes of its fields. *)
Fixpoint row_x (operands : list string) (fields : list field) : N :=
  match operands, fields with
  | o :: os, f :: fs => if String.eqb o "Vx" then reg f else row_x os fs
  | _, _ => 0
  end.
Fixpoint row_y (operands : list string) (fields : list field) : N :=
  match operands, fields with
  | o :: os, f :: fs => if String.eqb o "Vy" then reg f else row_y os fs
  | _, _ => 0
  end.
Fixpoint row_value (labels : label_map) (operands : list string) (fields : list field)
  : result instruction_error N :=
  match operands, fields with
  | o :: os, f :: fs =>
      if String.eqb o "addr" || String.eqb o "nn" || String.eqb o "n"
      then rbind (resolved labels f) (narrow o)
      else row_value labels os fs
  | _, _ => Ok 0
  end.

Ltac is_named H A :=
  match type of H with
  | named ?m ?name =>
      apply (named_lowercase m name A eq_refl) in H;
      let l := eval compute in (map lower (u name)) in
      change (map lower (u name)) with l in H
  end.

Lemma word4 : forall x y v a b c d,
  word x y v [a; b; c; d] =
  nibble x y v 3 a * 4096 + (nibble x y v 2 b * 256 + (nibble x y v 1 c * 16 + (nibble x y v 0 d * 1 + 0))).
Proof. reflexivity. Qed.

(** ** What the code does with a row's instruction *)

Definition labels_ok (labels : label_map) : Prop := forall l v, label_get labels l = Some v -> v <= 4095.

Lemma fits_inv_const : forall o f, fits o f ->
  (o = "Vx" -> exists r, f = FRegister r)%string /\
  (o = "Vy" -> exists r, f = FRegister r)%string /\
  (o = "V0" -> f = FRegister 0)%string /\
  (o = "I" -> f = FIndex)%string /\
  (o = "[I]" -> f = FIndexIndirect)%string /\
  (o = "DT" -> f = FDelayTimer)%string /\
  (o = "ST" -> f = FSoundTimer)%string /\
  (o = "K" -> f = FKeypad)%string /\
  (o = "F" -> f = FSprite)%string /\
  (o = "B" -> f = FBcd)%string /\
  (value_operand o -> (exists v, f = FNumeric v) \/ (exists l, f = FIdentifier l)).
Proof.
  intros o f H. inversion H; subst;
    repeat match goal with |- _ /\ _ => split end; intros X; try discriminate;
    try (eexists; reflexivity); try reflexivity;
    try (destruct X as [X|[X|[X|[]]]]; discriminate);
    try (match goal with V : value_operand _ |- _ =>
           subst; destruct V as [V|[V|[V|[]]]]; discriminate end).
  destruct f; try discriminate; eauto.
Qed.

Ltac fit H :=
  let K := fresh in
  pose proof (fits_inv_const _ _ H) as K; clear H;
  decompose [and] K; clear K;
  repeat match goal with
  | X : ?a = ?a -> _ |- _ => specialize (X eq_refl)
  | X : ?a = ?b -> _ |- _ => clear X
  | X : value_operand ?o -> _ |- _ =>
      first [ assert (value_operand o) as W by (unfold value_operand; cbn; tauto); specialize (X W); clear W
            | clear X ]
  | X : exists r, _ = FRegister r |- _ => destruct X as [? ?]
  | X : _ \/ _ |- _ => destruct X as [[? ?]|[? ?]]
  end; try subst.

Ltac value_cases labels :=
  match goal with
  | |- context [resolve_label ?l labels] =>
      let E := fresh "E" in
      unfold resolve_label; destruct (label_get labels l) eqn:E; cbn [ok_or rbind]
  | |- _ => idtac
  end.

Ltac width_cases :=
  match goal with
  | |- context [to_8_bit ?v] =>
      destruct (N.leb_spec v 255); [rewrite to_8_bit_ok by assumption | rewrite to_8_bit_err by assumption];
      cbn [rbind]
  | |- context [to_4_bit ?v] =>
      destruct (N.leb_spec v 15); [rewrite to_4_bit_ok by assumption | rewrite to_4_bit_err by assumption];
      cbn [rbind]
  | |- _ => idtac
  end.

Ltac nibbles :=
  repeat match goal with
  | |- context [nibble ?x ?y ?v ?p ?c] =>
      let r := (eval cbv [nibble c_ N_of_ascii N_of_digits N.eqb Pos.eqb orb digit index_of u option_map
                          N.succ Pos.succ N.add N.mul Pos.add Pos.mul] in (nibble x y v p c)) in
      change (nibble x y v p c) with r
  end;
  change (16 ^ 0) with 1; change (16 ^ 1) with 16; change (16 ^ 2) with 256; rewrite ?N.div_1_r.

Ltac row_finish :=
  match goal with
  | |- Err _ = Err _ => reflexivity
  | |- exists o, Ok ?x = Ok o /\ _ =>
      exists x; refine (conj eq_refl (conj (conj _ (conj _ _)) (conj _ _)));
      [ cbn [nibble_fields]; repeat constructor; lia
      | cbn [byte_fields]; repeat constructor; lia
      | cbn [address_fields]; repeat constructor; lia
      | unfold nibbles_in_range; cbn [nibble_fields]; repeat constructor; lia
      | cbn [opcode_word]; rewrite word4; nibbles; lia ]
  end.

Ltac row_reduce :=
  cbv [opcode_0 opcode_1 opcode_2 opcode_3 str_eqb u N_of_ascii N_of_digits N.eqb Pos.eqb andb orb
       N.add N.mul Pos.add Pos.mul row_value row_x row_y reg String.eqb Ascii.eqb Bool.eqb narrow
       resolved rbind ok_or].

Lemma row_instruction : forall m fields labels pattern name operands,
  ascii m -> Forall field_ok fields -> labels_ok labels ->
  row_for m fields (pattern, name, operands) ->
  match row_value labels operands fields with
  | Err e => instruction_from m fields labels = Err e
  | Ok v => exists o, instruction_from m fields labels = Ok o /\ well_typed o /\ nibbles_in_range o /\
                      opcode_word o = word (row_x operands fields) (row_y operands fields) v (u pattern)
  end.
Proof.
  intros m fields labels pattern name operands A F L (I & Nm & Fi).
  unfold table in I.
  repeat (destruct I as [I|I]); try contradiction; injection I as <- <- <-;
    is_named Nm A; apply str_eqb_eq in Nm; unfold instruction_from; rewrite Nm; clear Nm;
    repeat match goal with
    | H : Forall2 fits (_ :: _) _ |- _ => inversion H; clear H; subst
    | H : Forall2 fits [] _ |- _ => inversion H; clear H; subst
    end;
    repeat match goal with H : fits _ _ |- _ => fit H end.
  all: forall_inv; cbn [field_ok] in *.
  all: row_reduce; value_cases labels;
       try match goal with E : label_get _ _ = Some _ |- _ => apply L in E end;
       width_cases; row_finish.
Qed.

(** ** No row, no instruction *)

Ltac find_row H :=
  exfalso;
  let rec go rows :=
    match rows with
    | (?p, ?n, ?os) :: ?rest =>
        first
          [ lazymatch goal with
            | Nm : map upper ?m = ?l |- _ =>
                let l' := (eval cbv in (u n)) in constr_eq l l';
                apply (H (p, n, os)); cbn beta iota delta [row_for];
                refine (conj _ (conj Nm _));
                [ | solve [repeat first [apply Forall2_nil | apply Forall2_cons
                        | apply fits_value; [cbv [value_operand In]; tauto | reflexivity] | constructor]] ];
                cbv [table];
                repeat first [left; reflexivity | right]
            end
          | go rest ]
    end in
  let t := eval cbv [table] in table in go t.

Ltac named_from A E :=
  match type of E with
  | str_eqb (to_lowercase ?m) (u ?l) = true =>
      let n := eval cbv in (map upper (u l)) in
      let Nm := fresh "Nm" in
      assert (Nm : map upper m = n) by
        (apply str_eqb_eq in E; rewrite to_lowercase_ascii in E by exact A;
         change n with (map upper (u l)); rewrite <- E, map_map; apply map_ext; intros;
         symmetry; apply upper_lower);
      clear E
  end.

Lemma no_row_instruction : forall m fields labels, ascii m ->
  (forall row, ~ row_for m fields row) ->
  instruction_from m fields labels =
  Err (NoMatchingFormat m
         match fields with
         | [] => None
         | _ => Some (join (u ", ") (map field_fmt fields))
         end).
Proof.
  intros m fields labels A H. unfold instruction_from.
  assert (VO : forall o, In o ["addr"; "nn"; "n"]%string -> value_operand o) by (intros o Ho; exact Ho).
  destruct fields as [|f [|g [|h [|k r]]]].
  - unfold opcode_0.
    repeat match goal with
    | |- context [str_eqb (to_lowercase m) (u ?l)] =>
        let E := fresh "E" in destruct (str_eqb (to_lowercase m) (u l)) eqn:E;
        [named_from A E; find_row H|]; clear E
    end. reflexivity.
  - unfold opcode_1.
    repeat match goal with
    | |- context [str_eqb (to_lowercase m) (u ?l)] =>
        let E := fresh "E" in destruct (str_eqb (to_lowercase m) (u l)) eqn:E;
        [named_from A E; destruct f; try reflexivity; find_row H|]; clear E
    end. reflexivity.
  - unfold opcode_2.
    repeat match goal with
    | |- context [str_eqb (to_lowercase m) (u ?l)] =>
        let E := fresh "E" in destruct (str_eqb (to_lowercase m) (u l)) eqn:E;
        [named_from A E; destruct f as [| r | | | | | | | |]; destruct g; try reflexivity;
         try (destruct r; try reflexivity); find_row H|]; clear E
    end. reflexivity.
  - unfold opcode_3.
    destruct (str_eqb (to_lowercase m) (u "drw")) eqn:E; [|reflexivity].
    named_from A E. destruct f; try reflexivity; destruct g; try reflexivity;
      destruct h; try reflexivity; find_row H.
  - reflexivity.
Qed.
