(** * OperandProofs: names as operands (C18, C19). *)

From Verif Require Import Base Text Location Token Parser SpecLex SpecGrammar SpecOpcode BaseFacts ParseProofs.
Open Scope N_scope.

(** The names that stand for registers and special operands, in upper case. *)
Definition reserved : list (str * field) :=
  [ (u "DT", FDelayTimer); (u "ST", FSoundTimer); (u "I", FIndex); (u "[I]", FIndexIndirect);
    (u "K", FKeypad); (u "B", FBcd); (u "F", FSprite);
    (u "V0", FRegister 0); (u "V1", FRegister 1); (u "V2", FRegister 2); (u "V3", FRegister 3);
    (u "V4", FRegister 4); (u "V5", FRegister 5); (u "V6", FRegister 6); (u "V7", FRegister 7);
    (u "V8", FRegister 8); (u "V9", FRegister 9); (u "VA", FRegister 10); (u "VB", FRegister 11);
    (u "VC", FRegister 12); (u "VD", FRegister 13); (u "VE", FRegister 14); (u "VF", FRegister 15) ].

(** Reading a name without regard to case. *)
Definition caseless (id : str) : field :=
  match assoc (map upper id) reserved with
  | Some f => f
  | None => FIdentifier id
  end.

(** The four spellings which are not recognised. *)
Definition mixed : list str := [u "Dt"; u "dT"; u "St"; u "sT"].

Lemma assoc_in : forall (A : Type) k (l : list (str * A)) a, assoc k l = Some a -> In (k, a) l.
Proof.
  induction l as [|[k' b] l IH]; intros a H; [discriminate|]. cbn [assoc] in H.
  destruct (list_eq_dec N.eq_dec k k'); [injection H as <-; left; congruence | right; apply IH; exact H].
Qed.

Lemma assoc_none : forall (A : Type) k (l : list (str * A)), assoc k l = None -> forall a, ~ In (k, a) l.
Proof.
  induction l as [|[k' b] l IH]; intros H a I; [exact I|]. cbn [assoc] in H.
  destruct (list_eq_dec N.eq_dec k k'); [discriminate|]. destruct I as [I|I]; [congruence | exact (IH H a I)].
Qed.

Lemma upper_inv : forall c k, upper c = k ->
  (65 <= k <= 90 /\ (c = k \/ c = k + 32)) \/ (~ 97 <= k <= 122 /\ ~ 65 <= k <= 90 /\ c = k).
Proof. intros c k <-. unfold upper. destruct (97 <=? c) eqn:A, (c <=? 122) eqn:B; cbn [andb]; lia. Qed.

Definition known (x : str * field) : bool :=
  let '(id, f) := x in
  match assoc (map upper id) reserved with
  | Some g => match f, g with
              | FRegister a, FRegister b => a =? b
              | FDelayTimer, FDelayTimer | FSoundTimer, FSoundTimer | FIndex, FIndex
              | FIndexIndirect, FIndexIndirect | FKeypad, FKeypad | FBcd, FBcd | FSprite, FSprite => true
              | _, _ => false
              end
  | None => false
  end.

Lemma listed_reserved : forall id f, In (id, f) (special_operands ++ register_operands) ->
  assoc (map upper id) reserved = Some f /\ ~ In id mixed.
Proof.
  intros id f I.
  assert (K : forallb known (special_operands ++ register_operands) = true) by (vm_compute; reflexivity).
  assert (M : forallb (fun x => negb (existsb (str_eqb (fst x)) mixed)) (special_operands ++ register_operands) = true)
    by (vm_compute; reflexivity).
  rewrite forallb_forall in K, M. specialize (K _ I). specialize (M _ I). split.
  - unfold known in K. destruct (assoc (map upper id) reserved) as [g|]; [|discriminate].
    destruct f, g; try discriminate; try reflexivity. apply N.eqb_eq in K. congruence.
  - intros J. cbn [fst] in M. apply negb_true_iff in M. rewrite <- not_true_iff_false in M. apply M.
    apply existsb_exists. exists id. split; [exact J | apply str_eqb_refl].
Qed.

Ltac letters :=
  repeat match goal with
  | H : upper ?c = _ |- _ => apply upper_inv in H; destruct H as [[? [H|H]]|[? [? H]]]; try lia
  end.

Theorem caseless_operand : forall id, ~ In id mixed -> operand id = caseless id.
Proof.
  intros id N. unfold operand, caseless.
  destruct (assoc id (special_operands ++ register_operands)) as [f|] eqn:E.
  - apply assoc_in in E. apply listed_reserved in E. destruct E as [E _]. rewrite E. reflexivity.
  - destruct (assoc (map upper id) reserved) as [f|] eqn:R; [|reflexivity]. exfalso.
    apply assoc_in in R. unfold reserved in R.
    repeat (destruct R as [R|R];
      [injection R as R _; destruct id as [|a [|b [|c [|d r]]]]; try discriminate;
       cbn [map] in R; injection R; clear R; intros;
       repeat match goal with H : _ = upper _ |- _ => symmetry in H end;
       letters; subst; first [vm_compute in E; discriminate | apply N; unfold mixed; cbn [In u]; tauto] |]).
    destruct R.
Qed.

Theorem mixed_operand : forall id, In id mixed -> operand id = FIdentifier id.
Proof. intros id I. repeat (destruct I as [<-|I]; [reflexivity|]). destruct I. Qed.

Theorem label_operand : forall id,
  operand id = FIdentifier id <-> In id mixed \/ assoc (map upper id) reserved = None.
Proof.
  intros id. destruct (in_dec (list_eq_dec N.eq_dec) id mixed) as [I|N].
  - rewrite (mixed_operand id I). tauto.
  - rewrite (caseless_operand id N). unfold caseless.
    destruct (assoc (map upper id) reserved) as [f|] eqn:R.
    + split; [|intros [J|J]; [contradiction | discriminate]]. intros ->. exfalso.
      apply assoc_in in R. unfold reserved in R. repeat (destruct R as [R|R]; [discriminate|]). destruct R.
    + tauto.
Qed.

(** Other names are labels, and distinct ones, whatever their case. *)
Theorem operand_cases : forall id,
  operand id = FIdentifier id \/ exists f, assoc (map upper id) reserved = Some f /\ operand id = f.
Proof.
  intros id. unfold operand. destruct (assoc id (special_operands ++ register_operands)) as [f|] eqn:E; [|auto].
  right. apply assoc_in, listed_reserved in E. exists f. tauto.
Qed.
