(** * BaseFacts: lemmas about the language-level definitions of Base.v and Text.v. *)

From Verif Require Import Base Text.
From Coq Require Export Lia ZifyBool ZifyN ZifyNat.
From Coq Require Export ZArith Arith.
Open Scope N_scope.
Open Scope list_scope.

Ltac Zify.zify_post_hook ::= Z.div_mod_to_equations.

Lemma str_eqb_eq : forall a b, str_eqb a b = true <-> a = b.
Proof.
  induction a as [|x a IH]; destruct b as [|y b]; cbn; split; intros H;
    try reflexivity; try discriminate.
  - apply andb_true_iff in H. destruct H as [H1 H2].
    apply N.eqb_eq in H1. apply IH in H2. subst. reflexivity.
  - inversion H; subst. apply andb_true_iff. split; [apply N.eqb_refl | apply IH; reflexivity].
Qed.

Lemma str_eqb_refl : forall a, str_eqb a a = true.
Proof. intros. apply str_eqb_eq. reflexivity. Qed.

Lemma str_eqb_neq : forall a b, str_eqb a b = false <-> a <> b.
Proof.
  intros a b. destruct (str_eqb a b) eqn:E; split; intros H; try discriminate; try reflexivity.
  - apply str_eqb_eq in E. contradiction.
  - intros ->. rewrite str_eqb_refl in E. discriminate.
Qed.

Lemma str_eqb_sym : forall a b, str_eqb a b = str_eqb b a.
Proof.
  intros a b. destruct (str_eqb b a) eqn:E.
  - apply str_eqb_eq in E. subst. apply str_eqb_refl.
  - apply str_eqb_neq. apply str_eqb_neq in E. congruence.
Qed.

Definition str_dec (a b : str) : {a = b} + {a <> b} := list_eq_dec N.eq_dec a b.

Lemma len_utf8_pos : forall c, 0 < len_utf8 c.
Proof. intros. unfold len_utf8. repeat destruct (_ <? _); lia. Qed.

Lemma byte_len_app : forall a b, byte_len (a ++ b) = byte_len a + byte_len b.
Proof. induction a as [|c a IH]; intros; cbn [app byte_len]; [lia | rewrite IH; lia]. Qed.

Lemma byte_len_zero : forall s, byte_len s = 0 -> s = [].
Proof. destruct s as [|c r]; [reflexivity|]. cbn. pose proof (len_utf8_pos c). lia. Qed.

Lemma drop_bytes_app : forall a b, drop_bytes (a ++ b) (byte_len a) = Done b.
Proof.
  induction a as [|c a IH]; intros b.
  - destruct b; reflexivity.
  - cbn [app byte_len drop_bytes]. pose proof (len_utf8_pos c).
    replace (len_utf8 c + byte_len a =? 0) with false by lia.
    replace (len_utf8 c <=? len_utf8 c + byte_len a) with true by lia.
    replace (len_utf8 c + byte_len a - len_utf8 c) with (byte_len a) by lia.
    apply IH.
Qed.

Lemma take_bytes_app : forall a b, take_bytes (a ++ b) (byte_len a) = Done a.
Proof.
  induction a as [|c a IH]; intros b.
  - destruct b; reflexivity.
  - cbn [app byte_len take_bytes]. pose proof (len_utf8_pos c).
    replace (len_utf8 c + byte_len a =? 0) with false by lia.
    replace (len_utf8 c <=? len_utf8 c + byte_len a) with true by lia.
    replace (len_utf8 c + byte_len a - len_utf8 c) with (byte_len a) by lia.
    rewrite IH. reflexivity.
Qed.

Lemma slice_app : forall a b c,
  slice (a ++ b ++ c) (byte_len a) (byte_len a + byte_len b) = Done b.
Proof.
  intros. unfold slice. replace (_ <=? _) with true by lia.
  rewrite drop_bytes_app. cbn [bind].
  replace (byte_len a + byte_len b - byte_len a) with (byte_len b) by lia.
  apply take_bytes_app.
Qed.

Lemma to_digit_lt : forall radix c d, to_digit radix c = Some d -> d < radix.
Proof.
  intros radix c d. unfold to_digit. cbv zeta.
  match goal with |- match ?x with _ => _ end = _ -> _ => destruct x as [v|] end;
    [|discriminate].
  destruct (v <? radix) eqn:E; intros H; inversion H; subst; lia.
Qed.

Lemma pow2_64 : 2 ^ 64 = 18446744073709551616.
Proof. reflexivity. Qed.
