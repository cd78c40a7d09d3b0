(** * FmtProofs: formatted numbers are numerals for the number. *)

From Coq Require Import Decimal DecimalFacts DecimalN Hexadecimal HexadecimalFacts HexadecimalN.
From Verif Require Import Base Text SpecLex BaseFacts LexProofs ScanProofs.
Open Scope N_scope.

(** ** Hexadecimal *)

Lemma hex_char_facts : forallb (fun up => forallb (fun d =>
    (digit (hex_char up d) =? d) && among hexadecimal_digits (hex_char up d) &&
    negb ((hex_char up d =? c_ "0") && negb (d =? 0)))
  (map N.of_nat (seq 0 16))) [true; false] = true.
Proof. vm_compute. reflexivity. Qed.

Lemma hex_char_fact : forall up d, d < 16 ->
  digit (hex_char up d) = d /\ among hexadecimal_digits (hex_char up d) = true.
Proof.
  intros up d H. pose proof hex_char_facts as F. rewrite forallb_forall in F.
  assert (I : In up [true; false]) by (destruct up; cbn; auto).
  specialize (F up I). cbv beta in F. rewrite forallb_forall in F.
  assert (J : In d (map N.of_nat (seq 0 16))) by (rewrite <- (N2Nat.id d); apply in_map, in_seq; lia).
  specialize (F d J). cbv beta in F. rewrite !andb_true_iff, N.eqb_eq in F. tauto.
Qed.

Lemma hex_acc_value : forall up d p,
  Npos (Pos.of_hex_uint_acc d p) =
    Npos p * 16 ^ N.of_nat (length (hex_uint_chars up d)) + positional 16 (hex_uint_chars up d).
Proof.
  intros up d.
  assert (G : forall v, v < 16 -> forall r q p, Npos q = Npos p * 16 + v ->
    Npos q * 16 ^ N.of_nat (length r) + positional 16 r =
    Npos p * 16 ^ N.of_nat (length (hex_char up v :: r)) + positional 16 (hex_char up v :: r)).
  { intros v Hv r q p E. cbn [positional length]. rewrite (proj1 (hex_char_fact up v Hv)), E.
    rewrite Nat2N.inj_succ, N.pow_succ_r'. lia. }
  induction d; intros p; cbn [Pos.of_hex_uint_acc hex_uint_chars]; [cbn; lia|..];
    rewrite IHd; apply G; lia.
Qed.

Lemma hex_uint_value : forall up d, N.of_hex_uint d = positional 16 (hex_uint_chars up d).
Proof.
  intros up d. unfold N.of_hex_uint.
  assert (G : forall v, v < 16 -> forall r p, Npos p = v ->
    Npos p * 16 ^ N.of_nat (length r) + positional 16 r = positional 16 (hex_char up v :: r)).
  { intros v Hv r p E. cbn [positional]. rewrite (proj1 (hex_char_fact up v Hv)), E. reflexivity. }
  induction d; cbn [Pos.of_hex_uint hex_uint_chars]; [reflexivity | |
    rewrite (hex_acc_value up); apply G; lia ..].
  rewrite IHd. cbn [positional]. rewrite (proj1 (hex_char_fact up 0 ltac:(lia))). lia.
Qed.

(** The number formatted reads back. *)
Theorem fmt_hex_value : forall up n, positional 16 (fmt_hex up n) = n.
Proof.
  intros up n. unfold fmt_hex. rewrite <- hex_uint_value. apply HexadecimalN.Unsigned.of_to.
Qed.

Lemma hex_uint_digits : forall up d, forallb (among hexadecimal_digits) (hex_uint_chars up d) = true.
Proof.
  intros up d. induction d; cbn [hex_uint_chars forallb]; [reflexivity|..];
    rewrite IHd; match goal with |- context [hex_char up ?v] => rewrite (proj2 (hex_char_fact up v ltac:(lia))) end; reflexivity.
Qed.

Theorem fmt_hex_digits : forall up n, forallb (among hexadecimal_digits) (fmt_hex up n) = true.
Proof. intros. apply hex_uint_digits. Qed.

(** There is a digit, and no leading zero but for the number zero. *)
Theorem fmt_hex_normal : forall up n, exists c r, fmt_hex up n = c :: r /\ (digit c = 0 -> fmt_hex up n = [c]).
Proof.
  intros up n. unfold fmt_hex.
  assert (U : Hexadecimal.unorm (N.to_hex_uint n) = N.to_hex_uint n).
  { rewrite <- HexadecimalN.Unsigned.to_of. rewrite HexadecimalN.Unsigned.of_to. reflexivity. }
  assert (Z : forall d, (nb_digits (nzhead d) <= nb_digits d)%nat) by (induction d; cbn; lia).
  destruct (N.to_hex_uint n) as [|d|d|d|d|d|d|d|d|d|d|d|d|d|d|d|d] eqn:E;
    [discriminate| |cbn [hex_uint_chars]; eexists; eexists; split; [reflexivity|];
      match goal with |- context [hex_char up ?v] => rewrite (proj1 (hex_char_fact up v ltac:(lia))) end; discriminate ..].
  unfold Hexadecimal.unorm in U. cbn [nzhead] in U. cbn [hex_uint_chars].
  destruct (nzhead d) as [|e|e|e|e|e|e|e|e|e|e|e|e|e|e|e|e] eqn:X.
  1: { injection U as <-. eexists. eexists. split; reflexivity. }
  all: exfalso; try discriminate.
  injection U as ->. specialize (Z d). rewrite X in Z. cbn in Z. lia.
Qed.

Lemma hex_digit_below : forall c, among hexadecimal_digits c = true -> digit c < 16.
Proof. intros c H. apply hex_digit_value. rewrite is_hex_digit_spec. exact H. Qed.

(** The number of digits. *)
Theorem fmt_hex_length : forall up n k, (1 <= k)%nat -> (n < 16 ^ N.of_nat k <-> (length (fmt_hex up n) <= k)%nat).
Proof.
  intros up n k K. destruct (fmt_hex_normal up n) as (c & r & E & Z).
  assert (V := fmt_hex_value up n). assert (D := fmt_hex_digits up n).
  rewrite forallb_forall in D.
  assert (B : positional 16 (fmt_hex up n) < 16 ^ N.of_nat (length (fmt_hex up n))).
  { apply positional_lt; [lia|]. intros x I. apply hex_digit_below, D, I. }
  rewrite V in B. split; intros H.
  - destruct (le_lt_dec (length (fmt_hex up n)) k) as [L|L]; [exact L|exfalso].
    destruct (N.eq_dec (digit c) 0) as [Hz|Hz]; [rewrite (Z Hz) in L; cbn in L; lia|].
    rewrite E in V, L. cbn [positional length] in V, L.
    assert (P : 16 ^ N.of_nat k <= 16 ^ N.of_nat (length r)) by (apply N.pow_le_mono_r; lia).
    assert (16 ^ N.of_nat (length r) <= digit c * 16 ^ N.of_nat (length r)) by nia. lia.
  - assert (P : 16 ^ N.of_nat (length (fmt_hex up n)) <= 16 ^ N.of_nat k) by (apply N.pow_le_mono_r; lia). lia.
Qed.

(** ** Decimal *)

Lemma dec_acc_value : forall d p,
  Npos (Pos.of_uint_acc d p) = Npos p * 10 ^ N.of_nat (length (uint_chars d)) + positional 10 (uint_chars d).
Proof.
  assert (G : forall c v, digit c = v -> forall r q p, Npos q = Npos p * 10 + v ->
    Npos q * 10 ^ N.of_nat (length r) + positional 10 r =
    Npos p * 10 ^ N.of_nat (length (c :: r)) + positional 10 (c :: r)).
  { intros c v Hv r q p E. cbn [positional length]. rewrite Hv, E, Nat2N.inj_succ, N.pow_succ_r'. lia. }
  induction d; intros p; cbn [Pos.of_uint_acc uint_chars]; [cbn; lia|..];
    (rewrite IHd; eapply G; [vm_compute; reflexivity | lia]).
Qed.

Theorem fmt_dec_value : forall n, positional 10 (fmt_dec n) = n.
Proof.
  intros n. unfold fmt_dec. rewrite <- (DecimalN.Unsigned.of_to n) at 2.
  generalize (N.to_uint n). intros d. unfold N.of_uint.
  assert (G : forall c r p, digit c = Npos p ->
    Npos p * 10 ^ N.of_nat (length r) + positional 10 r = positional 10 (c :: r)).
  { intros c r p E. cbn [positional]. rewrite E. reflexivity. }
  induction d; cbn [Pos.of_uint uint_chars]; [reflexivity | | rewrite dec_acc_value; symmetry; apply G; reflexivity ..].
  cbn [positional]. change (digit (c_ "0")) with 0. rewrite IHd. lia.
Qed.

Theorem fmt_dec_digits : forall n, forallb (among decimal_digits) (fmt_dec n) = true.
Proof.
  intros n. unfold fmt_dec. induction (N.to_uint n) as [|d IH|d IH|d IH|d IH|d IH|d IH|d IH|d IH|d IH|d IH]; cbn [uint_chars forallb]; rewrite ?IH; reflexivity.
Qed.

Theorem fmt_dec_normal : forall n, exists c r, fmt_dec n = c :: r /\ (digit c = 0 -> fmt_dec n = [c]).
Proof.
  intros n. unfold fmt_dec.
  assert (U : Decimal.unorm (N.to_uint n) = N.to_uint n).
  { rewrite <- DecimalN.Unsigned.to_of. rewrite DecimalN.Unsigned.of_to. reflexivity. }
  assert (Z : forall d, (Decimal.nb_digits (Decimal.nzhead d) <= Decimal.nb_digits d)%nat) by (induction d; cbn; lia).
  destruct (N.to_uint n) as [|d|d|d|d|d|d|d|d|d|d] eqn:E;
    [discriminate| |cbn [uint_chars]; eexists; eexists; split; [reflexivity|]; discriminate ..].
  unfold Decimal.unorm in U. cbn [Decimal.nzhead] in U. cbn [uint_chars].
  destruct (Decimal.nzhead d) as [|e|e|e|e|e|e|e|e|e|e] eqn:X.
  1: { injection U as <-. eexists. eexists. split; reflexivity. }
  all: exfalso; try discriminate.
  injection U as ->. specialize (Z d). rewrite X in Z. cbn in Z. lia.
Qed.
