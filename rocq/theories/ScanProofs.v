(** * ScanProofs: running the scanner; positions, values, one step, the whole text. *)

From Verif Require Import Base Text Location Token Scanner SpecLex BaseFacts LexProofs.
Open Scope N_scope.

(** ** Newlines and columns *)

Lemma newlines_app : forall a b, newlines (a ++ b) = newlines a + newlines b.
Proof. intros. unfold newlines. rewrite count_occ_app. apply Nat2N.inj_add. Qed.

Lemma newlines_cons : forall c s, newlines (c :: s) = (if c =? LF then 1 else 0) + newlines s.
Proof.
  intros. unfold newlines. cbn [count_occ]. destruct (N.eq_dec c LF) as [->|H].
  - rewrite N.eqb_refl. lia.
  - replace (c =? LF) with false by lia. lia.
Qed.

Lemma newlines_none : forall s, existsb (N.eqb LF) s = false -> newlines s = 0.
Proof.
  induction s as [|c s IH]; [reflexivity|]. cbn [existsb]. intros H.
  apply orb_false_iff in H. destruct H as [H1 H2]. rewrite newlines_cons, IH by exact H2.
  rewrite N.eqb_sym in H1. rewrite H1. reflexivity.
Qed.

Lemma newlines_some : forall s, existsb (N.eqb LF) s = true -> 0 < newlines s.
Proof.
  induction s as [|c s IH]; [discriminate|]. cbn [existsb]. intros H.
  rewrite newlines_cons. rewrite (N.eqb_sym LF c) in H.
  destruct (c =? LF); [lia|]. cbn in H. specialize (IH H). lia.
Qed.

Lemma last_line_none : forall s, existsb (N.eqb LF) s = false -> last_line s = s.
Proof. destruct s as [|c s]; [reflexivity|]. intros H. cbn [last_line]. rewrite H. reflexivity. Qed.

Lemma last_line_app : forall a b,
  last_line (a ++ b) = if existsb (N.eqb LF) b then last_line b else last_line a ++ b.
Proof.
  induction a as [|c a IH]; intros b.
  - cbn [app]. destruct (existsb (N.eqb LF) b) eqn:E; [reflexivity|].
    apply last_line_none. exact E.
  - cbn [app last_line]. change (c :: a ++ b) with ((c :: a) ++ b). rewrite existsb_app.
    destruct (existsb (N.eqb LF) b) eqn:E.
    + rewrite orb_true_r. rewrite IH, E. reflexivity.
    + rewrite orb_false_r. destruct (existsb (N.eqb LF) (c :: a)) eqn:E'.
      * rewrite IH, E. reflexivity.
      * reflexivity.
Qed.

Lemma first_line_pos : forall m, m <> [] -> (0 < length (first_line m))%nat.
Proof. destruct m as [|c m]; [contradiction|]. intros _. cbn. destruct (c =? LF); cbn; lia. Qed.

Lemma first_line_none : forall m, existsb (N.eqb LF) m = false -> first_line m = m.
Proof.
  induction m as [|c m IH]; [reflexivity|]. cbn [existsb first_line]. intros H.
  apply orb_false_iff in H. destruct H as [H1 H2]. rewrite N.eqb_sym in H1. rewrite H1.
  rewrite IH by exact H2. reflexivity.
Qed.

Lemma triple_eq : forall (a a' b b' c c' : N), a = a' -> b = b' -> c = c' -> (a, b, c) = (a', b', c').
Proof. congruence. Qed.

Lemma advance_fold : forall m n f off,
  fold_left advance_step m (n, f, off) =
  (n + newlines m,
   if n =? 0 then f + N.of_nat (length (first_line m)) else f,
   if existsb (N.eqb LF) m then 1 + N.of_nat (length (last_line m))
   else off + N.of_nat (length m)).
Proof.
  induction m as [|c m IH]; intros n f off.
  - cbn [fold_left]. unfold newlines. cbn [count_occ first_line last_line existsb length].
    destruct (n =? 0); repeat f_equal; lia.
  - cbn [fold_left advance_step]. change newline with LF.
    rewrite newlines_cons. cbn [existsb last_line first_line]. rewrite (N.eqb_sym LF c).
    destruct (c =? LF) eqn:E.
    + rewrite IH. cbn [orb length]. replace (n + 1 =? 0) with false by lia.
      apply triple_eq; [lia | destruct (n =? 0); lia |].
      destruct (existsb (N.eqb LF) m) eqn:Em; [reflexivity|].
      rewrite last_line_none by exact Em. reflexivity.
    + rewrite IH. cbn [orb length].
      destruct (existsb (N.eqb LF) m) eqn:Em.
      * apply triple_eq; [lia | destruct (n =? 0); lia | reflexivity].
      * apply triple_eq; [lia | destruct (n =? 0); lia | lia].
Qed.

Lemma total_bytes : forall m acc,
  fold_left (fun acc x => acc + len_utf8 x) m acc = acc + byte_len m.
Proof. induction m as [|c m IH]; intros acc; cbn [fold_left byte_len]; [lia | rewrite IH; lia]. Qed.

(** ** The scanner standing after [before], in front of [s] *)
Definition at_ (file before s : str) : scanner :=
  mk_scanner file (before ++ s) (byte_len before) (1 + newlines before)
             (1 + N.of_nat (length (last_line before))).

Lemma at_new : forall file s, scanner_new file s = at_ file [] s.
Proof. reflexivity. Qed.

Lemma at_rest : forall file before s, rest_of_input (at_ file before s) = Done s.
Proof. intros. unfold rest_of_input, at_. cbn [sc_input sc_position]. apply drop_bytes_app. Qed.

Lemma at_end : forall file before s,
  is_at_end (at_ file before s) = match s with [] => true | _ => false end.
Proof.
  intros. unfold is_at_end, at_. cbn [sc_input sc_position]. rewrite byte_len_app.
  destruct s as [|c s]; cbn [byte_len]; [lia|]. pose proof (len_utf8_pos c). lia.
Qed.

Lemma at_char : forall file before c s, char_at (at_ file before (c :: s)) 0 = Done c.
Proof.
  intros. unfold char_at, at_. cbn [sc_input sc_position]. rewrite N.add_0_r, drop_bytes_app.
  reflexivity.
Qed.

Lemma at_advance : forall file before m s, m <> [] ->
  advance_by (at_ file before (m ++ s)) (byte_len m)
  = Done (located file before m, at_ file (before ++ m) s).
Proof.
  intros file before m s H. unfold advance_by, at_.
  cbn [sc_input sc_position sc_file sc_line sc_offset].
  rewrite slice_app. cbn [bind]. rewrite total_bytes, N.add_0_l, N.eqb_refl. cbn [assert_ bind].
  rewrite advance_fold. change (0 =? 0) with true. cbn iota.
  unfold loc_new. pose proof (first_line_pos m H).
  rewrite (proj2 (andb_true_iff _ _)) by lia.
  cbn [assert_ bind]. unfold located.
  replace (before ++ m ++ s) with ((before ++ m) ++ s) by (rewrite <- app_assoc; reflexivity).
  replace (byte_len before + byte_len m) with (byte_len (before ++ m)) by apply byte_len_app.
  replace (1 + newlines before + (0 + newlines m)) with (1 + newlines (before ++ m))
    by (rewrite newlines_app; lia).
  rewrite !N.add_0_l. rewrite last_line_app.
  destruct (existsb (N.eqb LF) m) eqn:E; [reflexivity|].
  rewrite app_length.
  replace (1 + N.of_nat (length (last_line before)) + N.of_nat (length m))
    with (1 + N.of_nat (length (last_line before) + length m)) by lia.
  reflexivity.
Qed.

Lemma at_slice : forall file before m s,
  slice (sc_input (at_ file before (m ++ s))) (sc_position (at_ file before (m ++ s)))
        (sc_position (at_ file before (m ++ s)) + byte_len m) = Done m.
Proof. intros. unfold at_. cbn [sc_input sc_position]. apply slice_app. Qed.

Lemma at_slice_tail : forall file before c m s, len_utf8 c = 1 ->
  slice (sc_input (at_ file before ((c :: m) ++ s)))
        (sc_position (at_ file before ((c :: m) ++ s)) + 1)
        (sc_position (at_ file before ((c :: m) ++ s)) + byte_len (c :: m)) = Done m.
Proof.
  intros file before c m s H. unfold at_. cbn [sc_input sc_position byte_len]. rewrite H.
  replace (before ++ (c :: m) ++ s) with ((before ++ [c]) ++ m ++ s)
    by (rewrite <- app_assoc; reflexivity).
  replace (byte_len before + 1) with (byte_len (before ++ [c]))
    by (rewrite byte_len_app; cbn [byte_len]; lia).
  replace (byte_len before + (1 + byte_len m)) with (byte_len (before ++ [c]) + byte_len m)
    by (rewrite byte_len_app; cbn [byte_len]; lia).
  apply slice_app.
Qed.

Lemma at_slice_inner : forall file before c m d s, len_utf8 c = 1 -> len_utf8 d = 1 ->
  slice (sc_input (at_ file before ((c :: m ++ [d]) ++ s)))
        (sc_position (at_ file before ((c :: m ++ [d]) ++ s)) + 1)
        (sc_position (at_ file before ((c :: m ++ [d]) ++ s)) + byte_len (c :: m ++ [d]) - 1)
  = Done m.
Proof.
  intros file before c m d s H H'. unfold at_. cbn [sc_input sc_position byte_len].
  rewrite byte_len_app. cbn [byte_len]. rewrite H, H'.
  replace (before ++ (c :: m ++ [d]) ++ s) with ((before ++ [c]) ++ m ++ ([d] ++ s))
    by (rewrite <- !app_assoc; cbn; rewrite <- app_assoc; reflexivity).
  replace (byte_len before + 1) with (byte_len (before ++ [c]))
    by (rewrite byte_len_app; cbn [byte_len]; lia).
  replace (byte_len before + (1 + (byte_len m + (1 + 0))) - 1)
    with (byte_len (before ++ [c]) + byte_len m)
    by (rewrite byte_len_app; cbn [byte_len]; lia).
  apply slice_app.
Qed.

(** ** Values *)

Lemma digit_facts :
  forallb (fun n => let c := N.of_nat n in
    implb (among hexadecimal_digits c)
          (match to_digit 16 c with Some d => (d =? digit c) && (d <? 16) | None => false end)
    && implb (among decimal_digits c)
             (match to_digit 10 c with Some d => (d =? digit c) && (d <? 10) | None => false end)
    && implb (among "01" c)
             (match bin_char_value c with Some d => (d =? digit c) && (d <? 2) | None => false end))
    (seq 0 128) = true.
Proof. vm_compute. reflexivity. Qed.

Lemma among_small : forall s c, forallb (fun x => x <? 128) (u s) = true ->
  among s c = true -> c < 128.
Proof.
  intros s c H H'. destruct (N.lt_ge_cases c 128) as [|L]; [assumption|].
  rewrite among_big in H' by assumption. discriminate.
Qed.

Lemma digit_fact : forall c, c < 128 ->
  (among hexadecimal_digits c = true -> to_digit 16 c = Some (digit c) /\ digit c < 16) /\
  (among decimal_digits c = true -> to_digit 10 c = Some (digit c) /\ digit c < 10) /\
  (among "01" c = true -> bin_char_value c = Some (digit c) /\ digit c < 2).
Proof.
  intros c Hc. pose proof digit_facts as F. rewrite forallb_forall in F.
  specialize (F (N.to_nat c)). rewrite N2Nat.id in F. cbv zeta in F.
  assert (I : In (N.to_nat c) (seq 0 128)) by (apply in_seq; lia).
  specialize (F I). apply andb_true_iff in F. destruct F as [F F3].
  apply andb_true_iff in F. destruct F as [F1 F2].
  refine (conj _ (conj _ _)); intros H.
  - rewrite H in F1. cbn [implb] in F1. destruct (to_digit 16 c) as [d|]; [|discriminate].
    assert (d = digit c) by lia. subst d. split; [reflexivity | lia].
  - rewrite H in F2. cbn [implb] in F2. destruct (to_digit 10 c) as [d|]; [|discriminate].
    assert (d = digit c) by lia. subst d. split; [reflexivity | lia].
  - rewrite H in F3. cbn [implb] in F3. destruct (bin_char_value c) as [d|]; [|discriminate].
    assert (d = digit c) by lia. subst d. split; [reflexivity | lia].
Qed.

Lemma hex_digit_value : forall c, is_hex_digit c = true -> to_digit 16 c = Some (digit c) /\ digit c < 16.
Proof.
  intros c H. rewrite is_hex_digit_spec in H. apply digit_fact; [|exact H].
  apply (among_small hexadecimal_digits); [reflexivity | exact H].
Qed.

Lemma dec_digit_value : forall c, is_digit c = true -> to_digit 10 c = Some (digit c) /\ digit c < 10.
Proof.
  intros c H. rewrite is_digit_spec in H. apply digit_fact; [|exact H].
  apply (among_small decimal_digits); [reflexivity | exact H].
Qed.

Lemma radix_digits_value : forall bits radix s acc, 0 < radix ->
  (forall c, In c s -> to_digit radix c = Some (digit c) /\ digit c < radix) ->
  acc < 2 ^ bits ->
  radix_digits bits radix acc s =
  let v := acc * radix ^ N.of_nat (length s) + positional radix s in
  if v <? 2 ^ bits then Some v else None.
Proof.
  intros bits radix s. induction s as [|c s IH]; intros acc Hr Hd Ha; cbv zeta.
  - cbn [radix_digits positional length]. rewrite N.pow_0_r.
    replace (acc * 1 + 0) with acc by lia.
    replace (acc <? 2 ^ bits) with true by (symmetry; apply N.ltb_lt; exact Ha). reflexivity.
  - cbn [radix_digits positional length].
    destruct (Hd c (or_introl eq_refl)) as [-> Hc].
    assert (Hp : radix ^ N.of_nat (S (length s)) = radix * radix ^ N.of_nat (length s))
      by (rewrite Nat2N.inj_succ, N.pow_succ_r'; reflexivity).
    rewrite Hp. set (P := radix ^ N.of_nat (length s)) in *.
    assert (HP : 1 <= P) by (assert (P <> 0) by (apply N.pow_nonzero; lia); lia).
    assert (Eq : acc * (radix * P) + (digit c * P + positional radix s)
                 = (acc * radix + digit c) * P + positional radix s) by ring.
    rewrite Eq.
    assert (Le : acc * radix + digit c <= (acc * radix + digit c) * P + positional radix s).
    { pose proof (N.mul_le_mono_l 1 P (acc * radix + digit c) HP). lia. }
    destruct (acc * radix <? 2 ^ bits) eqn:E1.
    + destruct (acc * radix + digit c <? 2 ^ bits) eqn:E2.
      * apply N.ltb_lt in E2. rewrite IH; [reflexivity | exact Hr | | exact E2].
        intros d Hin. apply Hd. right. exact Hin.
      * apply N.ltb_ge in E2. symmetry.
        replace (_ <? 2 ^ bits) with false; [reflexivity|].
        symmetry. apply N.ltb_ge. lia.
    + apply N.ltb_ge in E1. symmetry.
      replace (_ <? 2 ^ bits) with false; [reflexivity|].
      symmetry. apply N.ltb_ge. lia.
Qed.

Lemma from_str_radix_digits : forall bits radix c s,
  to_digit radix c <> None ->
  from_str_radix bits radix (c :: s) = radix_digits bits radix 0 (c :: s).
Proof.
  intros bits radix c s H. unfold from_str_radix. destruct (c =? c_ "+") eqn:E; [|reflexivity].
  apply N.eqb_eq in E. subst c. exfalso. apply H. reflexivity.
Qed.

Lemma positional_lt : forall base s, 0 < base -> (forall c, In c s -> digit c < base) ->
  positional base s < base ^ N.of_nat (length s).
Proof.
  intros base s Hb. induction s as [|c s IH]; intros H; cbn [positional length]; [cbn; lia|].
  rewrite Nat2N.inj_succ, N.pow_succ_r'.
  assert (Hs : positional base s < base ^ N.of_nat (length s))
    by (apply IH; intros d Hd; apply H; right; exact Hd).
  pose proof (H c (or_introl eq_refl)) as Hc.
  pose proof (N.mul_le_mono_r (digit c + 1) base (base ^ N.of_nat (length s)) ltac:(lia)). lia.
Qed.

Lemma hex_value : forall d, d <> [] -> (length d <= 3)%nat -> forallb is_hex_digit d = true ->
  from_str_radix usize_bits 16 d = Some (positional 16 d).
Proof.
  intros d Hn L H. rewrite forallb_forall in H. destruct d as [|c d]; [contradiction|].
  rewrite from_str_radix_digits.
  2:{ destruct (hex_digit_value c) as [-> _]; [apply H; left; reflexivity | discriminate]. }
  rewrite radix_digits_value; [|lia | | vm_compute; reflexivity].
  2:{ intros x Hx. apply hex_digit_value. apply H. exact Hx. }
  cbv zeta. rewrite N.mul_0_l, N.add_0_l.
  assert (B : positional 16 (c :: d) < 16 ^ N.of_nat (length (c :: d))).
  { apply positional_lt; [lia|]. intros x Hx. apply hex_digit_value. apply H. exact Hx. }
  assert (B2 : 16 ^ N.of_nat (length (c :: d)) <= 16 ^ 3) by (apply N.pow_le_mono_r; lia).
  change (16 ^ 3) with 4096 in B2. change usize_bits with 64. rewrite pow2_64.
  replace (_ <? _) with true by (symmetry; apply N.ltb_lt; lia). reflexivity.
Qed.

Lemma dec_value : forall d, d <> [] -> forallb is_digit d = true ->
  from_str_radix usize_bits 10 d =
  if positional 10 d <? 2 ^ 64 then Some (positional 10 d) else None.
Proof.
  intros d Hn H. rewrite forallb_forall in H. destruct d as [|c d]; [contradiction|].
  rewrite from_str_radix_digits.
  2:{ destruct (dec_digit_value c) as [-> _]; [apply H; left; reflexivity | discriminate]. }
  rewrite radix_digits_value; [|lia | | vm_compute; reflexivity].
  2:{ intros x Hx. apply dec_digit_value. apply H. exact Hx. }
  cbv zeta. rewrite N.mul_0_l, N.add_0_l. reflexivity.
Qed.

Lemma lor_bit : forall x b, b < 2 -> N.lor (2 * x) b = 2 * x + b.
Proof.
  intros x b H. assert (Hb : b = 0 \/ b = 1) by lia. destruct Hb as [-> | ->].
  - rewrite N.lor_0_r. lia.
  - destruct x; reflexivity.
Qed.

Lemma undot_digit : forall c, is_bin_digit c = true ->
  bin_char_value c = Some (digit (if c =? c_ "." then c_ "0" else c)) /\
  digit (if c =? c_ "." then c_ "0" else c) < 2.
Proof.
  intros c H. unfold is_bin_digit in H.
  destruct (c =? c_ "0") eqn:E0; [apply N.eqb_eq in E0; subst c; vm_compute; auto|].
  destruct (c =? c_ "1") eqn:E1; [apply N.eqb_eq in E1; subst c; vm_compute; auto|].
  cbn [orb] in H. apply N.eqb_eq in H. subst c. vm_compute. auto.
Qed.

Lemma bin_loop_value : forall whole s acc, forallb is_bin_digit s = true ->
  bin_loop whole acc s =
  Ok (match s with
      | [] => acc
      | _ => (acc * 2 ^ N.of_nat (length s) + positional 2 (undot s)) mod 2 ^ 64
      end).
Proof.
  intros whole s. induction s as [|c s IH]; intros acc H; [reflexivity|].
  cbn [forallb] in H. apply andb_true_iff in H. destruct H as [Hc H].
  cbn [bin_loop]. destruct (undot_digit c Hc) as [-> Hd].
  set (b := digit (if c =? c_ "." then c_ "0" else c)) in *.
  change (usize_checked_shl acc 1) with (Some ((acc * 2 ^ 1) mod 2 ^ 64)). cbv beta iota.
  rewrite IH by exact H. f_equal.
  assert (Em : N.lor ((acc * 2 ^ 1) mod 2 ^ 64) b = (acc * 2 + b) mod 2 ^ 64).
  { change (2 ^ 1) with 2.
    replace ((acc * 2) mod 2 ^ 64) with (2 * (acc mod 2 ^ 63)).
    - rewrite lor_bit by exact Hd. change (2 ^ 63) with 9223372036854775808.
      change (2 ^ 64) with 18446744073709551616.
      clear - Hd. pose proof (N.div_mod' acc 9223372036854775808) as D.
      pose proof (N.mod_lt acc 9223372036854775808 ltac:(lia)) as M.
      set (q := acc / 9223372036854775808) in *. set (r := acc mod 9223372036854775808) in *.
      apply N.mod_unique with (q := q); lia.
    - change (2 ^ 64) with (2 ^ 63 * 2). rewrite N.mul_mod_distr_r by discriminate. lia. }
  rewrite Em. cbn [undot map positional length]. fold (undot s). fold b.
  replace (length (undot s)) with (length s) by (unfold undot; rewrite map_length; reflexivity).
  assert (Hp : 2 ^ N.of_nat (S (length s)) = 2 * 2 ^ N.of_nat (length s))
    by (rewrite Nat2N.inj_succ, N.pow_succ_r'; reflexivity).
  rewrite Hp. set (P := 2 ^ N.of_nat (length s)) in *.
  destruct s as [|c' s].
  - cbn [undot map positional]. subst P. cbn [length N.of_nat]. rewrite N.pow_0_r.
    f_equal. lia.
  - set (q := positional 2 (undot (c' :: s))).
    rewrite <- (N.add_mod_idemp_l _ q) by discriminate.
    rewrite <- (N.mul_mod_idemp_l (_ mod _) P) by discriminate.
    rewrite N.mod_mod by discriminate.
    rewrite (N.mul_mod_idemp_l _ P) by discriminate.
    rewrite (N.add_mod_idemp_l _ q) by discriminate.
    f_equal. ring.
Qed.

Lemma bin_value : forall d, d <> [] -> forallb is_bin_digit d = true ->
  parse_12_bit_bin_str d =
  let v := positional 2 (undot d) mod 2 ^ 64 in
  if v <=? 0xFFF then Ok v else Err (BinaryLiteralOutOfRange d).
Proof.
  intros d Hn H. unfold parse_12_bit_bin_str. rewrite bin_loop_value by exact H.
  destruct d as [|c d]; [contradiction|]. rewrite N.mul_0_l, N.add_0_l. reflexivity.
Qed.

(** ** One step *)

(** The scanner after an error: nothing is left to scan. *)
Definition finished (sc : scanner) : Prop := sc_position sc = byte_len (sc_input sc).

Lemma drop_all : forall s, drop_bytes s (byte_len s) = Done [].
Proof. intros. rewrite <- (app_nil_r s) at 1. apply drop_bytes_app. Qed.

Lemma next_finished : forall sc, finished sc -> next_token sc = Done (None, sc).
Proof.
  intros sc H. unfold next_token, consume_whitespace, rest_of_input.
  rewrite H, drop_all. cbn [bind find_whitespace take_while non_empty].
  unfold is_at_end. rewrite H, N.leb_refl. reflexivity.
Qed.

Lemma jump_finished : forall sc, finished (jump_to_end sc).
Proof. intros. reflexivity. Qed.

Lemma consume_whitespace_at : forall file before s, exists w s',
  s = w ++ s' /\ forallb blank w = true /\
  match s' with [] => True | c :: _ => blank c = false end /\
  consume_whitespace (at_ file before s) = Done (at_ file (before ++ w) s').
Proof.
  intros file before s. unfold consume_whitespace. rewrite at_rest. cbn [bind].
  unfold find_whitespace. rewrite (take_while_ext _ blank) by (apply blank_spec).
  pose proof (take_while_all blank s) as A.
  destruct (take_while_split blank s) as (s' & E & Hs').
  exists (take_while blank s), s'. repeat split; [exact E | exact A | exact Hs' |].
  destruct (take_while blank s) as [|c w] eqn:T.
  - cbn [non_empty]. cbn [app] in E. subst s'. rewrite app_nil_r. reflexivity.
  - cbn [non_empty]. rewrite E at 1. rewrite at_advance by discriminate. reflexivity.
Qed.

Lemma error_here_at : forall file before c s e,
  error_here (at_ file before (c :: s)) e
  = Done (ErrorToken e (located file before [c]), jump_to_end (at_ file before (c :: s))).
Proof.
  intros. unfold error_here, loc_new, at_. cbn [sc_file sc_line sc_offset].
  rewrite (proj2 (andb_true_iff _ _)) by lia. cbn [assert_ bind].
  unfold located. cbn [first_line]. destruct (c =? LF); reflexivity.
Qed.

Lemma first_line_single : forall c, length (first_line [c]) = 1%nat.
Proof. intros. cbn. destruct (c =? LF); reflexivity. Qed.

Lemma consume_char_at : forall file before c s,
  consume_char (at_ file before (c :: s))
  = Done (c, located file before [c], at_ file (before ++ [c]) s).
Proof.
  intros. unfold consume_char. rewrite at_char. cbn [bind].
  change (c :: s) with ([c] ++ s).
  replace (len_utf8 c) with (byte_len [c]) by (cbn; lia).
  rewrite at_advance by discriminate. reflexivity.
Qed.

Lemma comment_bytes_spec : forall s,
  comment_bytes s = byte_len (take_while (fun c => negb (c =? newline)) s).
Proof.
  induction s as [|c s IH]; [reflexivity|]. cbn [comment_bytes take_while].
  destruct (c =? newline); cbn [negb byte_len]; [reflexivity | rewrite IH; reflexivity].
Qed.

(** What one call of the dispatch at a non-blank character does. *)
Inductive step_spec (file before : str) (s : str) : run (token * scanner) -> Prop :=
| step_token : forall k m rest t,
    s = m ++ rest -> lexeme k m rest s -> token_of file before k m t ->
    step_spec file before s (Done (t, at_ file (before ++ m) rest))
| step_bad : forall k m rest e sc,
    lexeme k m rest s -> bad_lexeme k m e -> finished sc ->
    step_spec file before s (Done (ErrorToken e (located file before m), sc))
| step_stuck : forall c s' sc,
    s = c :: s' -> blank c = false ->
    (forall k m rest, s = m ++ rest -> ~ rmatch (pattern k) m) -> finished sc ->
    step_spec file before s (Done (ErrorToken (no_lexeme_error c) (located file before [c]), sc)).

Lemma stuck_when : forall c s, (forall k, first_ok k c = true -> find k (c :: s) = None) ->
  forall k m rest, c :: s = m ++ rest -> ~ rmatch (pattern k) m.
Proof.
  intros c s H k m rest E R. destruct (first_char _ _ R) as (c' & m' & -> & O).
  cbn in E. inversion E; subst. specialize (H _ O).
  destruct (find_complete _ _ rest R) as (m2 & F & _). cbn in F. congruence.
Qed.

Lemma stuck_only : forall k0 c s, first_ok k0 c = true -> find k0 (c :: s) = None ->
  forall k m rest, c :: s = m ++ rest -> ~ rmatch (pattern k) m.
Proof.
  intros k0 c s O F. apply stuck_when. intros k O'.
  assert (k = k0) by (eapply first_ok_inj; eassumption). subst k. exact F.
Qed.

Ltac at_split E :=
  match type of E with
  | ?l = ?r =>
      match goal with
      | |- context [at_ ?f ?b l] =>
          replace (at_ f b l) with (at_ f b r) by (rewrite <- E; reflexivity)
      end
  end.

Ltac solve_single k before c s :=
  rewrite consume_char_at; cbn [bind]; rewrite N.eqb_refl; cbn [assert_ bind];
  eapply (step_token _ _ _ k [c] s); [reflexivity | | constructor];
  destruct (find_lexeme k (c :: s) [c] eq_refl) as (rest & E & L);
  cbn in E; inversion E; subst rest; exact L.

Lemma ascii_len : forall c, c < 128 -> len_utf8 c = 1.
Proof. intros. unfold len_utf8. replace (c <? 128) with true by lia. reflexivity. Qed.

Lemma consume_token_at_spec : forall file before c s, blank c = false ->
  step_spec file before (c :: s) (consume_token_at (at_ file before (c :: s)) c).
Proof.
  intros file before c s Hb. unfold consume_token_at.
  destruct (c =? c_ ";") eqn:E1.
  { apply N.eqb_eq in E1. subst c. unfold consume_single_line_comment.
    rewrite at_char. cbn [bind]. rewrite N.eqb_refl. cbn [assert_ bind]. rewrite at_rest. cbn [bind].
    rewrite comment_bytes_spec.
    set (m := take_while (fun c => negb (c =? newline)) (c_ ";" :: s)).
    assert (F : find KComment (c_ ";" :: s) = Some m) by reflexivity.
    destruct (find_lexeme _ _ _ F) as (rest & E & L). at_split E.
    rewrite at_slice. cbn [bind]. rewrite at_advance by (unfold m; discriminate). cbn [bind].
    eapply step_token; [exact E | exact L | constructor]. }
  destruct (c =? c_ ".") eqn:E2.
  { apply N.eqb_eq in E2. subst c. unfold consume_directive_marker. solve_single KDot before (c_ ".") s. }
  destruct (c =? c_ ":") eqn:E3.
  { apply N.eqb_eq in E3. subst c. unfold consume_label_marker. solve_single KColon before (c_ ":") s. }
  destruct (c =? c_ ",") eqn:E4.
  { apply N.eqb_eq in E4. subst c. unfold consume_comma. solve_single KComma before (c_ ",") s. }
  destruct (c =? 34) eqn:E5.
  { apply N.eqb_eq in E5. subst c. unfold consume_string_literal. rewrite at_rest. cbn [bind].
    destruct (find_string_literal (34 :: s)) as [m|] eqn:F.
    - destruct (find_lexeme KString (34 :: s) m F) as (rest & E & L).
      assert (Hm : exists b, m = QUOTE :: b ++ [QUOTE]).
      { unfold find_string_literal in F. change (34 =? 34) with true in F. cbn iota in F.
        destruct (find_string_body s) as [b|] eqn:FB; [|discriminate]. inversion F; subst.
        destruct (find_string_body_sound _ _ _ (le_n _) FB) as (b' & ? & -> & _). eauto. }
      destruct Hm as (b & ->). at_split E.
      rewrite at_slice_inner by reflexivity. cbn [bind].
      rewrite at_advance by discriminate. cbn [bind].
      eapply step_token; [exact E | exact L | constructor].
    - rewrite error_here_at. eapply step_stuck with (c := 34);
        [reflexivity | exact Hb | | apply jump_finished].
      apply (stuck_only KString); [reflexivity | exact F]. }
  assert (HEX : (c =? c_ "$") || (c =? c_ "#") = true ->
    step_spec file before (c :: s) (consume_hex_literal (at_ file before (c :: s)))).
  { intros Ec. unfold consume_hex_literal. rewrite at_rest. cbn [bind].
    destruct (find_hex_literal (c :: s)) as [m|] eqn:F.
    - destruct (find_lexeme KHex (c :: s) m F) as (rest & E & L).
      assert (Hm : exists d, m = c :: d /\ d <> [] /\ (length d <= 3)%nat /\ forallb is_hex_digit d = true).
      { unfold find_hex_literal in F. rewrite Ec in F.
        pose proof (take_while_max_length 3 is_hex_digit s) as TL.
        pose proof (take_while_max_all 3 is_hex_digit s) as TA.
        destruct (take_while_max 3 is_hex_digit s) as [|d0 d]; [discriminate|].
        inversion F; subst. exists (d0 :: d). repeat split; [discriminate | exact TL | exact TA]. }
      destruct Hm as (d & -> & Hn & Hl & Ha). at_split E.
      assert (Lc : len_utf8 c = 1).
      { apply ascii_len. change (c_ "$") with 36 in Ec. change (c_ "#") with 35 in Ec. lia. }
      rewrite at_slice_tail by exact Lc. cbn [bind].
      rewrite at_advance by discriminate. cbn [bind].
      rewrite hex_value by assumption. cbn [unwrap bind].
      eapply step_token; [exact E | exact L | constructor].
    - rewrite error_here_at.
      replace InvalidHexadecimalLiteral with (no_lexeme_error c).
      + eapply step_stuck with (c := c); [reflexivity | exact Hb | | apply jump_finished].
        apply (stuck_only KHex); [exact Ec | exact F].
      + unfold no_lexeme_error. change QUOTE with 34. rewrite E5.
        replace (among "$#" c) with true; [reflexivity|].
        unfold among. cbn. rewrite orb_false_r. symmetry. exact Ec. }
  destruct (c =? c_ "$") eqn:E6; [apply HEX; reflexivity|].
  destruct (c =? c_ "#") eqn:E7; [apply HEX; reflexivity|].
  clear HEX.
  destruct (c =? c_ "%") eqn:E8.
  { apply N.eqb_eq in E8. subst c. unfold consume_bin_literal. rewrite at_rest. cbn [bind].
    destruct (find_bin_literal (c_ "%" :: s)) as [m|] eqn:F.
    - destruct (find_lexeme KBin (c_ "%" :: s) m F) as (rest & E & L).
      assert (Hm : exists d, m = c_ "%" :: d /\ d <> [] /\ forallb is_bin_digit d = true).
      { unfold find_bin_literal in F. rewrite N.eqb_refl in F.
        pose proof (take_while_all is_bin_digit s) as TA.
        destruct (take_while is_bin_digit s) as [|d0 d]; [discriminate|].
        inversion F; subst. exists (d0 :: d). repeat split; [discriminate | exact TA]. }
      destruct Hm as (d & -> & Hn & Ha). at_split E.
      rewrite at_slice_tail by reflexivity. cbn [bind].
      rewrite at_advance by discriminate. cbn [bind].
      rewrite bin_value by assumption. cbv zeta.
      destruct (_ <=? 4095) eqn:V.
      + apply N.leb_le in V. eapply step_token; [exact E | exact L | constructor; exact V].
      + apply N.leb_gt in V. eapply step_bad; [exact L | constructor; exact V | apply jump_finished].
    - rewrite error_here_at. eapply (step_stuck _ _ _ (c_ "%"));
        [reflexivity | exact Hb | | apply jump_finished].
      apply (stuck_only KBin); [reflexivity | exact F]. }
  destruct (c =? c_ "[") eqn:E9.
  { apply N.eqb_eq in E9. subst c. unfold consume_index_register_indirect. rewrite at_rest. cbn [bind].
    destruct (starts_with (c_ "[" :: s) (u "[i]") || starts_with (c_ "[" :: s) (u "[I]")) eqn:F0.
    - assert (F : find KIndirect (c_ "[" :: s) = Some (firstn 3 (c_ "[" :: s)))
        by (cbn [find]; rewrite F0; reflexivity).
      destruct (find_lexeme _ _ _ F) as (rest & E & L).
      assert (Lm : byte_len (firstn 3 (c_ "[" :: s)) = 3).
      { change (u "[i]") with [91; 105; 93] in F0. change (u "[I]") with [91; 73; 93] in F0.
        cbn [starts_with] in F0. destruct s as [|a [|b s]];
          try (cbn [starts_with] in F0; lia).
        cbn [starts_with] in F0. assert (b = 93) by lia. subst b.
        assert (a < 128) by lia. cbn [firstn byte_len]. rewrite (ascii_len a) by assumption.
        reflexivity. }
      at_split E. rewrite <- Lm. rewrite at_slice. cbn [bind].
      rewrite at_advance by discriminate. cbn [bind].
      eapply step_token; [exact E | exact L | constructor].
    - rewrite error_here_at. eapply (step_stuck _ _ _ (c_ "["));
        [reflexivity | exact Hb | | apply jump_finished].
      apply (stuck_only KIndirect); [reflexivity |]. cbn [find]. rewrite F0. reflexivity. }
  destruct (is_digit c) eqn:E10.
  { unfold consume_decimal_literal. rewrite at_rest. cbn [bind].
    destruct (find_decimal_literal (c :: s)) as [m|] eqn:F.
    2:{ unfold find_decimal_literal in F. cbn [take_while] in F. rewrite E10 in F. discriminate. }
    destruct (find_lexeme KDec (c :: s) m F) as (rest & E & L).
    assert (Hm : m <> [] /\ forallb is_digit m = true).
    { unfold find_decimal_literal, non_empty in F.
      pose proof (take_while_all is_digit (c :: s)) as TA.
      destruct (take_while is_digit (c :: s)); [discriminate|]. inversion F; subst.
      split; [discriminate | exact TA]. }
    destruct Hm as [Hn Ha]. at_split E. rewrite at_slice. cbn [bind].
    rewrite !at_advance by exact Hn. cbn [bind]. rewrite dec_value by assumption.
    destruct (positional 10 m <? 2 ^ 64) eqn:V0.
    - destruct (positional 10 m <=? 4095) eqn:V.
      + apply N.leb_le in V. eapply step_token; [exact E | exact L | constructor; exact V].
      + apply N.leb_gt in V. eapply step_bad; [exact L | constructor; exact V | apply jump_finished].
    - apply N.ltb_ge in V0. rewrite pow2_64 in V0.
      eapply step_bad; [exact L | constructor; lia | apply jump_finished]. }
  destruct (is_id_start c) eqn:E11.
  { unfold consume_identifier. rewrite at_rest. cbn [bind].
    destruct (find_identifier (c :: s)) as [m|] eqn:F.
    2:{ unfold find_identifier in F. rewrite E11 in F. discriminate. }
    destruct (find_lexeme KIdentifier (c :: s) m F) as (rest & E & L).
    assert (Hn : m <> []).
    { unfold find_identifier in F. rewrite E11 in F. inversion F. discriminate. }
    at_split E. rewrite at_slice. cbn [bind]. rewrite at_advance by exact Hn. cbn [bind].
    eapply step_token; [exact E | exact L | constructor]. }
  destruct (c =? newline) eqn:E12.
  { apply N.eqb_eq in E12. subst c. unfold consume_newline. solve_single KNewline before newline s. }
  rewrite error_here_at.
  replace (InvalidCharacter c) with (no_lexeme_error c).
  - eapply step_stuck with (c := c); [reflexivity | exact Hb | | apply jump_finished].
    apply stuck_when. intros k O. exfalso. destruct k; cbn [first_ok] in O;
      change QUOTE with 34 in *; change newline with LF in *; try congruence.
    rewrite E6, E7 in O. discriminate.
  - unfold no_lexeme_error. change QUOTE with 34. rewrite E5. unfold among.
    change (u "$#") with [c_ "$"; c_ "#"]. change (u "%") with [c_ "%"]. change (u "[") with [c_ "["].
    cbn [existsb]. rewrite E6, E7, E8, E9. reflexivity.
Qed.
