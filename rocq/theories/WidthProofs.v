(** * WidthProofs: the scanner does not depend on the word size. *)

From Verif Require Import Base Text Location Token Scanner ScannerW SpecLex SpecWidth BaseFacts LexProofs ScanProofs.
Open Scope N_scope.

(** ** Numbers *)

Lemma bin_loop_w_value : forall bits whole s acc, 2 <= bits -> forallb is_bin_digit s = true ->
  bin_loop_w bits whole acc s =
  Ok (match s with
      | [] => acc
      | _ => (acc * 2 ^ N.of_nat (length s) + positional 2 (undot s)) mod 2 ^ bits
      end).
Proof.
  intros bits whole s acc Hb. assert (NZ : 2 ^ bits <> 0) by (apply N.pow_nonzero; discriminate).
  revert acc. induction s as [|c s IH]; intros acc H; [reflexivity|].
  cbn [forallb] in H. apply andb_true_iff in H. destruct H as [Hc H].
  cbn [bin_loop_w]. destruct (undot_digit c Hc) as [-> Hd].
  set (b := digit (if c =? c_ "." then c_ "0" else c)) in *.
  unfold checked_shl_w. replace (1 <? bits) with true by lia. cbv beta iota.
  rewrite IH by exact H. f_equal.
  assert (Em : N.lor ((acc * 2 ^ 1) mod 2 ^ bits) b = (acc * 2 + b) mod 2 ^ bits).
  { change (2 ^ 1) with 2. replace bits with (N.succ (bits - 1)) by lia. rewrite N.pow_succ_r', (N.mul_comm 2).
    set (P := 2 ^ (bits - 1)). assert (P <> 0) by (apply N.pow_nonzero; discriminate).
    rewrite N.mul_mod_distr_r by lia. rewrite N.mul_comm, lor_bit by exact Hd.
    pose proof (N.div_mod' acc P) as D. pose proof (N.mod_lt acc P ltac:(lia)) as M.
    set (q := acc / P) in *. set (r := acc mod P) in *. clearbody q r P. clear - D M Hd.
    apply N.mod_unique with (q := q); [lia|]. subst acc. ring. }
  rewrite Em. cbn [undot map positional length]. fold (undot s). fold b.
  replace (length (undot s)) with (length s) by (unfold undot; rewrite map_length; reflexivity).
  assert (Hp : 2 ^ N.of_nat (S (length s)) = 2 * 2 ^ N.of_nat (length s))
    by (rewrite Nat2N.inj_succ, N.pow_succ_r'; reflexivity).
  rewrite Hp. set (P := 2 ^ N.of_nat (length s)) in *.
  destruct s as [|c' s].
  - cbn [undot map positional]. subst P. cbn [length N.of_nat]. rewrite N.pow_0_r.
    f_equal. lia.
  - set (q := positional 2 (undot (c' :: s))).
    rewrite <- (N.add_mod_idemp_l _ q) by exact NZ.
    rewrite <- (N.mul_mod_idemp_l (_ mod _) P) by exact NZ.
    rewrite N.mod_mod by exact NZ.
    rewrite (N.mul_mod_idemp_l _ P) by exact NZ.
    rewrite (N.add_mod_idemp_l _ q) by exact NZ.
    f_equal. ring.
Qed.

Lemma bin_value_w : forall bits d, 2 <= bits -> d <> [] -> forallb is_bin_digit d = true ->
  parse_12_bit_bin_str_w bits d =
  let v := positional 2 (undot d) mod 2 ^ bits in
  if v <=? 0xFFF then Ok v else Err (BinaryLiteralOutOfRange d).
Proof.
  intros bits d Hb Hn H. unfold parse_12_bit_bin_str_w. rewrite bin_loop_w_value by assumption.
  destruct d as [|c d]; [contradiction|]. rewrite N.mul_0_l, N.add_0_l. reflexivity.
Qed.

Lemma pow_4096 : forall bits, 12 <= bits -> 4096 <= 2 ^ bits.
Proof. intros bits H. change 4096 with (2 ^ 12). apply N.pow_le_mono_r; lia. Qed.

Lemma hex_value_w : forall bits d, 12 <= bits -> d <> [] -> (length d <= 3)%nat -> forallb is_hex_digit d = true ->
  from_str_radix bits 16 d = Some (positional 16 d).
Proof.
  intros bits d Hb Hn L H. rewrite forallb_forall in H. destruct d as [|c d]; [contradiction|].
  pose proof (pow_4096 bits Hb) as P.
  rewrite from_str_radix_digits.
  2:{ destruct (hex_digit_value c) as [-> _]; [apply H; left; reflexivity | discriminate]. }
  rewrite radix_digits_value; [|lia | | lia].
  2:{ intros x Hx. apply hex_digit_value. apply H. exact Hx. }
  cbv zeta. rewrite N.mul_0_l, N.add_0_l.
  assert (B : positional 16 (c :: d) < 16 ^ N.of_nat (length (c :: d))).
  { apply positional_lt; [lia|]. intros x Hx. apply hex_digit_value. apply H. exact Hx. }
  assert (B2 : 16 ^ N.of_nat (length (c :: d)) <= 16 ^ 3) by (apply N.pow_le_mono_r; lia).
  change (16 ^ 3) with 4096 in B2.
  replace (_ <? _) with true by (symmetry; apply N.ltb_lt; lia). reflexivity.
Qed.

Lemma dec_value_w : forall bits d, 12 <= bits -> d <> [] -> forallb is_digit d = true ->
  from_str_radix bits 10 d =
  if positional 10 d <? 2 ^ bits then Some (positional 10 d) else None.
Proof.
  intros bits d Hb Hn H. rewrite forallb_forall in H. destruct d as [|c d]; [contradiction|].
  pose proof (pow_4096 bits Hb) as P.
  rewrite from_str_radix_digits.
  2:{ destruct (dec_digit_value c) as [-> _]; [apply H; left; reflexivity | discriminate]. }
  rewrite radix_digits_value; [|lia | | lia].
  2:{ intros x Hx. apply dec_digit_value. apply H. exact Hx. }
  cbv zeta. rewrite N.mul_0_l, N.add_0_l. reflexivity.
Qed.

(** ** Where the scanner stands *)

Lemma drop_bytes_inv : forall s n t, drop_bytes s n = Done t -> exists a, s = a ++ t /\ byte_len a = n.
Proof.
  induction s as [|c s IH]; intros n t H; cbn [drop_bytes] in H.
  - destruct (n =? 0) eqn:E; [|discriminate]. injection H as <-. exists []. split; [reflexivity|]. cbn. lia.
  - destruct (n =? 0) eqn:E.
    + injection H as <-. exists []. split; [reflexivity|]. cbn. lia.
    + destruct (len_utf8 c <=? n) eqn:El; [|discriminate]. destruct (IH _ _ H) as (a & -> & B).
      exists (c :: a). split; [reflexivity|]. cbn [byte_len]. lia.
Qed.

Lemma digits_slice : forall sc c d rest, rest_of_input sc = Done (c :: d ++ rest) -> len_utf8 c = 1 ->
  slice (sc_input sc) (sc_position sc + 1) (sc_position sc + byte_len (c :: d)) = Done d /\
  exists before, sc_input sc = before ++ c :: d ++ rest.
Proof.
  intros sc c d rest H Hc. unfold rest_of_input in H. destruct (drop_bytes_inv _ _ _ H) as (a & E & B).
  split; [|exists a; exact E]. rewrite E, <- B. cbn [byte_len]. rewrite Hc.
  replace (a ++ c :: d ++ rest) with ((a ++ [c]) ++ d ++ rest) by (rewrite <- app_assoc; reflexivity).
  replace (byte_len a + 1) with (byte_len (a ++ [c])) by (rewrite byte_len_app; cbn [byte_len]; lia).
  replace (byte_len a + (1 + byte_len d)) with (byte_len (a ++ [c]) + byte_len d) by (rewrite byte_len_app; cbn [byte_len]; lia).
  apply slice_app.
Qed.

Lemma whole_slice : forall sc d rest, rest_of_input sc = Done (d ++ rest) ->
  slice (sc_input sc) (sc_position sc) (sc_position sc + byte_len d) = Done d.
Proof.
  intros sc d rest H. unfold rest_of_input in H. destruct (drop_bytes_inv _ _ _ H) as (a & E & B).
  rewrite E, <- B. apply slice_app.
Qed.

(** ** The three kinds of numbers *)

Lemma hex_same : forall b b' sc, 12 <= b -> 12 <= b' -> consume_hex_literal_w b sc = consume_hex_literal_w b' sc.
Proof.
  intros b b' sc Hb Hb'. unfold consume_hex_literal_w. destruct (rest_of_input sc) as [s|] eqn:R; [|reflexivity]. cbn [bind].
  destruct (find_hex_literal s) as [m|] eqn:F; [|reflexivity].
  assert (G : exists c d rest, m = c :: d /\ s = c :: d ++ rest /\ len_utf8 c = 1 /\ d <> [] /\ (length d <= 3)%nat /\
    forallb is_hex_digit d = true).
  { unfold find_hex_literal in F. destruct s as [|c s]; [discriminate|].
    destruct ((c =? c_ "$") || (c =? c_ "#")) eqn:Ec; [|discriminate].
    assert (Lc : len_utf8 c = 1) by (apply orb_true_iff in Ec; destruct Ec as [X|X]; apply N.eqb_eq in X; subst c; reflexivity).
    destruct (take_while_max_split 3 is_hex_digit s) as [r Er].
    pose proof (take_while_max_all 3 is_hex_digit s) as A. pose proof (take_while_max_length 3 is_hex_digit s) as Ln.
    destruct (take_while_max 3 is_hex_digit s) as [|d0 d]; [discriminate|]. injection F as <-.
    exists c, (d0 :: d), r. repeat split; auto; [congruence | discriminate]. }
  destruct G as (c & d & rest & -> & -> & Lc & Hn & Ln & A).
  destruct (digits_slice sc c d rest R Lc) as [-> _]. cbn [bind].
  rewrite !hex_value_w by assumption. reflexivity.
Qed.

Lemma dec_same : forall b b' sc, 12 <= b -> 12 <= b' -> consume_decimal_literal_w b sc = consume_decimal_literal_w b' sc.
Proof.
  intros b b' sc Hb Hb'. unfold consume_decimal_literal_w. destruct (rest_of_input sc) as [s|] eqn:R; [|reflexivity]. cbn [bind].
  destruct (find_decimal_literal s) as [m|] eqn:F; [|reflexivity].
  unfold find_decimal_literal in F. destruct (take_while_split is_digit s) as (r & Er & _).
  pose proof (take_while_all is_digit s) as A.
  assert (m <> [] /\ m = take_while is_digit s) as [Hn Em].
  { unfold non_empty in F. destruct (take_while is_digit s); [discriminate|]. injection F as <-. split; [discriminate | reflexivity]. }
  rewrite <- Em in *. rewrite Er in R. rewrite (whole_slice sc m r R). cbn [bind]. cbv zeta.
  rewrite !dec_value_w by assumption. pose proof (pow_4096 b Hb). pose proof (pow_4096 b' Hb').
  destruct (positional 10 m <=? 4095) eqn:E.
  - replace (positional 10 m <? 2 ^ b) with true by lia. replace (positional 10 m <? 2 ^ b') with true by lia. reflexivity.
  - destruct (positional 10 m <? 2 ^ b), (positional 10 m <? 2 ^ b'); rewrite ?E; reflexivity.
Qed.

Lemma forallb_bin : forall d, forallb is_bin_digit d = forallb (among "01.") d.
Proof. induction d as [|c d IH]; [reflexivity|]. cbn [forallb]. rewrite IH, is_bin_digit_spec. reflexivity. Qed.

Lemma bin_same : forall b b' sc, 12 <= b -> 12 <= b' -> narrow b (sc_input sc) -> narrow b' (sc_input sc) ->
  consume_bin_literal_w b sc = consume_bin_literal_w b' sc.
Proof.
  intros b b' sc Hb Hb' N N'. unfold consume_bin_literal_w. destruct (rest_of_input sc) as [s|] eqn:R; [|reflexivity]. cbn [bind].
  destruct (find_bin_literal s) as [m|] eqn:F; [|reflexivity].
  assert (G : exists d rest, m = c_ "%" :: d /\ s = c_ "%" :: d ++ rest /\ d <> [] /\ forallb is_bin_digit d = true).
  { unfold find_bin_literal in F. destruct s as [|c s]; [discriminate|]. destruct (c =? c_ "%") eqn:Ec; [|discriminate].
    apply N.eqb_eq in Ec. subst c. destruct (take_while_split is_bin_digit s) as (r & Er & _).
    pose proof (take_while_all is_bin_digit s) as A. destruct (take_while is_bin_digit s) as [|d0 d]; [discriminate|].
    injection F as <-. exists (d0 :: d), r. repeat split; auto; [congruence | discriminate]. }
  destruct G as (d & rest & -> & -> & Hn & A).
  destruct (digits_slice sc (c_ "%") d rest R eq_refl) as [-> (before & E)]. cbn [bind].
  rewrite !bin_value_w by (assumption || lia). cbv zeta. pose proof A as A'. rewrite forallb_bin in A'.
  rewrite (N.mod_small _ (2 ^ b)) by (eapply N; [exact E | exact A']).
  rewrite (N.mod_small _ (2 ^ b')) by (eapply N'; [exact E | exact A']). reflexivity.
Qed.

(** ** The text does not change while it is scanned *)

Lemma advance_input : forall sc n l sc', advance_by sc n = Done (l, sc') -> sc_input sc' = sc_input sc.
Proof.
  intros sc n l sc' H. unfold advance_by in H. destruct (slice _ _ _) as [r|]; [|discriminate]. cbn [bind] in H.
  destruct (assert_ _); [|discriminate]. cbn [bind] in H.
  destruct (fold_left advance_step r _) as [[? ?] ?]. destruct (loc_new _ _ _ _); [|discriminate]. cbn [bind] in H.
  injection H as _ <-. reflexivity.
Qed.

Ltac step_input H :=
  repeat match type of H with
  | context [bind ?x _] =>
      let E := fresh "E" in
      destruct x eqn:E; cbn [bind] in H; [|discriminate H];
      try match type of E with advance_by _ _ = Done ?p => destruct p; apply advance_input in E end
  | context [match ?x with _ => _ end] => let E := fresh "E" in destruct x eqn:E; try discriminate H
  end.

Lemma consume_input : forall bits sc c t sc', consume_token_at_w bits sc c = Done (t, sc') -> sc_input sc' = sc_input sc.
Proof.
  intros bits sc c t sc' H. unfold consume_token_at_w in H.
  assert (J : forall sc, sc_input (jump_to_end sc) = sc_input sc) by reflexivity.
  assert (Er : forall e t sc', error_here sc e = Done (t, sc') -> sc_input sc' = sc_input sc).
  { intros e t0 sc0 X. unfold error_here in X. destruct (loc_new _ _ _ _); [|discriminate]. injection X as _ <-. reflexivity. }
  assert (Ch : forall v l sc', consume_char sc = Done (v, l, sc') -> sc_input sc' = sc_input sc).
  { intros v l sc0 X. unfold consume_char in X. destruct (char_at sc 0); [|discriminate]. cbn [bind] in X.
    destruct (advance_by _ _) as [[l1 s1]|] eqn:E; [|discriminate]. injection X as _ _ <-. eapply advance_input; exact E. }
  destruct (c =? c_ ";").
  { unfold consume_single_line_comment in H. step_input H. injection H as _ <-. assumption. }
  destruct (c =? c_ ".").
  { unfold consume_directive_marker in H. destruct (consume_char sc) as [[[v l] s1]|] eqn:E; [|discriminate]. cbn [bind] in H.
    destruct (assert_ _); [|discriminate]. injection H as _ <-. eapply Ch; reflexivity. }
  destruct (c =? c_ ":").
  { unfold consume_label_marker in H. destruct (consume_char sc) as [[[v l] s1]|] eqn:E; [|discriminate]. cbn [bind] in H.
    destruct (assert_ _); [|discriminate]. injection H as _ <-. eapply Ch; reflexivity. }
  destruct (c =? c_ ",").
  { unfold consume_comma in H. destruct (consume_char sc) as [[[v l] s1]|] eqn:E; [|discriminate]. cbn [bind] in H.
    destruct (assert_ _); [|discriminate]. injection H as _ <-. eapply Ch; reflexivity. }
  destruct (c =? 34).
  { unfold consume_string_literal in H. destruct (rest_of_input sc); [|discriminate]. cbn [bind] in H.
    destruct (find_string_literal _); [|eapply Er; exact H]. step_input H. injection H as _ <-. assumption. }
  assert (Hx : consume_hex_literal_w bits sc = Done (t, sc') -> sc_input sc' = sc_input sc).
  { clear H. intros H. unfold consume_hex_literal_w in H. destruct (rest_of_input sc); [|discriminate]. cbn [bind] in H.
    destruct (find_hex_literal _); [|eapply Er; exact H]. step_input H. injection H as _ <-. assumption. }
  destruct (c =? c_ "$"); [exact (Hx H)|]. destruct (c =? c_ "#"); [exact (Hx H)|].
  destruct (c =? c_ "%").
  { unfold consume_bin_literal_w in H. destruct (rest_of_input sc); [|discriminate]. cbn [bind] in H.
    destruct (find_bin_literal _); [|eapply Er; exact H]. step_input H; injection H as _ <-; rewrite ?J; assumption. }
  destruct (c =? c_ "[").
  { unfold consume_index_register_indirect in H. destruct (rest_of_input sc); [|discriminate]. cbn [bind] in H.
    destruct (_ || _); [|eapply Er; exact H]. step_input H. injection H as _ <-. assumption. }
  destruct (is_digit c).
  { unfold consume_decimal_literal_w in H. destruct (rest_of_input sc); [|discriminate]. cbn [bind] in H.
    destruct (find_decimal_literal _); [|eapply Er; exact H]. cbv zeta in H. step_input H; injection H as _ <-; rewrite ?J; assumption. }
  destruct (is_id_start c).
  { unfold consume_identifier in H. destruct (rest_of_input sc); [|discriminate]. cbn [bind] in H.
    destruct (find_identifier _); [|eapply Er; exact H]. step_input H. injection H as _ <-. assumption. }
  destruct (c =? newline).
  { unfold consume_newline in H. destruct (consume_char sc) as [[[v l] s1]|] eqn:E; [|discriminate]. cbn [bind] in H.
    destruct (assert_ _); [|discriminate]. injection H as _ <-. eapply Ch; reflexivity. }
  eapply Er; exact H.
Qed.

Lemma whitespace_input : forall sc sc', consume_whitespace sc = Done sc' -> sc_input sc' = sc_input sc.
Proof.
  intros sc sc' H. unfold consume_whitespace in H. destruct (rest_of_input sc); [|discriminate]. cbn [bind] in H.
  destruct (find_whitespace _); [|injection H as <-; reflexivity].
  destruct (advance_by _ _) as [[? s1]|] eqn:E; [|discriminate]. injection H as <-. eapply advance_input; exact E.
Qed.

(** ** The same tokens *)

Lemma next_same : forall b b' sc, 12 <= b -> 12 <= b' -> narrow b (sc_input sc) -> narrow b' (sc_input sc) ->
  next_token_w b sc = next_token_w b' sc /\
  forall t sc', next_token_w b sc = Done (t, sc') -> sc_input sc' = sc_input sc.
Proof.
  intros b b' sc Hb Hb' N N'. unfold next_token_w. destruct (consume_whitespace sc) as [s1|] eqn:W; [|split; [reflexivity | discriminate]].
  cbn [bind]. apply whitespace_input in W. rewrite <- W in *.
  destruct (is_at_end s1); [split; [reflexivity|]; intros t sc' H; injection H as _ <-; exact eq_refl|].
  destruct (char_at s1 0) as [c|]; [|split; [reflexivity | discriminate]]. cbn [bind].
  assert (E : consume_token_at_w b s1 c = consume_token_at_w b' s1 c).
  { unfold consume_token_at_w. rewrite (hex_same b b' s1 Hb Hb'), (dec_same b b' s1 Hb Hb'), (bin_same b b' s1 Hb Hb' N N'). reflexivity. }
  rewrite E. split; [reflexivity|]. intros t sc' H. rewrite <- E in H.
  destruct (consume_token_at_w b s1 c) as [[t1 s2]|] eqn:C; [|discriminate]. injection H as _ <-. eapply consume_input; exact C.
Qed.

Theorem scan_same : forall b b' file s, 12 <= b -> 12 <= b' -> narrow b s -> narrow b' s ->
  scan_w b file s = scan_w b' file s.
Proof.
  intros b b' file s Hb Hb' N N'. unfold scan_w. generalize (S (length s)) as fuel. intros fuel.
  assert (I : sc_input (scanner_new file s) = s) by reflexivity. revert I. generalize (scanner_new file s) as sc.
  induction fuel as [|fuel IH]; intros sc I; [reflexivity|]. cbn [scan_fuel_w].
  destruct (next_same b b' sc Hb Hb') as [E G]; [rewrite I; assumption | rewrite I; assumption|]. rewrite <- E.
  destruct (next_token_w b sc) as [[[t|] sc']|] eqn:X; [| reflexivity | reflexivity]. cbn [bind].
  rewrite (IH sc'); [reflexivity|]. rewrite (G _ _ eq_refl). exact I.
Qed.

Lemma scan_fuel_64 : forall fuel sc, scan_fuel_w 64 fuel sc = scan_fuel fuel sc.
Proof.
  assert (L : forall whole s acc, bin_loop_w 64 whole acc s = bin_loop whole acc s).
  { intros whole s. induction s as [|c s IH]; intros acc; [reflexivity|]. cbn [bin_loop_w bin_loop].
    destruct (bin_char_value c); [|reflexivity]. change (checked_shl_w 64 acc 1) with (usize_checked_shl acc 1).
    destruct (usize_checked_shl acc 1); [apply IH | reflexivity]. }
  assert (B : forall sc, consume_bin_literal_w 64 sc = consume_bin_literal sc).
  { intros sc. unfold consume_bin_literal_w, consume_bin_literal. destruct (rest_of_input sc); [|reflexivity]. cbn [bind].
    destruct (find_bin_literal a); [|reflexivity]. destruct (slice _ _ _) as [d|]; [|reflexivity]. cbn [bind].
    unfold parse_12_bit_bin_str_w, parse_12_bit_bin_str. rewrite L. reflexivity. }
  assert (T : forall sc c, consume_token_at_w 64 sc c = consume_token_at sc c).
  { intros sc c. unfold consume_token_at_w, consume_token_at. rewrite B. reflexivity. }
  assert (X : forall sc, next_token_w 64 sc = next_token sc).
  { intros sc. unfold next_token_w, next_token. destruct (consume_whitespace sc) as [s|]; [|reflexivity]. cbn [bind].
    destruct (is_at_end s); [reflexivity|]. destruct (char_at s 0) as [c|]; [|reflexivity]. cbn [bind]. rewrite T. reflexivity. }
  induction fuel as [|fuel IH]; intros sc; [reflexivity|]. cbn [scan_fuel_w scan_fuel]. rewrite X.
  destruct (next_token sc) as [[[t|] sc']|]; [| reflexivity | reflexivity]. cbn [bind]. rewrite IH. reflexivity.
Qed.

Theorem scan_64 : forall file s, scan_w 64 file s = scan file s.
Proof. intros. apply scan_fuel_64. Qed.
