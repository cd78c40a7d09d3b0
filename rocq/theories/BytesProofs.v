(** * BytesProofs: scanning bytes and scanning characters. *)

From Verif Require Import Base BaseFacts Text Location Token Scanner ScannerB SpecUtf8 UtfProofs SpecBytes.
Open Scope N_scope.

Definition run_map {A B} (f : A -> B) (r : run A) : run B := match r with Done a => Done (f a) | Crash w => Crash w end.

Lemma bind_map {A B C} (f : A -> B) (r : run A) (k : B -> run C) : bind (run_map f r) k = bind r (fun a => k (f a)).
Proof. destruct r; reflexivity. Qed.

(** ** Decoding *)

Lemma land_63 n : N.land (128 + n) 63 = n mod 64.
Proof. change 63 with (N.ones 6). rewrite N.land_ones. change (2 ^ 6) with 64. lia. Qed.

Lemma lor_add a b k : b < 2 ^ k -> N.lor (N.shiftl a k) b = a * 2 ^ k + b.
Proof.
  intros H. rewrite N.shiftl_mul_pow2. symmetry. rewrite <- N.lxor_lor, <- N.add_nocarry_lxor; [reflexivity | |];
  apply N.bits_inj; intros i; rewrite N.land_spec, N.bits_0;
  (destruct (N.lt_ge_cases i k) as [L|L];
   [rewrite N.mul_pow2_bits_low by exact L; reflexivity |
    rewrite <- (N.mod_small b (2 ^ k) H), N.mod_pow2_bits_high by exact L; apply andb_false_r]).
Qed.

Lemma land_31 n : N.land n 31 = n mod 32.
Proof. change 31 with (N.ones 5). now rewrite N.land_ones. Qed.

Lemma land_7 n : N.land n 7 = n mod 8.
Proof. change 7 with (N.ones 3). now rewrite N.land_ones. Qed.

Lemma next_char c r : scalar c -> next_code_point (utf8_char c ++ r) = Some (c, r).
Proof.
  intros S. unfold scalar in S. unfold utf8_char.
  destruct (N.ltb_spec c 0x80) as [L1|L1].
  { cbn [app next_code_point]. replace (c <? 128) with true by lia. reflexivity. }
  destruct (N.ltb_spec c 0x800) as [L2|L2].
  { cbn [app next_code_point next_six]. replace (_ <? 128) with false by lia. replace (_ <? 0xE0) with true by lia.
    rewrite land_63, land_31, lor_add by lia. do 2 f_equal. change (2 ^ 6) with 64. lia. }
  destruct (N.ltb_spec c 0x10000) as [L3|L3].
  { cbn [app next_code_point next_six]. replace (_ <? 128) with false by lia. replace (_ <? 0xE0) with false by lia.
    replace (_ <? 0xF0) with true by lia.
    rewrite !land_63, land_31. rewrite (lor_add ((c / 64) mod 64 mod 64)) by lia. change (2 ^ 6) with 64.
    rewrite lor_add by (change (2 ^ 12) with 4096; lia). change (2 ^ 12) with 4096. do 2 f_equal. lia. }
  cbn [app next_code_point next_six]. replace (_ <? 128) with false by lia. replace (_ <? 0xE0) with false by lia.
  replace (_ <? 0xF0) with false by lia.
  rewrite !land_63, land_31, land_7. rewrite (lor_add ((c / 4096) mod 64 mod 64)) by lia. change (2 ^ 6) with 64.
  rewrite (lor_add ((c / 4096) mod 64 mod 64 * 64 + (c / 64) mod 64 mod 64)) by lia. change (2 ^ 6) with 64.
  rewrite lor_add by (change (2 ^ 18) with 262144; lia). change (2 ^ 18) with 262144. do 2 f_equal. lia.
Qed.

Lemma utf8_cons c s : utf8 (c :: s) = utf8_char c ++ utf8 s.
Proof. reflexivity. Qed.

Lemma length_char c : length (utf8_char c) = N.to_nat (len_utf8 c).
Proof. unfold utf8_char, len_utf8. repeat destruct (_ <? _); reflexivity. Qed.

Lemma len_pos c : 1 <= len_utf8 c.
Proof. unfold len_utf8. repeat destruct (_ <? _); lia. Qed.

Lemma chars_any s : Forall scalar s -> forall n, (length (utf8 s) <= n)%nat -> chars_fuel n (utf8 s) = s.
Proof.
  induction 1 as [|c s C _ IH]; intros n Hn.
  - destruct n; reflexivity.
  - rewrite utf8_cons, app_length, length_char in Hn. pose proof (len_pos c).
    destruct n as [|n]; [lia|]. cbn [chars_fuel]. rewrite utf8_cons, (next_char c _ C), IH by lia. reflexivity.
Qed.

Lemma chars_utf8 s : Forall scalar s -> chars (utf8 s) = s.
Proof. intros F. apply chars_any; [exact F | apply le_n]. Qed.

Lemma str_len_utf8 s : str_len (utf8 s) = byte_len s.
Proof.
  induction s as [|c s IH]; [reflexivity|]. unfold str_len in *. rewrite utf8_cons, app_length, length_char. cbn [byte_len]. lia.
Qed.

(** ** Boundaries *)

Lemma head_leads s : Forall scalar s -> match utf8 s with [] => True | b :: _ => (b <? 128) || (192 <=? b) = true end.
Proof.
  intros F. destruct F as [|c s C _]; [exact I|]. rewrite utf8_cons. unfold utf8_char.
  destruct (c <? 0x80) eqn:E; [cbn [app]; lia|]. destruct (c <? 0x800); [cbn [app]; lia|]. destruct (c <? 0x10000); cbn [app]; lia.
Qed.

Lemma some_inj {A} (a b : A) : Some a = Some b -> a = b.
Proof. congruence. Qed.

Lemma inner_continues c i b : (0 < i)%nat -> nth_error (utf8_char c) i = Some b -> (b <? 128) || (192 <=? b) = false.
Proof.
  intros Hi. unfold utf8_char.
  destruct (c <? 0x80); [|destruct (c <? 0x800); [|destruct (c <? 0x10000)]];
    (destruct i as [|[|[|[|i]]]]; [lia | ..]); cbn [nth_error]; try discriminate; try (destruct i; discriminate); intros E; apply some_inj in E; rewrite <- E; lia.
Qed.

Lemma boundary_0 s : is_char_boundary s 0 = true.
Proof. reflexivity. Qed.

Lemma boundary_cons c s n : Forall scalar (c :: s) ->
  is_char_boundary (utf8 (c :: s)) n = if n =? 0 then true else if len_utf8 c <=? n then is_char_boundary (utf8 s) (n - len_utf8 c) else false.
Proof.
  intros F. inversion F as [|? ? C Fs]. subst. destruct (N.eqb_spec n 0) as [-> | N0]; [reflexivity|].
  pose proof (len_pos c) as L1. pose proof (length_char c) as Lc. rewrite utf8_cons. unfold is_char_boundary at 1.
  replace (n =? 0) with false by lia. cbn [orb]. rewrite app_length, Lc.
  destruct (N.leb_spec (len_utf8 c) n) as [Le | Lt].
  - rewrite nth_error_app2 by lia. rewrite Lc.
    replace (N.to_nat n - N.to_nat (len_utf8 c))%nat with (N.to_nat (n - len_utf8 c)) by lia.
    unfold is_char_boundary. replace (n =? N.of_nat (N.to_nat (len_utf8 c) + length (utf8 s))) with (n - len_utf8 c =? N.of_nat (length (utf8 s))) by lia.
    destruct (N.eqb_spec (n - len_utf8 c) 0) as [E | _]; [|reflexivity]. cbn [orb]. rewrite E. pose proof (head_leads s Fs) as H.
    change (N.to_nat 0) with O. destruct (utf8 s) as [|b r]; [reflexivity|]. cbn [nth_error]. rewrite H. apply orb_true_r.
  - rewrite nth_error_app1 by lia. replace (n =? N.of_nat (N.to_nat (len_utf8 c) + length (utf8 s))) with false by lia. cbn [orb].
    destruct (nth_error (utf8_char c) (N.to_nat n)) as [b|] eqn:E.
    + apply (inner_continues c (N.to_nat n)); [lia | exact E].
    + apply nth_error_None in E. lia.
Qed.

Lemma drop_utf8 s : Forall scalar s -> forall n, drop_b (utf8 s) n = run_map utf8 (drop_bytes s n).
Proof.
  induction s as [|c s IH]; intros F n; cbn [drop_bytes].
  - unfold drop_b, is_char_boundary. cbn [utf8 flat_map length]. change (N.of_nat 0) with 0.
    destruct (N.eqb_spec n 0) as [-> | N0]; [reflexivity|]. cbn [orb].
    replace (nth_error (@nil byte) (N.to_nat n)) with (@None byte) by (now destruct (N.to_nat n)). reflexivity.
  - unfold drop_b. rewrite boundary_cons by exact F. destruct (N.eqb_spec n 0) as [-> | N0]; [reflexivity|].
    destruct (N.leb_spec (len_utf8 c) n) as [Le | Lt]; [|reflexivity].
    inversion F as [|? ? C Fs]. subst. rewrite <- (IH Fs). unfold drop_b.
    destruct (is_char_boundary (utf8 s) (n - len_utf8 c)); [|reflexivity]. f_equal.
    rewrite utf8_cons. rewrite skipn_app, length_char. rewrite skipn_all2 by (rewrite length_char; lia). cbn [app].
    f_equal. lia.
Qed.

Lemma drop_scalar s n t : drop_bytes s n = Done t -> Forall scalar s -> Forall scalar t.
Proof.
  revert n. induction s as [|c s IH]; intros n; cbn [drop_bytes]; destruct (n =? 0).
  - now intros [= <-].
  - discriminate.
  - now intros [= <-].
  - destruct (len_utf8 c <=? n); [|discriminate]. intros H F. inversion F. eapply IH; eassumption.
Qed.

(** [&s[.. n]] *)
Lemma take_utf8 s : Forall scalar s -> forall n,
  (if is_char_boundary (utf8 s) n then Done (firstn (N.to_nat n) (utf8 s)) else Crash BadSlice) = run_map utf8 (take_bytes s n).
Proof.
  induction s as [|c s IH]; intros F n; cbn [take_bytes].
  - unfold is_char_boundary. cbn [utf8 flat_map length]. change (N.of_nat 0) with 0.
    destruct (N.eqb_spec n 0) as [-> | N0]; [reflexivity|]. cbn [orb].
    replace (nth_error (@nil byte) (N.to_nat n)) with (@None byte) by (now destruct (N.to_nat n)). reflexivity.
  - rewrite boundary_cons by exact F. destruct (N.eqb_spec n 0) as [-> | N0]; [reflexivity|].
    destruct (N.leb_spec (len_utf8 c) n) as [Le | Lt]; [|reflexivity].
    inversion F as [|? ? C Fs]. subst. specialize (IH Fs (n - len_utf8 c)).
    destruct (is_char_boundary (utf8 s) (n - len_utf8 c)).
    + destruct (take_bytes s (n - len_utf8 c)) as [t|]; cbn [run_map bind] in *; [|discriminate IH].
      injection IH as IH. f_equal. rewrite !utf8_cons, firstn_app, length_char. rewrite firstn_all2 by (rewrite length_char; lia).
      f_equal. rewrite <- IH. f_equal. lia.
    + destruct (take_bytes s (n - len_utf8 c)); cbn [run_map bind] in *; [discriminate IH | exact IH].
Qed.

Lemma boundary_after s : Forall scalar s -> forall a t n, drop_bytes s a = Done t ->
  is_char_boundary (utf8 t) n = is_char_boundary (utf8 s) (a + n).
Proof.
  induction s as [|c s IH]; intros F a t n; cbn [drop_bytes].
  - destruct (N.eqb_spec a 0) as [-> | ]; [|discriminate]. intros [= <-]. now rewrite N.add_0_l.
  - destruct (N.eqb_spec a 0) as [-> | N0]; [intros [= <-]; now rewrite N.add_0_l|].
    destruct (N.leb_spec (len_utf8 c) a) as [Le | Lt]; [|discriminate]. intros H.
    inversion F as [|? ? C Fs]. subst. rewrite (IH Fs _ _ n H), boundary_cons by exact F.
    replace (a + n =? 0) with false by lia. replace (len_utf8 c <=? a + n) with true by lia. f_equal. lia.
Qed.

Lemma slice_utf8 s a b : Forall scalar s -> slice_b (utf8 s) a b = run_map utf8 (slice s a b).
Proof.
  intros F. unfold slice_b, slice. destruct (N.leb_spec a b) as [Le | Lt]; [|reflexivity]. cbn [andb].
  pose proof (drop_utf8 s F a) as D. unfold drop_b in D.
  destruct (drop_bytes s a) as [t|] eqn:E; cbn [run_map bind] in *.
  - destruct (is_char_boundary (utf8 s) a); [|discriminate D]. injection D as D. cbn [andb].
    rewrite <- (take_utf8 t (drop_scalar _ _ _ E F) (b - a)). rewrite (boundary_after s F _ _ (b - a) E).
    replace (a + (b - a)) with b by lia. rewrite D. reflexivity.
  - destruct (is_char_boundary (utf8 s) a); [discriminate D|]. cbn [andb]. exact D.
Qed.

Lemma take_scalar s : forall n t, take_bytes s n = Done t -> Forall scalar s -> Forall scalar t.
Proof.
  induction s as [|c s IH]; intros n t; cbn [take_bytes]; destruct (n =? 0); try (intros [= <-]; constructor).
  destruct (len_utf8 c <=? n); [|discriminate]. destruct (take_bytes s _) as [r|] eqn:E; cbn [bind]; [|discriminate].
  intros [= <-] F. inversion F. subst. constructor; [assumption | eapply IH; eassumption].
Qed.

Lemma slice_scalar s a b t : slice s a b = Done t -> Forall scalar s -> Forall scalar t.
Proof.
  unfold slice. destruct (a <=? b); [|discriminate]. destruct (drop_bytes s a) as [r|] eqn:E; cbn [bind]; [|discriminate].
  intros H F. eapply take_scalar; [exact H|]. eapply drop_scalar; eassumption.
Qed.

(** ** Digits and names *)

Lemma char_ascii c : c < 128 -> utf8_char c = [c].
Proof. intros H. unfold utf8_char. now replace (c <? 0x80) with true by lia. Qed.

Lemma char_other c : scalar c -> 128 <= c -> exists b r, utf8_char c = b :: r /\ 192 <= b.
Proof.
  intros S H. unfold utf8_char. replace (c <? 0x80) with false by lia.
  destruct (c <? 0x800); [|destruct (c <? 0x10000)]; do 2 eexists; (split; [reflexivity | lia]).
Qed.

Lemma digit_other r b : 128 <= b -> to_digit r b = None.
Proof.
  intros H. unfold to_digit. change (c_ "0") with 48. change (c_ "9") with 57. change (c_ "a") with 97. change (c_ "f") with 102.
  change (c_ "A") with 65. change (c_ "F") with 70.
  replace ((48 <=? b) && (b <=? 57)) with false by lia. replace ((97 <=? b) && (b <=? 102)) with false by lia.
  replace ((65 <=? b) && (b <=? 70)) with false by lia. reflexivity.
Qed.

Lemma digits_utf8 bits r s : Forall scalar s -> forall acc, radix_digits bits r acc (utf8 s) = radix_digits bits r acc s.
Proof.
  induction 1 as [|c s C _ IH]; intros acc; [reflexivity|]. rewrite utf8_cons. destruct (N.lt_ge_cases c 128) as [L|L].
  - rewrite char_ascii by exact L. cbn [app radix_digits]. destruct (to_digit r c); [|reflexivity].
    destruct (_ <? _); [|reflexivity]. destruct (_ <? _); [|reflexivity]. apply IH.
  - destruct (char_other c C L) as (b & t & -> & B). cbn [app radix_digits]. rewrite !digit_other by lia. reflexivity.
Qed.

Lemma radix_utf8 bits r s : Forall scalar s -> from_str_radix bits r (utf8 s) = from_str_radix bits r s.
Proof.
  intros F. unfold from_str_radix. destruct F as [|c s C F]; [reflexivity|].
  rewrite utf8_cons. destruct (N.lt_ge_cases c 128) as [L|L].
  - rewrite char_ascii by exact L. cbn [app]. destruct (c =? c_ "+").
    + pose proof (digits_utf8 bits r s F 0) as D. destruct s as [|d s]; [reflexivity|].
      rewrite <- D. destruct (utf8 (d :: s)) as [|b t] eqn:E; [|reflexivity].
      pose proof (str_len_utf8 (d :: s)) as H. rewrite E in H. cbn [byte_len] in H. pose proof (len_pos d). unfold str_len in H. cbn [length] in H. lia.
    + rewrite <- (digits_utf8 bits r (c :: s)) by (constructor; assumption). rewrite utf8_cons, char_ascii by exact L. reflexivity.
  - destruct (char_other c C L) as (b & t & E & B). change (c_ "+") with 43. rewrite E. cbn [app].
    replace (b =? 43) with false by lia. replace (c =? 43) with false by lia. cbn [radix_digits]. rewrite !digit_other by lia. reflexivity.
Qed.

Lemma starts_utf8 p s : Forall (fun c => c < 128) p -> Forall scalar s -> starts_with (utf8 s) p = starts_with s p.
Proof.
  intros P. revert s. induction P as [|c p C _ IH]; intros s F.
  - destruct (utf8 s), s; reflexivity.
  - destruct F as [|d s D F]; [reflexivity|]. rewrite utf8_cons. destruct (N.lt_ge_cases d 128) as [L|L].
    + rewrite char_ascii by exact L. cbn [app starts_with]. now rewrite IH.
    + destruct (char_other d D L) as (b & t & -> & B). cbn [app starts_with].
      replace (c =? b) with false by lia. replace (c =? d) with false by lia. reflexivity.
Qed.

(** ** The scanner *)

Definition enc (sc : scanner) : scanner :=
  mk_scanner (sc_file sc) (utf8 (sc_input sc)) (sc_position sc) (sc_line sc) (sc_offset sc).

Definition enc_token (x : token * scanner) : token * scanner := (token_bytes (fst x), enc (snd x)).
Definition enc_loc (x : loc * scanner) : loc * scanner := (fst x, enc (snd x)).

Definition proper (sc : scanner) : Prop := Forall scalar (sc_input sc).

Lemma rest_b sc : proper sc -> rest_of_input_b (enc sc) = run_map utf8 (rest_of_input sc).
Proof. intros P. apply drop_utf8, P. Qed.

Lemma rest_scalar sc s : proper sc -> rest_of_input sc = Done s -> Forall scalar s.
Proof. intros P H. eapply drop_scalar; [exact H | exact P]. Qed.

Lemma char_at_same sc n : proper sc -> char_at_b (enc sc) n = char_at sc n.
Proof.
  intros P. unfold char_at_b, char_at. cbn [enc sc_input sc_position]. rewrite drop_utf8 by exact P.
  destruct (drop_bytes (sc_input sc) (sc_position sc + n)) as [s|] eqn:E; cbn [run_map bind]; [|reflexivity].
  now rewrite chars_utf8 by (eapply drop_scalar; [exact E | exact P]).
Qed.

Lemma advance_same sc n : proper sc -> advance_by_b (enc sc) n = run_map enc_loc (advance_by sc n).
Proof.
  intros P. unfold advance_by_b, advance_by. cbn [enc sc_file sc_input sc_position sc_line sc_offset]. rewrite slice_utf8 by exact P.
  destruct (slice (sc_input sc) (sc_position sc) (sc_position sc + n)) as [s|] eqn:E; cbn [run_map bind]; [|reflexivity].
  rewrite chars_utf8 by (eapply slice_scalar; [exact E | exact P]).
  destruct (assert_ _); cbn [bind run_map]; [|reflexivity].
  destruct (fold_left advance_step s (0, 0, sc_offset sc)) as [[n1 n2] n3].
  destruct (loc_new _ _ _ _); reflexivity.
Qed.

Lemma advance_proper sc n l sc' : proper sc -> advance_by sc n = Done (l, sc') -> proper sc'.
Proof.
  intros P. unfold advance_by. destruct (slice _ _ _) as [s|]; cbn [bind]; [|discriminate].
  destruct (assert_ _); cbn [bind]; [|discriminate]. destruct (fold_left advance_step s (0, 0, sc_offset sc)) as [[n1 n2] n3].
  destruct (loc_new _ _ _ _); cbn [bind]; [|discriminate]. intros [= <- <-]. exact P.
Qed.

Lemma consume_char_same sc : proper sc ->
  consume_char_b (enc sc) = run_map (fun x => (fst x, enc (snd x))) (consume_char sc).
Proof.
  intros P. unfold consume_char_b, consume_char. rewrite char_at_same by exact P. destruct (char_at sc 0) as [c|]; cbn [bind run_map]; [|reflexivity].
  rewrite advance_same by exact P. destruct (advance_by sc (len_utf8 c)) as [[l sc']|]; reflexivity.
Qed.

Lemma error_same sc e : error_here_b (enc sc) (error_bytes e) = run_map enc_token (error_here sc e).
Proof.
  unfold error_here_b, error_here. cbn [enc sc_file sc_line sc_offset]. destruct (loc_new _ _ _ _); cbn [bind run_map]; [|reflexivity].
  unfold enc_token, jump_to_end_b, jump_to_end, enc. cbn [fst snd token_bytes sc_file sc_input sc_line sc_offset sc_position].
  now rewrite str_len_utf8.
Qed.

Lemma jump_same sc : jump_to_end_b (enc sc) = enc (jump_to_end sc).
Proof. unfold jump_to_end_b, jump_to_end, enc. cbn [sc_file sc_input sc_line sc_offset sc_position]. now rewrite str_len_utf8. Qed.

Lemma whitespace_same sc : proper sc -> consume_whitespace_b (enc sc) = run_map enc (consume_whitespace sc).
Proof.
  intros P. unfold consume_whitespace_b, consume_whitespace. rewrite rest_b by exact P.
  destruct (rest_of_input sc) as [s|] eqn:E; cbn [bind run_map]; [|reflexivity].
  rewrite chars_utf8 by (eapply rest_scalar; [exact P | exact E]).
  destruct (find_whitespace s) as [m|]; [|reflexivity]. rewrite advance_same by exact P.
  destruct (advance_by sc (byte_len m)) as [[l sc']|]; reflexivity.
Qed.

Ltac marker P := rewrite consume_char_same by exact P;
  match goal with |- context [consume_char ?sc] => destruct (consume_char sc) as [[[v l] sc']|]; cbn [bind run_map fst snd]; [|reflexivity] end;
  destruct (assert_ _); reflexivity.

Ltac found P E := rewrite rest_b by exact P;
  match goal with |- context [rest_of_input ?sc] => destruct (rest_of_input sc) as [s|] eqn:E; cbn [bind run_map]; [|reflexivity] end;
  rewrite ?chars_utf8 by (eapply rest_scalar; [exact P | exact E]).

Ltac sliced P E := cbn [enc sc_input sc_position]; rewrite slice_utf8 by exact P;
  match goal with |- context [slice ?a ?b ?c] => destruct (slice a b c) as [d|] eqn:E; cbn [bind run_map]; [|reflexivity] end.

Ltac fold_enc := repeat match goal with |- context [mk_scanner (sc_file ?sc) (utf8 (sc_input ?sc)) (sc_position ?sc) (sc_line ?sc) (sc_offset ?sc)] =>
  change (mk_scanner (sc_file sc) (utf8 (sc_input sc)) (sc_position sc) (sc_line sc) (sc_offset sc)) with (enc sc) end.

Ltac advanced P := fold_enc; rewrite advance_same by exact P;
  match goal with |- context [advance_by ?sc ?n] => destruct (advance_by sc n) as [[l sc']|]; cbn [bind run_map enc_loc fst snd]; [|reflexivity] end.

Lemma newline_same sc : proper sc -> consume_newline_b (enc sc) = run_map enc_token (consume_newline sc).
Proof. intros P. unfold consume_newline_b, consume_newline. marker P. Qed.

Lemma directive_same sc : proper sc -> consume_directive_marker_b (enc sc) = run_map enc_token (consume_directive_marker sc).
Proof. intros P. unfold consume_directive_marker_b, consume_directive_marker. marker P. Qed.

Lemma label_same sc : proper sc -> consume_label_marker_b (enc sc) = run_map enc_token (consume_label_marker sc).
Proof. intros P. unfold consume_label_marker_b, consume_label_marker. marker P. Qed.

Lemma comma_same sc : proper sc -> consume_comma_b (enc sc) = run_map enc_token (consume_comma sc).
Proof. intros P. unfold consume_comma_b, consume_comma. marker P. Qed.

Lemma string_same sc : proper sc -> consume_string_literal_b (enc sc) = run_map enc_token (consume_string_literal sc).
Proof.
  intros P. unfold consume_string_literal_b, consume_string_literal. found P E.
  destruct (find_string_literal s) as [m|]; [|apply (error_same sc InvalidStringLiteral)].
  sliced P D. advanced P. reflexivity.
Qed.

Lemma hex_same sc : proper sc -> consume_hex_literal_b (enc sc) = run_map enc_token (consume_hex_literal sc).
Proof.
  intros P. unfold consume_hex_literal_b, consume_hex_literal. found P E.
  destruct (find_hex_literal s) as [m|]; [|apply (error_same sc InvalidHexadecimalLiteral)].
  sliced P D. advanced P. rewrite radix_utf8 by (eapply slice_scalar; [exact D | exact P]).
  destruct (from_str_radix usize_bits 16 d); reflexivity.
Qed.

Lemma bin_loop_same w s : forall acc, bin_loop (utf8 w) acc s = map_err error_bytes (bin_loop w acc s).
Proof.
  induction s as [|c s IH]; intros acc; [reflexivity|]. cbn [bin_loop]. destruct (bin_char_value c); [|reflexivity].
  destruct (usize_checked_shl acc 1); [|reflexivity]. apply IH.
Qed.

Lemma bin_str_same d : Forall scalar d -> parse_12_bit_bin_str_b (utf8 d) = map_err error_bytes (parse_12_bit_bin_str d).
Proof.
  intros F. unfold parse_12_bit_bin_str_b, parse_12_bit_bin_str. rewrite chars_utf8, bin_loop_same by exact F.
  destruct (bin_loop d 0 d) as [v|e]; [|reflexivity]. cbn [map_err]. destruct (v <=? 0xFFF); reflexivity.
Qed.

Lemma bin_same sc : proper sc -> consume_bin_literal_b (enc sc) = run_map enc_token (consume_bin_literal sc).
Proof.
  intros P. unfold consume_bin_literal_b, consume_bin_literal. found P E.
  destruct (find_bin_literal s) as [m|]; [|apply (error_same sc InvalidBinaryLiteral)].
  sliced P D. advanced P. rewrite bin_str_same by (eapply slice_scalar; [exact D | exact P]).
  destruct (parse_12_bit_bin_str d); [reflexivity|]. cbn [map_err run_map]. rewrite jump_same. reflexivity.
Qed.

Lemma decimal_same sc : proper sc -> consume_decimal_literal_b (enc sc) = run_map enc_token (consume_decimal_literal sc).
Proof.
  intros P. unfold consume_decimal_literal_b, consume_decimal_literal. found P E.
  destruct (find_decimal_literal s) as [m|]; [|apply (error_same sc InvalidDecimalLiteral)].
  sliced P D. rewrite radix_utf8 by (eapply slice_scalar; [exact D | exact P]).
  fold_enc. rewrite !advance_same by exact P. destruct (advance_by sc (byte_len m)) as [[l sc']|]; cbn [bind run_map enc_loc fst snd].
  - rewrite jump_same. destruct (from_str_radix usize_bits 10 d) as [v|]; [|reflexivity]. destruct (v <=? 4095); reflexivity.
  - destruct (from_str_radix usize_bits 10 d) as [v|]; [|reflexivity]. destruct (v <=? 4095); reflexivity.
Qed.

Lemma identifier_same sc : proper sc -> consume_identifier_b (enc sc) = run_map enc_token (consume_identifier sc).
Proof.
  intros P. unfold consume_identifier_b, consume_identifier. found P E.
  destruct (find_identifier s) as [m|]; [|apply (error_same sc InvalidIdentifier)].
  sliced P D. advanced P. reflexivity.
Qed.

Lemma indirect_same sc : proper sc -> consume_index_register_indirect_b (enc sc) = run_map enc_token (consume_index_register_indirect sc).
Proof.
  intros P. unfold consume_index_register_indirect_b, consume_index_register_indirect. found P E.
  rewrite !starts_utf8; try (eapply rest_scalar; [exact P | exact E]); try (repeat constructor).
  destruct (_ || _); [|apply (error_same sc ExpectedRegisterIndirect)].
  sliced P D. advanced P. reflexivity.
Qed.

Lemma comment_same sc : proper sc -> consume_single_line_comment_b (enc sc) = run_map enc_token (consume_single_line_comment sc).
Proof.
  intros P. unfold consume_single_line_comment_b, consume_single_line_comment. rewrite char_at_same by exact P.
  destruct (char_at sc 0) as [c|]; cbn [bind run_map]; [|reflexivity]. destruct (assert_ _); cbn [bind run_map]; [|reflexivity].
  found P E. sliced P D. advanced P. reflexivity.
Qed.

Lemma token_at_same sc c : proper sc -> consume_token_at_b (enc sc) c = run_map enc_token (consume_token_at sc c).
Proof.
  intros P. unfold consume_token_at_b, consume_token_at.
  repeat match goal with |- (if ?b then _ else _) = _ => destruct b end.
  - now apply comment_same.
  - now apply directive_same.
  - now apply label_same.
  - now apply comma_same.
  - now apply string_same.
  - now apply hex_same.
  - now apply hex_same.
  - now apply bin_same.
  - now apply indirect_same.
  - now apply decimal_same.
  - now apply identifier_same.
  - now apply newline_same.
  - apply (error_same sc (InvalidCharacter c)).
Qed.

Lemma advance_input sc n l sc' : advance_by sc n = Done (l, sc') -> sc_input sc' = sc_input sc.
Proof.
  unfold advance_by. destruct (slice _ _ _) as [s|]; cbn [bind]; [|discriminate].
  destruct (assert_ _); cbn [bind]; [|discriminate]. destruct (fold_left advance_step s (0, 0, sc_offset sc)) as [[n1 n2] n3].
  destruct (loc_new _ _ _ _); cbn [bind]; [|discriminate]. now intros [= <- <-].
Qed.

Lemma char_input sc v l sc' : consume_char sc = Done (v, l, sc') -> sc_input sc' = sc_input sc.
Proof.
  unfold consume_char. destruct (char_at sc 0) as [c|]; cbn [bind]; [|discriminate].
  destruct (advance_by sc (len_utf8 c)) as [[l0 sc0]|] eqn:E; cbn [bind]; [|discriminate]. intros [= <- <- <-]. now apply advance_input in E.
Qed.

Ltac kept :=
  repeat match goal with
  | H : Done _ = Done _ |- _ => injection H as <- <-
  | H : Crash _ = Done _ |- _ => discriminate H
  | H : bind (rest_of_input ?sc) _ = Done _ |- _ => destruct (rest_of_input sc); cbn [bind] in H; [|discriminate H]
  | H : bind (char_at ?sc ?n) _ = Done _ |- _ => destruct (char_at sc n); cbn [bind] in H; [|discriminate H]
  | H : bind (assert_ ?b) _ = Done _ |- _ => destruct (assert_ b); cbn [bind] in H; [|discriminate H]
  | H : bind (slice ?a ?b ?c) _ = Done _ |- _ => destruct (slice a b c); cbn [bind] in H; [|discriminate H]
  | H : bind (loc_new ?a ?b ?c ?d) _ = Done _ |- _ => destruct (loc_new a b c d); cbn [bind] in H; [|discriminate H]
  | H : bind (unwrap ?a) _ = Done _ |- _ => destruct (unwrap a); cbn [bind] in H; [|discriminate H]
  | H : bind (consume_char ?sc) _ = Done _ |- _ =>
      let E := fresh "E" in destruct (consume_char sc) as [[[? ?] ?]|] eqn:E; cbn [bind] in H; [apply char_input in E | discriminate H]
  | H : bind (advance_by ?sc ?n) _ = Done _ |- _ =>
      let E := fresh "E" in destruct (advance_by sc n) as [[? ?]|] eqn:E; cbn [bind] in H; [apply advance_input in E | discriminate H]
  | H : match ?x with _ => _ end = Done _ |- _ => destruct x
  end.

Lemma token_input sc c t sc' : consume_token_at sc c = Done (t, sc') -> sc_input sc' = sc_input sc.
Proof.
  intros H. unfold consume_token_at in H.
  unfold consume_single_line_comment, consume_directive_marker, consume_label_marker, consume_comma, consume_string_literal, consume_hex_literal,
    consume_bin_literal, consume_index_register_indirect, consume_decimal_literal, consume_identifier, consume_newline, error_here in H.
  kept; cbn [jump_to_end sc_input]; try assumption; reflexivity.
Qed.

Lemma whitespace_input sc sc' : consume_whitespace sc = Done sc' -> sc_input sc' = sc_input sc.
Proof.
  intros H. unfold consume_whitespace in H. destruct (rest_of_input sc); cbn [bind] in H; [|discriminate H].
  destruct (find_whitespace _); [|now injection H as <-].
  destruct (advance_by sc _) as [[lo sc0]|] eqn:E; cbn [bind] in H; [|discriminate H]. injection H as <-. now apply advance_input in E.
Qed.

Lemma next_input sc t sc' : next_token sc = Done (t, sc') -> sc_input sc' = sc_input sc.
Proof.
  unfold next_token. destruct (consume_whitespace sc) as [sc1|] eqn:W; cbn [bind]; [|discriminate]. apply whitespace_input in W.
  destruct (is_at_end sc1); [intros [= <- <-]; exact W|]. destruct (char_at sc1 0) as [c|]; cbn [bind]; [|discriminate].
  destruct (consume_token_at sc1 c) as [[t0 sc0]|] eqn:T; cbn [bind]; [|discriminate]. intros [= <- <-]. apply token_input in T. congruence.
Qed.

Lemma next_same sc : proper sc ->
  next_token_b (enc sc) = run_map (fun x => (option_map token_bytes (fst x), enc (snd x))) (next_token sc).
Proof.
  intros P. unfold next_token_b, next_token. rewrite whitespace_same by exact P.
  destruct (consume_whitespace sc) as [sc1|] eqn:W; cbn [bind run_map]; [|reflexivity]. apply whitespace_input in W.
  assert (P1 : proper sc1) by (unfold proper; rewrite W; exact P).
  replace (is_at_end_b (enc sc1)) with (is_at_end sc1) by (unfold is_at_end_b, is_at_end; cbn [enc sc_input sc_position]; now rewrite str_len_utf8).
  destruct (is_at_end sc1); [reflexivity|]. rewrite char_at_same by exact P1.
  destruct (char_at sc1 0) as [c|]; cbn [bind run_map]; [|reflexivity]. rewrite token_at_same by exact P1.
  destruct (consume_token_at sc1 c) as [[t sc']|]; reflexivity.
Qed.

Lemma scan_fuel_same n : forall sc, proper sc -> scan_fuel_b n (enc sc) = run_map (map token_bytes) (scan_fuel n sc).
Proof.
  induction n as [|n IH]; intros sc P; [reflexivity|]. cbn [scan_fuel_b scan_fuel]. rewrite next_same by exact P.
  destruct (next_token sc) as [[t sc']|] eqn:E; cbn [bind run_map fst snd]; [|reflexivity].
  destruct t as [t|]; cbn [option_map]; [|reflexivity]. apply next_input in E.
  rewrite IH by (unfold proper; rewrite E; exact P). destruct (scan_fuel n sc'); reflexivity.
Qed.

Lemma scan_fuel_more n : forall sc ts, scan_fuel n sc = Done ts -> forall m, (n <= m)%nat -> scan_fuel m sc = Done ts.
Proof.
  induction n as [|n IH]; intros sc ts H m L; [discriminate H|]. destruct m as [|m]; [lia|]. cbn [scan_fuel] in *.
  destruct (next_token sc) as [[[t|] sc']|]; cbn [bind] in *; [|exact H | discriminate H].
  destruct (scan_fuel n sc') as [ts'|] eqn:E; cbn [bind] in H; [|discriminate H].
  rewrite (IH sc' ts' E m) by lia. exact H.
Qed.

Lemma utf8_longer s : (length s <= length (utf8 s))%nat.
Proof. induction s as [|c s IH]; [apply le_n|]. rewrite utf8_cons, app_length, length_char. cbn [length]. pose proof (len_pos c). lia. Qed.

Theorem scan_bytes file s ts : Forall scalar s -> scan file s = Done ts -> scan_b file (utf8 s) = Done (map token_bytes ts).
Proof.
  intros F H. unfold scan_b. change (scanner_new_b file (utf8 s)) with (enc (scanner_new file s)).
  rewrite scan_fuel_same by exact F. pose proof (utf8_longer s) as L.
  rewrite (scan_fuel_more _ _ _ H (S (length (utf8 s)))) by lia. reflexivity.
Qed.
