(** * CounterProofs: in a text whose size fits, no counter of the scanner overflows. *)

From Verif Require Import Base Text Location Token Scanner ScannerW ScannerO SpecLex BaseFacts LexProofs ScanProofs
  LexTheorems WidthProofs.
Open Scope N_scope.

(** ** Bounds *)

Lemma chars_bytes : forall s, N.of_nat (length s) <= byte_len s.
Proof. induction s as [|c s IH]; cbn [length byte_len]; [lia|]. pose proof (len_utf8_pos c). lia. Qed.

Lemma newlines_chars : forall s, newlines s <= N.of_nat (length s).
Proof.
  induction s as [|c s IH]; [cbn; lia|]. rewrite newlines_cons. cbn [length]. destruct (c =? LF); lia.
Qed.

Lemma last_line_chars : forall s, (length (last_line s) <= length s)%nat.
Proof. induction s as [|c s IH]; [cbn; lia|]. cbn [last_line length]. destruct (existsb _ _); cbn [length]; lia. Qed.

Lemma first_line_chars : forall s, (length (first_line s) <= length s)%nat.
Proof. induction s as [|c s IH]; [cbn; lia|]. cbn [first_line length]. destruct (c =? LF); cbn [length]; lia. Qed.

Lemma add_fits : forall bits x y, x + y < 2 ^ bits -> add_o bits x y = Done (x + y).
Proof. intros bits x y H. unfold add_o. apply N.ltb_lt in H. rewrite H. reflexivity. Qed.

Lemma sub_fits : forall x y, y <= x -> sub_o x y = Done (x - y).
Proof. intros x y H. unfold sub_o. apply N.leb_le in H. rewrite H. reflexivity. Qed.

(** ** Advancing *)

Lemma total_fits : forall bits m acc, acc + byte_len m < 2 ^ bits ->
  fold_o (fun acc x => add_o bits acc (len_utf8 x)) m acc = Done (acc + byte_len m).
Proof.
  intros bits m. induction m as [|c m IH]; intros acc H; cbn [fold_o byte_len] in *.
  - f_equal. lia.
  - rewrite add_fits by lia. cbn [bind]. rewrite IH by lia. f_equal. lia.
Qed.

Lemma steps_fit : forall bits m n f off,
  n + N.of_nat (length m) < 2 ^ bits -> f + N.of_nat (length m) < 2 ^ bits ->
  off + N.of_nat (length m) < 2 ^ bits -> 1 + N.of_nat (length m) < 2 ^ bits ->
  fold_o (advance_step_o bits) m (n, f, off) = Done (fold_left advance_step m (n, f, off)).
Proof.
  intros bits m. induction m as [|c m IH]; intros n f off Hn Hf Ho H1; [reflexivity|].
  cbn [fold_o fold_left length] in *. unfold advance_step_o at 1, advance_step at 2.
  rewrite (add_fits bits off 1) by lia. cbn [bind].
  destruct (n =? 0).
  - rewrite (add_fits bits f 1) by lia. cbn [bind]. destruct (c =? newline).
    + rewrite (add_fits bits n 1) by lia. cbn [bind]. apply IH; lia.
    + cbn [bind]. apply IH; lia.
  - cbn [bind]. destruct (c =? newline).
    + rewrite (add_fits bits n 1) by lia. cbn [bind]. apply IH; lia.
    + cbn [bind]. apply IH; lia.
Qed.

Lemma advance_fits : forall bits file before m s, byte_len (before ++ m ++ s) + 1 < 2 ^ bits ->
  advance_by_o bits (at_ file before (m ++ s)) (byte_len m) = advance_by (at_ file before (m ++ s)) (byte_len m).
Proof.
  intros bits file before m s H. rewrite !byte_len_app in H. unfold advance_by_o, advance_by, at_.
  cbn [sc_input sc_position sc_file sc_line sc_offset].
  pose proof (chars_bytes before). pose proof (chars_bytes m). pose proof (last_line_chars before).
  pose proof (newlines_chars before). pose proof (newlines_chars m).
  rewrite add_fits by lia. cbn [bind]. rewrite slice_app. cbn [bind].
  rewrite total_fits by lia. rewrite total_bytes. cbn [bind]. destruct (assert_ _); [|reflexivity]. cbn [bind].
  rewrite steps_fit by lia. cbn [bind]. rewrite advance_fold. cbv beta iota.
  destruct (loc_new _ _ _ _); [|reflexivity]. cbn [bind]. rewrite add_fits by lia. reflexivity.
Qed.

Lemma char_fits : forall bits file before c s, byte_len (before ++ c :: s) + 1 < 2 ^ bits ->
  char_at_o bits (at_ file before (c :: s)) 0 = Done c.
Proof.
  intros bits file before c s H. rewrite byte_len_app in H. unfold char_at_o, at_. cbn [sc_input sc_position].
  rewrite add_fits by lia. cbn [bind]. rewrite N.add_0_r, drop_bytes_app. reflexivity.
Qed.

Lemma mark_fits : forall bits file before c s x t, byte_len (before ++ c :: s) + 1 < 2 ^ bits ->
  consume_mark_o bits x t (at_ file before (c :: s)) =
  (let* (value, l, sc') := consume_char (at_ file before (c :: s)) in
   let* _ := assert_ (value =? x) in Done (t l, sc')).
Proof.
  intros bits file before c s x t H. unfold consume_mark_o, consume_char_o, consume_char.
  rewrite char_fits by exact H. rewrite at_char. cbn [bind].
  change (c :: s) with ([c] ++ s) in *. replace (len_utf8 c) with (byte_len [c]) by (cbn; lia).
  rewrite advance_fits by exact H. reflexivity.
Qed.

Lemma whitespace_fits : forall bits file before s, byte_len (before ++ s) + 1 < 2 ^ bits ->
  consume_whitespace_o bits (at_ file before s) = consume_whitespace (at_ file before s).
Proof.
  intros bits file before s H. unfold consume_whitespace_o, consume_whitespace. rewrite at_rest. cbn [bind].
  destruct (find_whitespace s) as [m|] eqn:F; [|reflexivity].
  unfold find_whitespace in F.
  destruct (take_while_split (fun c => is_whitespace c && negb (c =? newline)) s) as (r & E & _).
  set (w := take_while _ s) in *. assert (m = w) by (destruct w; [discriminate F | injection F as <-; reflexivity]).
  subst m. at_split E. rewrite advance_fits by (rewrite <- E; exact H). reflexivity.
Qed.

Lemma comment_fits : forall bits s acc, acc + byte_len s < 2 ^ bits ->
  comment_bytes_o bits acc s = Done (acc + comment_bytes s).
Proof.
  intros bits s. induction s as [|c s IH]; intros acc H; cbn [comment_bytes_o comment_bytes byte_len] in *.
  - f_equal. lia.
  - destruct (c =? newline); [f_equal; lia|]. rewrite add_fits by lia. cbn [bind]. rewrite IH by lia. f_equal. lia.
Qed.

(** ** One token *)

Lemma token_fits : forall bits file before c s, byte_len (before ++ c :: s) + 1 < 2 ^ bits ->
  consume_token_at_o bits (at_ file before (c :: s)) c = consume_token_at_w bits (at_ file before (c :: s)) c.
Proof.
  intros bits file before c s H. unfold consume_token_at_o, consume_token_at_w.
  rewrite !mark_fits by exact H.
  assert (P : forall k m, find k (c :: s) = Some m -> exists r, c :: s = m ++ r /\ m <> [] /\ byte_len m <> 0 /\
     byte_len before + byte_len m + 1 < 2 ^ bits /\ byte_len (before ++ m ++ r) + 1 < 2 ^ bits).
  { intros k m F. destruct (find_first _ _ _ F) as (c' & m' & s' & _ & Em & _).
    destruct (find_sound _ _ _ F) as (r & E & _). exists r. rewrite E in H.
    assert (m <> []) by (rewrite Em; discriminate).
    assert (byte_len m <> 0) by (rewrite Em; cbn [byte_len]; pose proof (len_utf8_pos c'); lia).
    rewrite !byte_len_app in *. repeat split; try assumption; lia. }
  destruct (c =? c_ ";") eqn:E1.
  { apply N.eqb_eq in E1. subst c. unfold consume_single_line_comment_o, consume_single_line_comment.
    rewrite char_fits by exact H. rewrite at_char. cbn [bind]. destruct (assert_ _); [|reflexivity]. cbn [bind].
    rewrite at_rest. cbn [bind]. rewrite comment_fits by (rewrite byte_len_app in H; lia).
    rewrite N.add_0_l, comment_bytes_spec. cbn [bind].
    set (m := take_while (fun c => negb (c =? newline)) (c_ ";" :: s)).
    assert (F : find KComment (c_ ";" :: s) = Some m) by reflexivity.
    destruct (P _ _ F) as (r & E & _ & _ & B & B'). rewrite add_fits by (cbn [at_ sc_position]; lia). cbn [bind].
    at_split E. rewrite advance_fits by exact B'. reflexivity. }
  destruct (c =? c_ "."); [reflexivity|]. destruct (c =? c_ ":"); [reflexivity|]. destruct (c =? c_ ","); [reflexivity|].
  destruct (c =? 34).
  { unfold consume_string_literal_o, consume_string_literal. rewrite at_rest. cbn [bind].
    destruct (find_string_literal (c :: s)) as [m|] eqn:F; [|reflexivity].
    destruct (P KString _ F) as (r & E & _ & Z & B & B'). at_split E.
    rewrite add_fits by (cbn [at_ sc_position]; lia). cbn [bind].
    rewrite add_fits by (cbn [at_ sc_position]; lia). cbn [bind].
    rewrite sub_fits by lia. cbn [bind]. rewrite advance_fits by exact B'. reflexivity. }
  assert (HX : consume_hex_literal_o bits (at_ file before (c :: s)) = consume_hex_literal_w bits (at_ file before (c :: s))).
  { unfold consume_hex_literal_o, consume_hex_literal_w. rewrite at_rest. cbn [bind].
    destruct (find_hex_literal (c :: s)) as [m|] eqn:F; [|reflexivity].
    destruct (P KHex _ F) as (r & E & _ & Z & B & B'). at_split E.
    rewrite add_fits by (cbn [at_ sc_position]; lia). cbn [bind].
    rewrite add_fits by (cbn [at_ sc_position]; lia). cbn [bind].
    rewrite advance_fits by exact B'. reflexivity. }
  rewrite HX. destruct (c =? c_ "$"); [reflexivity|]. destruct (c =? c_ "#"); [reflexivity|].
  destruct (c =? c_ "%").
  { unfold consume_bin_literal_o, consume_bin_literal_w. rewrite at_rest. cbn [bind].
    destruct (find_bin_literal (c :: s)) as [m|] eqn:F; [|reflexivity].
    destruct (P KBin _ F) as (r & E & _ & Z & B & B'). at_split E.
    rewrite add_fits by (cbn [at_ sc_position]; lia). cbn [bind].
    rewrite add_fits by (cbn [at_ sc_position]; lia). cbn [bind].
    rewrite advance_fits by exact B'. reflexivity. }
  destruct (c =? c_ "[").
  { unfold consume_index_register_indirect_o, consume_index_register_indirect. rewrite at_rest. cbn [bind].
    destruct (starts_with (c :: s) (u "[i]") || starts_with (c :: s) (u "[I]")) eqn:F0; [|reflexivity].
    assert (F : find KIndirect (c :: s) = Some (firstn 3 (c :: s))) by (cbn [find]; rewrite F0; reflexivity).
    destruct (P _ _ F) as (r & E & _ & Z & B & B').
    assert (Lm : byte_len (firstn 3 (c :: s)) = 3).
    { change (u "[i]") with [91; 105; 93] in F0. change (u "[I]") with [91; 73; 93] in F0.
      cbn [starts_with] in F0. destruct s as [|a [|b s]]; try (cbn [starts_with] in F0; lia).
      cbn [starts_with] in F0. assert (b = 93) by lia. subst b. assert (c = 91) by lia. subst c.
      assert (a < 128) by lia. cbn [firstn byte_len]. rewrite (ascii_len a) by assumption. reflexivity. }
    at_split E. rewrite <- Lm. rewrite add_fits by (cbn [at_ sc_position]; lia). cbn [bind].
    rewrite advance_fits by exact B'. reflexivity. }
  destruct (is_digit c).
  { unfold consume_decimal_literal_o, consume_decimal_literal_w. rewrite at_rest. cbn [bind].
    destruct (find_decimal_literal (c :: s)) as [m|] eqn:F; [|reflexivity].
    destruct (P KDec _ F) as (r & E & _ & Z & B & B'). at_split E.
    rewrite add_fits by (cbn [at_ sc_position]; lia). cbn [bind].
    rewrite !advance_fits by exact B'. reflexivity. }
  destruct (is_id_start c); [|reflexivity].
  unfold consume_identifier_o, consume_identifier. rewrite at_rest. cbn [bind].
  destruct (find_identifier (c :: s)) as [m|] eqn:F; [|reflexivity].
  destruct (P KIdentifier _ F) as (r & E & _ & Z & B & B'). at_split E.
  rewrite add_fits by (cbn [at_ sc_position]; lia). cbn [bind].
  rewrite advance_fits by exact B'. reflexivity.
Qed.

(** ** Where the scanner stands afterwards *)

Definition stands (file text : str) (sc : scanner) : Prop :=
  finished sc \/ exists before s, before ++ s = text /\ sc = at_ file before s.

Lemma consume_64 : forall sc c, c =? c_ "%" = false -> consume_token_at_w 64 sc c = consume_token_at sc c.
Proof. intros sc c E. unfold consume_token_at_w, consume_token_at. rewrite E. reflexivity. Qed.

Lemma consume_stands : forall bits file before c s t sc', 12 <= bits -> blank c = false ->
  consume_token_at_w bits (at_ file before (c :: s)) c = Done (t, sc') -> stands file (before ++ c :: s) sc'.
Proof.
  intros bits file before c s t sc' Hb Bl H. destruct (c =? c_ "%") eqn:E.
  - apply N.eqb_eq in E. subst c. change (consume_bin_literal_w bits (at_ file before (c_ "%" :: s)) = Done (t, sc')) in H.
    unfold consume_bin_literal_w in H. rewrite at_rest in H. cbn [bind] in H.
    destruct (find_bin_literal (c_ "%" :: s)) as [m|] eqn:F.
    + destruct (find_sound KBin _ _ F) as (r & E & _).
      destruct (find_first KBin _ _ F) as (c' & m' & s' & _ & Em & _).
      destruct (slice _ _ _) as [d|]; [|discriminate H]. cbn [bind] in H.
      revert H. at_split E. rewrite at_advance by (rewrite Em; discriminate). cbn [bind]. intros H.
      destruct (parse_12_bit_bin_str_w bits d); injection H as _ <-.
      * right. exists (before ++ m), r. rewrite E, <- app_assoc. split; reflexivity.
      * left. reflexivity.
    + rewrite error_here_at in H. injection H as _ <-. left. reflexivity.
  - assert (X : consume_token_at_w bits (at_ file before (c :: s)) c = consume_token_at (at_ file before (c :: s)) c).
    { rewrite <- (consume_64 _ _ E). unfold consume_token_at_w. rewrite E.
      rewrite (hex_same bits 64) by lia. rewrite (dec_same bits 64) by lia. reflexivity. }
    rewrite X in H. pose proof (consume_token_at_spec file before c s Bl) as S. rewrite H in S.
    inversion S; subst.
    + right. exists (before ++ m), rest. split; [|reflexivity]. rewrite <- app_assoc. f_equal. symmetry. assumption.
    + left. assumption.
    + left. assumption.
Qed.

(** ** The whole text *)

Lemma next_fits : forall bits file text sc, 12 <= bits -> byte_len text + 1 < 2 ^ bits -> stands file text sc ->
  next_token_o bits sc = next_token_w bits sc /\
  forall t sc', next_token_w bits sc = Done (Some t, sc') -> stands file text sc'.
Proof.
  intros bits file text sc Hb B [F | (before & s & <- & ->)].
  - unfold next_token_o, next_token_w, consume_whitespace_o, consume_whitespace, rest_of_input.
    rewrite F, drop_all. cbn [bind find_whitespace take_while non_empty]. unfold is_at_end. rewrite F, N.leb_refl.
    split; [reflexivity | discriminate].
  - unfold next_token_o, next_token_w. rewrite whitespace_fits by exact B.
    destruct (consume_whitespace_at file before s) as (w & s' & -> & _ & Bl & ->). cbn [bind].
    rewrite app_assoc in *. rewrite at_end. destruct s' as [|c s']; [split; [reflexivity | discriminate]|].
    rewrite char_fits by exact B. rewrite at_char. cbn [bind]. rewrite token_fits by exact B. split; [reflexivity|].
    intros t sc' H. destruct (consume_token_at_w _ _ _) as [[t1 sc1]|] eqn:C; [|discriminate H].
    cbn [bind] in H. injection H as _ <-. eapply consume_stands; [exact Hb | exact Bl | exact C].
Qed.

Theorem scan_fits : forall bits file s, 12 <= bits -> byte_len s + 1 < 2 ^ bits -> scan_o bits file s = scan_w bits file s.
Proof.
  intros bits file s Hb B. unfold scan_o, scan_w. generalize (S (length s)) as fuel. intros fuel.
  assert (I : stands file s (scanner_new file s)) by (right; exists [], s; split; reflexivity).
  revert I. generalize (scanner_new file s) as sc.
  induction fuel as [|fuel IH]; intros sc I; [reflexivity|]. cbn [scan_fuel_o scan_fuel_w].
  destruct (next_fits bits file s sc Hb B I) as [E G]. rewrite E.
  destruct (next_token_w bits sc) as [[[t|] sc']|] eqn:X; [| reflexivity | reflexivity]. cbn [bind].
  rewrite (IH sc'); [reflexivity|]. eapply G. reflexivity.
Qed.

(** ** Locations in messages *)

Lemma location_fits : forall bits file before m after, m <> [] -> byte_len (before ++ m ++ after) + 1 < 2 ^ bits ->
  loc_fmt_o bits (located file before m) = Done (loc_fmt (located file before m)).
Proof.
  intros bits file before m after Hm B. rewrite !byte_len_app in B. unfold loc_fmt_o. destruct (_ =? 1); [reflexivity|].
  pose proof (chars_bytes before). pose proof (chars_bytes m). pose proof (last_line_chars before).
  pose proof (first_line_chars m). pose proof (first_line_pos m Hm). unfold located at 1 2. cbn [l_location l_length].
  rewrite add_fits by lia. cbn [bind]. rewrite sub_fits by lia. reflexivity.
Qed.

(** ** The bound is the best one *)

Lemma lines_bytes : forall i, byte_len (repeat LF i) = N.of_nat i.
Proof. induction i as [|i IH]; [reflexivity|]. cbn [repeat byte_len]. rewrite IH. change (len_utf8 LF) with 1. lia. Qed.

Lemma lines_newlines : forall i, newlines (repeat LF i) = N.of_nat i.
Proof. induction i as [|i IH]; [reflexivity|]. cbn [repeat]. rewrite newlines_cons, IH, N.eqb_refl. lia. Qed.

Lemma lines_last : forall i, last_line (repeat LF i) = [].
Proof. induction i as [|i IH]; [reflexivity|]. cbn [repeat last_line existsb]. rewrite N.eqb_refl. exact IH. Qed.

Lemma advance_line : forall bits file i s, 2 <= bits -> N.of_nat i + 2 <= 2 ^ bits ->
  advance_by_o bits (at_ file (repeat LF i) (LF :: s)) 1 =
  if N.of_nat i + 2 <? 2 ^ bits then Done (located file (repeat LF i) [LF], at_ file (repeat LF (S i)) s)
  else Crash ArithOverflow.
Proof.
  intros bits file i s Hb B. assert (P : 2 ^ 2 <= 2 ^ bits) by (apply N.pow_le_mono_r; lia). change (2 ^ 2) with 4 in P.
  unfold advance_by_o. change (sc_position (at_ file (repeat LF i) (LF :: s))) with (byte_len (repeat LF i)).
  change (sc_input (at_ file (repeat LF i) (LF :: s))) with (repeat LF i ++ [LF] ++ s).
  change (sc_line (at_ file (repeat LF i) (LF :: s))) with (1 + newlines (repeat LF i)).
  change (sc_offset (at_ file (repeat LF i) (LF :: s))) with (1 + N.of_nat (length (last_line (repeat LF i)))).
  change (sc_file (at_ file (repeat LF i) (LF :: s))) with file.
  rewrite lines_last, lines_newlines. rewrite (add_fits bits (byte_len _)) by (rewrite lines_bytes; lia). cbn [bind].
  change 1 with (byte_len [LF]) at 1. rewrite slice_app. cbn [bind fold_o]. change (len_utf8 LF) with 1.
  rewrite (add_fits bits 0 1) by lia. cbn [bind]. change (0 + 1 =? 1) with true. cbn [assert_ bind].
  unfold advance_step_o at 1. cbn [length N.of_nat]. change (1 + 0) with 1. rewrite (add_fits bits 1 1) by lia. cbn [bind].
  change (0 =? 0) with true. cbn iota. rewrite (add_fits bits 0 1) by lia. cbn [bind].
  change (LF =? newline) with true. cbn iota. cbn [bind]. change (0 + 1) with 1.
  unfold loc_new. replace ((0 <? 1 + N.of_nat i) && (0 <? 1) && (0 <? 1)) with true by lia. cbn [assert_ bind].
  unfold add_o. replace (1 + N.of_nat i + 1) with (N.of_nat i + 2) by lia.
  destruct (N.of_nat i + 2 <? 2 ^ bits); [|reflexivity]. cbn [bind].
  assert (A : repeat LF i ++ [LF] ++ s = repeat LF (S i) ++ s).
  { rewrite app_assoc. f_equal. symmetry. apply (repeat_cons i LF). }
  unfold located, at_. rewrite A, lines_last, lines_last, lines_newlines, lines_newlines, !lines_bytes.
  cbn [first_line length N.of_nat]. change (LF =? LF) with true. cbn iota. cbn [length N.of_nat Pos.of_succ_nat].
  replace (N.of_nat i + 2) with (1 + N.of_nat (S i)) by lia. replace (N.of_nat i + 1) with (N.of_nat (S i)) by lia.
  reflexivity.
Qed.

Theorem scan_lines_overflow : forall bits file, 2 <= bits ->
  scan_o bits file (repeat LF (N.to_nat (2 ^ bits - 1))) = Crash ArithOverflow.
Proof.
  intros bits file Hb. assert (P : 2 ^ 2 <= 2 ^ bits) by (apply N.pow_le_mono_r; lia). change (2 ^ 2) with 4 in P.
  unfold scan_o. rewrite repeat_length.
  assert (G : forall k i f, N.of_nat i + N.of_nat k = 2 ^ bits - 1 -> (0 < k)%nat -> (k < f)%nat ->
    scan_fuel_o bits f (at_ file (repeat LF i) (repeat LF k)) = Crash ArithOverflow).
  { induction k as [|k IH]; intros i f E K F; [lia|]. destruct f as [|f]; [lia|]. cbn [scan_fuel_o]. cbn [repeat].
    unfold next_token_o, consume_whitespace_o. rewrite at_rest. cbn [bind].
    change (find_whitespace (LF :: repeat LF k)) with (@None str). cbn [bind]. rewrite at_end.
    assert (C : char_at_o bits (at_ file (repeat LF i) (LF :: repeat LF k)) 0 = Done LF).
    { unfold char_at_o, at_. cbn [sc_input sc_position]. rewrite lines_bytes, add_fits by lia. cbn [bind].
      rewrite N.add_0_r, <- (lines_bytes i), drop_bytes_app. reflexivity. }
    rewrite C. cbn [bind].
    change (consume_token_at_o bits ?x LF) with (consume_mark_o bits newline Newline x).
    unfold consume_mark_o, consume_char_o. rewrite C. cbn [bind]. change (len_utf8 LF) with 1.
    rewrite advance_line by lia. destruct (N.of_nat i + 2 <? 2 ^ bits) eqn:L; [|reflexivity].
    cbn [bind]. change (LF =? newline) with true. cbn [assert_ bind].
    rewrite (IH (S i)) by lia. reflexivity. }
  apply (G _ 0%nat); lia.
Qed.
