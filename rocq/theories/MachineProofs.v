(** * MachineProofs: the machine of SpecMachine.v says yes to exactly the programs. *)

From Verif Require Import Base BaseFacts Text Location Token Scanner Parser SpecLex SpecGrammar SpecMachine.
From Verif Require Import LexProofs ScanProofs LexTheorems.
Open Scope N_scope.

(** ** Reading on *)

Definition says (w : memory) (s : str) : bool := content (remembered w s).

Lemma says_cons : forall w c s, says w (c :: s) = says (read w c) s.
Proof. reflexivity. Qed.

Lemma remembered_app : forall w a b, remembered w (a ++ b) = remembered (remembered w a) b.
Proof. intros. unfold remembered. apply fold_left_app. Qed.

Lemma refused_stays : forall s, remembered Refused s = Refused.
Proof. induction s as [|c s IH]; [reflexivity|]. exact IH. Qed.

Lemma says_refused : forall s, says Refused s = false.
Proof. intros. unfold says. rewrite refused_stays. reflexivity. Qed.

(** The next lexeme begins with the first character that does not belong to this one. *)
Definition ends_with (p : char -> bool) (rest : str) : Prop :=
  match rest with [] => True | c :: _ => p c = false end.

Lemma name_ends : forall y m rest, forallb is_id_char m = true -> ends_with is_id_char rest ->
  says (At y InName) (m ++ rest) = says (At y Between) rest.
Proof.
  intros y. induction m as [|c m IH]; intros rest A E; cbn [app].
  - destruct rest as [|c r].
    + unfold says; cbn [remembered fold_left content]. reflexivity.
    + rewrite !says_cons. cbn [read]. rewrite <- is_id_char_spec. cbn in E. rewrite E. reflexivity.
  - cbn in A. apply andb_true_iff in A. destruct A as [Ac A]. rewrite says_cons. cbn [read].
    rewrite <- is_id_char_spec, Ac. apply IH; assumption.
Qed.

Lemma remark_ends : forall y m rest, forallb (fun c => negb (c =? LF)) m = true -> ends_with (fun c => negb (c =? LF)) rest ->
  says (At y InRemark) (m ++ rest) = says (At y Between) rest.
Proof.
  intros y. induction m as [|c m IH]; intros rest A E; cbn [app].
  - destruct rest as [|c r].
    + unfold says; cbn [remembered fold_left content]. reflexivity.
    + rewrite !says_cons. cbn [read]. cbn in E. destruct (c =? LF); [reflexivity | discriminate E].
  - cbn in A. apply andb_true_iff in A. destruct A as [Ac A]. rewrite says_cons. cbn [read].
    destruct (c =? LF); [discriminate Ac|]. apply IH; assumption.
Qed.

(** The value of a decimal number that begins with [n]. *)
Definition on_from (base n : N) (s : str) : N := n * base ^ N.of_nat (length s) + positional base s.

Lemma on_from_cons : forall base n c s, on_from base n (c :: s) = on_from base (base * n + digit c) s.
Proof.
  intros. unfold on_from. cbn [positional length].
  rewrite Nat2N.inj_succ, N.pow_succ_r'. ring.
Qed.

Lemma on_from_ge : forall base n s, 0 < base -> n <= on_from base n s.
Proof.
  intros base n s B. unfold on_from. assert (1 <= base ^ N.of_nat (length s)).
  { apply N.neq_0_lt_0 in B. pose proof (N.pow_nonzero base (N.of_nat (length s)) B). lia. }
  nia.
Qed.

Lemma decimal_ends : forall y m rest n, forallb is_digit m = true -> ends_with is_digit rest -> n <= 4095 ->
  says (At y (InDecimal n)) (m ++ rest) = (on_from 10 n m <=? 4095) && says (At y Between) rest.
Proof.
  intros y. induction m as [|c m IH]; intros rest n A E Hn; cbn [app].
  - unfold on_from. cbn [length positional]. replace (n * _ + 0 <=? 4095) with true by (cbn; lia).
    cbn [andb]. destruct rest as [|c r].
    + unfold says; cbn [remembered fold_left content]. reflexivity.
    + rewrite !says_cons. cbn [read]. rewrite <- is_digit_spec. cbn in E. rewrite E. reflexivity.
  - cbn in A. apply andb_true_iff in A. destruct A as [Ac A]. rewrite says_cons. cbn [read].
    rewrite <- is_digit_spec, Ac. rewrite on_from_cons. destruct (10 * n + digit c <=? 4095) eqn:L.
    + apply IH; [assumption | assumption | lia].
    + rewrite says_refused. pose proof (on_from_ge 10 (10 * n + digit c) m ltac:(lia)).
      replace (on_from 10 (10 * n + digit c) m <=? 4095) with false by lia. reflexivity.
Qed.

Lemma bin_digit_value : forall c, is_bin_digit c = true ->
  digit (if c =? c_ "." then c_ "0" else c) = (if c =? c_ "1" then 1 else 0).
Proof.
  intros c H. unfold is_bin_digit in H. repeat rewrite orb_true_iff in H.
  destruct H as [[H|H]|H]; apply N.eqb_eq in H; subst c; vm_compute; reflexivity.
Qed.

Lemma undot_length : forall s, length (undot s) = length s.
Proof. intros. apply map_length. Qed.

Lemma binary_ends : forall y m rest n, forallb is_bin_digit m = true -> ends_with is_bin_digit rest -> n < 2 ^ 64 ->
  says (At y (InBinary n)) (m ++ rest) = (on_from 2 n (undot m) mod 2 ^ 64 <=? 4095) && says (At y Between) rest.
Proof.
  intros y. induction m as [|c m IH]; intros rest n A E Hn.
  - cbn [app]. unfold on_from. cbn [undot map length positional].
    replace (n * 2 ^ N.of_nat 0 + 0) with n by (cbn [N.of_nat]; rewrite N.pow_0_r; lia).
    rewrite N.mod_small by exact Hn.
    destruct rest as [|c r].
    + unfold says; cbn [remembered fold_left content]. rewrite andb_true_r. apply andb_comm.
    + rewrite !says_cons. cbn [read]. rewrite <- is_bin_digit_spec. cbn in E. rewrite E.
      destruct (n <=? 4095); [reflexivity | apply says_refused].
  - cbn [app]. cbn in A. apply andb_true_iff in A. destruct A as [Ac A]. rewrite says_cons. cbn [read].
    rewrite <- is_bin_digit_spec, Ac.
    rewrite IH; [|assumption | assumption | apply N.mod_lt; discriminate].
    f_equal. f_equal.
    cbn [undot map]. change (map (fun c0 => if c0 =? c_ "." then c_ "0" else c0) m) with (undot m).
    rewrite on_from_cons, (bin_digit_value _ Ac). unfold on_from.
    rewrite N.add_mod, N.mul_mod, N.mod_mod by discriminate.
    rewrite <- N.mul_mod, <- N.add_mod by discriminate. reflexivity.
Qed.

Lemma string_ends : forall n y s, (length s <= n)%nat ->
  match find_string_body s with
  | Some m => exists rest, s = m ++ rest /\ says (At y InText) s = says (At y Between) rest
  | None => says (At y InText) s = false
  end.
Proof.
  induction n as [|n IH]; intros y s L.
  - destruct s; [|cbn in L; lia]. cbn [find_string_body]. unfold says; cbn [remembered fold_left content]. apply andb_false_r.
  - destruct s as [|c s].
    { cbn [find_string_body]. unfold says; cbn [remembered fold_left content]. apply andb_false_r. }
    cbn [find_string_body]. rewrite says_cons. cbn [read]. unfold QUOTE, BACKSLASH. destruct (c =? 34) eqn:Q.
    { exists s. split; reflexivity. }
    destruct (c =? 92) eqn:B.
    + destruct s as [|d s].
      { unfold says; cbn [remembered fold_left content]. apply andb_false_r. }
      rewrite says_cons. cbn [read]. unfold LF. change newline with 10. destruct (d =? 10).
      { apply says_refused. }
      specialize (IH y s). cbn in L. specialize (IH ltac:(lia)).
      destruct (find_string_body s) as [m|]; [|exact IH].
      destruct IH as (rest & -> & E). exists rest. split; [reflexivity | exact E].
    + cbn in L. specialize (IH y s ltac:(lia)).
      destruct (find_string_body s) as [m|]; [|exact IH].
      destruct IH as (rest & -> & E). exists rest. split; [reflexivity | exact E].
Qed.

Lemma hex_ends : forall y s,
  match take_while_max 3 is_hex_digit s with
  | [] => says (At y AtHex) s = false
  | m => exists rest, s = m ++ rest /\ says (At y AtHex) s = says (At y Between) rest
  end.
Proof.
  intros y s. destruct s as [|a s].
  { cbn [take_while_max]. unfold says; cbn [remembered fold_left content]. apply andb_false_r. }
  cbn [take_while_max]. rewrite says_cons. cbn [read]. rewrite <- is_hex_digit_spec. destruct (is_hex_digit a).
  2: { apply says_refused. }
  destruct s as [|b s].
  { exists []. split; [reflexivity|]. unfold says; cbn [remembered fold_left content]. reflexivity. }
  rewrite says_cons. cbn [read]. rewrite <- is_hex_digit_spec. destruct (is_hex_digit b).
  2: { exists (b :: s). split; reflexivity. }
  destruct s as [|c s].
  { exists []. split; [reflexivity|]. unfold says; cbn [remembered fold_left content]. reflexivity. }
  rewrite says_cons. cbn [read]. rewrite <- is_hex_digit_spec. destruct (is_hex_digit c).
  - exists s. split; reflexivity.
  - exists (c :: s). split; reflexivity.
Qed.

Lemma bracket_ends : forall y s,
  if starts_with s (u "i]") || starts_with s (u "I]")
  then exists rest, s = firstn 2 s ++ rest /\ says (At y AtBracket) s = says (At y Between) rest
  else says (At y AtBracket) s = false.
Proof.
  intros y s. change (u "i]") with [105; 93]. change (u "I]") with [73; 93].
  destruct s as [|a s].
  { cbn [starts_with orb]. unfold says; cbn [remembered fold_left content]. apply andb_false_r. }
  rewrite says_cons. cbn [read]. replace (among "iI" a) with ((105 =? a) || (73 =? a)).
  2: { unfold among. change (u "iI") with [105; 73]. cbn [existsb]. lia. }
  destruct s as [|b s].
  { cbn [starts_with]. rewrite !andb_false_r. cbn [orb].
    destruct (105 =? a), (73 =? a); cbn [orb]; unfold says; cbn [remembered fold_left content];
      try apply andb_false_r; reflexivity. }
  cbn [starts_with]. rewrite !starts_with_nil, !andb_true_r.
  destruct ((105 =? a) || (73 =? a)) eqn:A.
  - rewrite says_cons. cbn [read]. change (c_ "]") with 93. rewrite (N.eqb_sym b 93). destruct (93 =? b) eqn:B.
    + rewrite !andb_true_r, A. exists s. split; reflexivity.
    + rewrite !andb_false_r. apply says_refused.
  - apply orb_false_iff in A. destruct A as [-> ->]. apply says_refused.
Qed.

(** ** One lexeme *)

Definition first_spot (k : kind) (c : char) : spot :=
  match k with
  | KComment => InRemark
  | KString => InText
  | KHex => AtHex
  | KBin => AtBinary
  | KDec => InDecimal (digit c)
  | KIdentifier => InName
  | KIndirect => AtBracket
  | KDot | KColon | KComma | KNewline => Between
  end.

Lemma between_kind : forall y k c, first_ok k c = true -> between y c = begin_as y k (first_spot k c).
Proof.
  intros y k c F. unfold between. rewrite (first_not_blank _ _ F).
  destruct k; cbn [first_ok] in F;
    try (apply N.eqb_eq in F; subst c; reflexivity).
  - apply orb_true_iff in F. destruct F as [F|F]; apply N.eqb_eq in F; subst c; reflexivity.
  - rewrite <- is_digit_spec, F.
    replace (among "$#" c) with ((c =? c_ "$") || (c =? c_ "#")).
    2: { unfold among. change (u "$#") with [36; 35]. change (c_ "$") with 36. change (c_ "#") with 35. cbn [existsb]. lia. }
    unfold_classes.
    replace (c =? 10) with false by lia. replace (c =? 59) with false by lia. replace (c =? 46) with false by lia.
    replace (c =? 58) with false by lia. replace (c =? 44) with false by lia. replace (c =? 34) with false by lia.
    replace ((c =? 36) || (c =? 35)) with false by lia. replace (c =? 37) with false by lia.
    replace (c =? 91) with false by lia. reflexivity.
  - rewrite <- is_digit_spec, <- is_id_start_spec, F.
    replace (among "$#" c) with ((c =? c_ "$") || (c =? c_ "#")).
    2: { unfold among. change (u "$#") with [36; 35]. change (c_ "$") with 36. change (c_ "#") with 35. cbn [existsb]. lia. }
    unfold_classes.
    replace (c =? 10) with false by lia. replace (c =? 59) with false by lia. replace (c =? 46) with false by lia.
    replace (c =? 58) with false by lia. replace (c =? 44) with false by lia. replace (c =? 34) with false by lia.
    replace ((c =? 36) || (c =? 35)) with false by lia. replace (c =? 37) with false by lia.
    replace (c =? 91) with false by lia. replace ((48 <=? c) && (c <=? 57)) with false by lia. reflexivity.
Qed.

Lemma between_none : forall y c, blank c = false -> (forall k, first_ok k c = false) -> between y c = Refused.
Proof.
  intros y c B F. unfold between. rewrite B.
  pose proof (F KNewline) as F1. pose proof (F KComment) as F2. pose proof (F KDot) as F3. pose proof (F KColon) as F4.
  pose proof (F KComma) as F5. pose proof (F KString) as F6. pose proof (F KHex) as F7. pose proof (F KBin) as F8.
  pose proof (F KIndirect) as F9. pose proof (F KDec) as F10. pose proof (F KIdentifier) as F11.
  cbn [first_ok] in *. rewrite F1, F2, F3, F4, F5, F6, F8, F9.
  replace (among "$#" c) with ((c =? c_ "$") || (c =? c_ "#")).
  2: { unfold among. change (u "$#") with [36; 35]. change (c_ "$") with 36. change (c_ "#") with 35. cbn [existsb]. lia. }
  rewrite F7, <- is_digit_spec, F10, <- is_id_start_spec, F11. reflexivity.
Qed.

Definition in_range (k : kind) (m : str) : bool :=
  match k with
  | KBin => positional 2 (undot (tl m)) mod 2 ^ 64 <=? 4095
  | KDec => positional 10 m <=? 4095
  | _ => true
  end.

Definition from_place (o : option place) (s : str) : bool :=
  match o with Some y => says (At y Between) s | None => false end.

Lemma begin_says : forall y k q s,
  says (begin_as y k q) s = match onward y k with Some y' => says (At y' q) s | None => false end.
Proof. intros. unfold begin_as. destruct (onward y k); [reflexivity | apply says_refused]. Qed.

Lemma take_ends : forall p s, exists rest, s = take_while p s ++ rest /\ ends_with p rest.
Proof.
  intros p. induction s as [|c s (rest & E & Hr)].
  - exists []. split; [reflexivity | exact I].
  - cbn [take_while]. destruct (p c) eqn:P.
    + exists rest. split; [cbn [app]; f_equal; exact E | exact Hr].
    + exists (c :: s). split; [reflexivity | exact P].
Qed.

Lemma lexeme_says : forall k m rest s y, lexeme k m rest s ->
  says (At y Between) s = in_range k m && from_place (onward y k) rest.
Proof.
  intros k m rest s y L. pose proof (lexeme_find _ _ _ _ L) as F. destruct L as (E & _).
  destruct (find_first _ _ _ F) as (c & m' & s' & Es & Em & O).
  rewrite Es at 1. rewrite says_cons. cbn [read]. rewrite (between_kind _ _ _ O), begin_says.
  subst m s. cbn [app] in Es. inversion Es; subst s'. clear Es.
  unfold from_place. destruct (onward y k) as [y'|]; [|rewrite andb_false_r; reflexivity].
  destruct k; cbn [first_spot in_range andb tl]; cbn [find] in F; cbn [app] in F.
  - destruct (c =? c_ ";"); [|discriminate F].
    assert (M : m' = take_while (fun c => negb (c =? newline)) (m' ++ rest)) by congruence.
    destruct (take_ends (fun c => negb (c =? newline)) (m' ++ rest)) as (rest' & E' & He). rewrite <- M in E'.
    apply app_inv_head in E'. subst rest'.
    apply remark_ends; [|exact He]. rewrite M. apply take_while_all.
  - destruct (c =? c_ "."); [|discriminate F]. injection F as Hm. subst m'. reflexivity.
  - destruct (c =? c_ ":"); [|discriminate F]. injection F as Hm. subst m'. reflexivity.
  - destruct (c =? c_ ","); [|discriminate F]. injection F as Hm. subst m'. reflexivity.
  - destruct (c =? newline); [|discriminate F]. injection F as Hm. subst m'. reflexivity.
  - unfold find_string_literal in F. destruct (c =? 34); [|discriminate F].
    pose proof (string_ends _ y' (m' ++ rest) (le_n _)) as T. destruct (find_string_body (m' ++ rest)) as [b|]; [|discriminate F].
    assert (b = m') by congruence. subst b. destruct T as (rest' & E' & T). apply app_inv_head in E'. subst rest'. exact T.
  - unfold find_hex_literal in F. destruct ((c =? c_ "$") || (c =? c_ "#")); [|discriminate F].
    pose proof (hex_ends y' (m' ++ rest)) as T. destruct (take_while_max 3 is_hex_digit (m' ++ rest)) as [|d b]; [discriminate F|].
    assert (Hb : d :: b = m') by congruence. destruct T as (rest' & E' & T). rewrite Hb in E'. apply app_inv_head in E'. subst rest'. exact T.
  - unfold find_bin_literal in F. destruct (c =? c_ "%"); [|discriminate F].
    destruct (take_ends is_bin_digit (m' ++ rest)) as (rest' & E' & He).
    pose proof (take_while_all is_bin_digit (m' ++ rest)) as Ha.
    destruct (take_while is_bin_digit (m' ++ rest)) as [|d b]; [discriminate F|].
    assert (Hb : d :: b = m') by congruence. rewrite Hb in E'. apply app_inv_head in E'. subst rest' m'.
    cbn in Ha. apply andb_true_iff in Ha. destruct Ha as [Hd Ha].
    cbn [app]. rewrite says_cons. cbn [read]. rewrite <- is_bin_digit_spec, Hd.
    rewrite binary_ends; [|exact Ha | exact He | destruct (d =? c_ "1"); reflexivity].
    f_equal. f_equal. f_equal. cbn [undot map]. change (map _ b) with (undot b).
    unfold on_from. cbn [positional]. rewrite <- (bin_digit_value _ Hd). rewrite undot_length. reflexivity.
  - unfold find_decimal_literal, non_empty in F.
    destruct (take_ends is_digit (c :: m' ++ rest)) as (rest' & E' & He).
    pose proof (take_while_all is_digit (c :: m' ++ rest)) as Ha.
    destruct (take_while is_digit (c :: m' ++ rest)) as [|d b]; [discriminate F|].
    assert (Hb : d :: b = c :: m') by congruence. rewrite Hb in E', Ha. clear F Hb.
    change (c :: m' ++ rest) with ((c :: m') ++ rest) in E'. apply app_inv_head in E'. subst rest'.
    cbn in Ha. apply andb_true_iff in Ha. destruct Ha as [Hd Ha].
    pose proof (proj2 (dec_digit_value _ Hd)).
    rewrite decimal_ends; [|exact Ha | exact He | lia]. reflexivity.
  - unfold find_identifier in F. destruct (is_id_start c); [|discriminate F].
    destruct (take_ends is_id_char (m' ++ rest)) as (rest' & E' & He).
    pose proof (take_while_all is_id_char (m' ++ rest)) as Ha.
    assert (Hb : take_while is_id_char (m' ++ rest) = m') by congruence. rewrite Hb in E', Ha. apply app_inv_head in E'. subst rest'.
    apply name_ends; assumption.
  - pose proof (bracket_ends y' (m' ++ rest)) as T.
    apply N.eqb_eq in O. subst c.
    change (starts_with (c_ "[" :: m' ++ rest) (u "[i]")) with (starts_with (m' ++ rest) (u "i]")) in F.
    change (starts_with (c_ "[" :: m' ++ rest) (u "[I]")) with (starts_with (m' ++ rest) (u "I]")) in F.
    destruct (starts_with (m' ++ rest) (u "i]") || starts_with (m' ++ rest) (u "I]")); [|discriminate F].
    assert (Hb : firstn 2 (m' ++ rest) = m'). { cbn [firstn] in F. change (firstn 2 (m' ++ rest)) with (tl (firstn 3 (c_ "[" :: m' ++ rest))). cbn [firstn]. injection F as F'. exact F'. }
    destruct T as (rest' & E' & T). rewrite Hb in E'. apply app_inv_head in E'. subst rest'. exact T.
Qed.

(** No lexeme begins here. *)
Lemma stuck_says : forall c s y, blank c = false -> (forall k m rest, c :: s = m ++ rest -> ~ rmatch (pattern k) m) ->
  says (At y Between) (c :: s) = false.
Proof.
  intros c s y B N. rewrite says_cons. cbn [read].
  assert (H : forall k, find k (c :: s) = None).
  { intros k. destruct (find k (c :: s)) as [m|] eqn:F; [|reflexivity]. exfalso.
    destruct (find_lexeme _ _ _ F) as (rest & E & (_ & R & _)). exact (N _ _ _ E R). }
  destruct (existsb (fun k => first_ok k c) [KComment; KDot; KColon; KComma; KNewline; KString; KHex; KBin; KDec; KIdentifier; KIndirect]) eqn:X.
  - apply existsb_exists in X. destruct X as (k & _ & O). rewrite (between_kind _ _ _ O), begin_says.
    destruct (onward y k) as [y'|]; [|reflexivity]. specialize (H k).
    destruct k; cbn [first_ok] in O; cbn [find] in H; cbn [first_spot].
    + rewrite O in H. discriminate H.
    + rewrite O in H. discriminate H.
    + rewrite O in H. discriminate H.
    + rewrite O in H. discriminate H.
    + change newline with LF in H. rewrite O in H. discriminate H.
    + unfold find_string_literal in H. change QUOTE with 34 in O. rewrite O in H.
      pose proof (string_ends _ y' s (le_n _)) as T. destruct (find_string_body s); [discriminate H | exact T].
    + unfold find_hex_literal in H. rewrite O in H.
      pose proof (hex_ends y' s) as T. destruct (take_while_max 3 is_hex_digit s); [exact T | discriminate H].
    + unfold find_bin_literal in H. rewrite O in H. destruct s as [|d s].
      * unfold says; cbn [remembered fold_left content]. apply andb_false_r.
      * cbn [take_while] in H. rewrite says_cons. cbn [read]. rewrite <- is_bin_digit_spec.
        destruct (is_bin_digit d); [discriminate H | apply says_refused].
    + unfold find_decimal_literal, non_empty in H. cbn [take_while] in H. rewrite O in H. discriminate H.
    + unfold find_identifier in H. rewrite O in H. discriminate H.
    + apply N.eqb_eq in O. subst c. pose proof (bracket_ends y' s) as T.
      change (starts_with (c_ "[" :: s) (u "[i]")) with (starts_with s (u "i]")) in H.
      change (starts_with (c_ "[" :: s) (u "[I]")) with (starts_with s (u "I]")) in H.
      destruct (starts_with s (u "i]") || starts_with s (u "I]")); [discriminate H | exact T].
  - rewrite between_none; [apply says_refused | exact B |]. intros k.
    rewrite <- not_true_iff_false. intros O. rewrite <- not_true_iff_false in X. apply X.
    apply existsb_exists. exists k. split; [destruct k; cbn; tauto | exact O].
Qed.

(** ** Tokens *)

Definition token_onward (y : place) (t : token) : option place :=
  match t with
  | SingleLineComment _ _ => onward y KComment
  | DirectiveMarker _ => onward y KDot
  | Identifier _ _ => onward y KIdentifier
  | LabelMarker _ => onward y KColon
  | StringLiteral _ _ => onward y KString
  | NumericLiteral _ _ => onward y KDec
  | Comma _ => onward y KComma
  | Newline _ => onward y KNewline
  | ErrorToken _ _ => None
  end.

Fixpoint tokens_end (y : place) (ts : list token) : bool :=
  match ts with
  | [] => may_end y
  | t :: r => match token_onward y t with Some y' => tokens_end y' r | None => false end
  end.

Lemma token_leads : forall file before k m t y, token_of file before k m t -> onward y k = token_onward y t.
Proof. intros file before k m t y H. destruct H; destruct y; reflexivity. Qed.

(** What can follow at each place. *)
Definition follows (y : place) (ts : list token) : Prop :=
  let whole ts := exists ns, program ts ns in
  let more_literals ts := exists args rest, literals ts args rest /\ whole rest in
  let more_fields ts := exists args rest, fields ts args rest /\ whole rest in
  match y with
  | Start => whole ts
  | AfterDot => exists id l r, ts = Identifier id l :: r /\ more_literals r
  | Literals => more_literals ts
  | AfterLiteral => whole ts \/ exists l r, ts = Comma l :: r /\ more_literals r
  | AfterName => (exists l r, ts = LabelMarker l :: r /\ whole r) \/ more_fields ts
  | Fields => more_fields ts
  | AfterField => whole ts \/ exists l r, ts = Comma l :: r /\ more_fields r
  end.

Lemma follows_nil : forall y, follows y [] <-> may_end y = true.
Proof.
  intros y. split.
  - intros H. destruct y; try reflexivity; exfalso; cbn [follows] in H.
    + destruct H as (? & ? & ? & H & _). discriminate H.
    + destruct H as (? & ? & H & _). inversion H.
    + destruct H as [(? & ? & H & _) | (? & ? & H & _)]; [discriminate H | inversion H].
    + destruct H as (? & ? & H & _). inversion H.
  - intros H. destruct y; try discriminate H; cbn [follows]; try left; exists []; constructor.
Qed.

Ltac leads :=
  match goal with
  | H : literal_token _ _ |- _ => inversion H; subst; clear H
  | H : field_token _ _ |- _ => inversion H; subst; clear H
  end.

Lemma whole_cons : forall t ts, (exists ns, program (t :: ts) ns) ->
  match token_onward Start t with Some y => follows y ts | None => False end.
Proof.
  intros t ts (ns & H). inversion H; subst; cbn [token_onward onward fresh follows].
  - eexists; eassumption.
  - eexists; eassumption.
  - do 3 eexists. split; [reflexivity|]. do 2 eexists. split; [eassumption | eexists; eassumption].
  - left. do 2 eexists. split; [reflexivity | eexists; eassumption].
  - right. do 2 eexists. split; [eassumption | eexists; eassumption].
Qed.

Lemma literals_cons : forall t ts, (exists args rest, literals (t :: ts) args rest /\ exists ns, program rest ns) ->
  match token_onward Literals t with Some y => follows y ts | None => False end.
Proof.
  intros t ts (args & rest & H & W). inversion H; subst.
  - destruct W as (ns & W). inversion W; subst. cbn [token_onward onward follows]. eexists; eassumption.
  - leads; cbn [token_onward onward follows]; left; exact W.
  - leads; cbn [token_onward onward follows]; right; do 2 eexists; (split; [reflexivity|]); do 2 eexists; (split; [eassumption | exact W]).
Qed.

Lemma fields_cons : forall t ts, (exists args rest, fields (t :: ts) args rest /\ exists ns, program rest ns) ->
  match token_onward Fields t with Some y => follows y ts | None => False end.
Proof.
  intros t ts (args & rest & H & W). inversion H; subst.
  - destruct W as (ns & W). inversion W; subst. cbn [token_onward onward operands follows]. eexists; eassumption.
  - destruct W as (ns & W). inversion W; subst. cbn [token_onward onward operands follows]. eexists; eassumption.
  - leads; cbn [token_onward onward operands follows]; left; exact W.
  - leads; cbn [token_onward onward operands follows]; right; do 2 eexists; (split; [reflexivity|]); do 2 eexists; (split; [eassumption | exact W]).
Qed.

Lemma cons_whole : forall t ts, match token_onward Start t with Some y => follows y ts | None => False end ->
  exists ns, program (t :: ts) ns.
Proof.
  intros t ts H. destruct t; cbn [token_onward onward fresh follows] in H; try contradiction.
  - destruct H as (ns & H). eexists. constructor. exact H.
  - destruct H as (id1 & l1 & r & -> & args & rest & H & ns & W). eexists. econstructor; eassumption.
  - destruct H as [(l1 & r & -> & ns & W) | (args & rest & H & ns & W)].
    + eexists. apply pr_label. exact W.
    + eexists. eapply pr_instruction; eassumption.
  - destruct H as (ns & H). eexists. constructor. exact H.
Qed.

Lemma cons_literals : forall t ts, match token_onward Literals t with Some y => follows y ts | None => False end ->
  exists args rest, literals (t :: ts) args rest /\ exists ns, program rest ns.
Proof.
  intros t ts H. destruct t; cbn [token_onward onward follows] in H; try contradiction.
  - destruct H as [W | (l1 & r & -> & args & rest & H & W)].
    + do 2 eexists. split; [apply ls_one; constructor | exact W].
    + do 2 eexists. split; [apply ls_more; [constructor | exact H] | exact W].
  - destruct H as [W | (l1 & r & -> & args & rest & H & W)].
    + do 2 eexists. split; [apply ls_one; constructor | exact W].
    + do 2 eexists. split; [apply ls_more; [constructor | exact H] | exact W].
  - destruct H as (ns & W). do 2 eexists. split; [apply ls_none|]. eexists. constructor. exact W.
Qed.

Lemma cons_fields : forall t ts, match token_onward Fields t with Some y => follows y ts | None => False end ->
  exists args rest, fields (t :: ts) args rest /\ exists ns, program rest ns.
Proof.
  intros t ts H. destruct t; cbn [token_onward onward operands follows] in H; try contradiction.
  - destruct H as (ns & W). do 2 eexists. split; [apply fs_none_comment|]. eexists. constructor. exact W.
  - destruct H as [W | (l1 & r & -> & args & rest & H & W)].
    + do 2 eexists. split; [apply fs_one; constructor | exact W].
    + do 2 eexists. split; [apply fs_more; [constructor | exact H] | exact W].
  - destruct H as [W | (l1 & r & -> & args & rest & H & W)].
    + do 2 eexists. split; [apply fs_one; constructor | exact W].
    + do 2 eexists. split; [apply fs_more; [constructor | exact H] | exact W].
  - destruct H as (ns & W). do 2 eexists. split; [apply fs_none|]. eexists. constructor. exact W.
Qed.

Lemma follows_cons : forall y t ts,
  follows y (t :: ts) <-> match token_onward y t with Some y' => follows y' ts | None => False end.
Proof.
  intros y t ts. destruct y.
  - split; [apply whole_cons | apply cons_whole].
  - split.
    + intros (id1 & l1 & r & E & H). inversion E; subst. exact H.
    + intros H. destruct t; try contradiction H. cbn [follows]. do 3 eexists. split; [reflexivity | exact H].
  - split; [apply literals_cons | apply cons_literals].
  - split.
    + intros [H | (l1 & r & E & H)].
      * apply whole_cons in H. destruct t; try contradiction H; exact H.
      * inversion E; subst. exact H.
    + intros H. destruct t; try contradiction H; try (left; apply cons_whole; exact H).
      right. do 2 eexists. split; [reflexivity | exact H].
  - split.
    + intros [(l1 & r & E & H) | H].
      * inversion E; subst. exact H.
      * apply fields_cons in H. destruct t; try contradiction H; exact H.
    + intros H. destruct t; try contradiction H; try (right; apply cons_fields; exact H).
      left. do 2 eexists. split; [reflexivity | exact H].
  - split; [apply fields_cons | apply cons_fields].
  - split.
    + intros [H | (l1 & r & E & H)].
      * apply whole_cons in H. destruct t; try contradiction H; exact H.
      * inversion E; subst. exact H.
    + intros H. destruct t; try contradiction H; try (left; apply cons_whole; exact H).
      right. do 2 eexists. split; [reflexivity | exact H].
Qed.

Lemma tokens_follow : forall ts y, tokens_end y ts = true <-> follows y ts.
Proof.
  induction ts as [|t ts IH]; intros y; cbn [tokens_end].
  - symmetry. apply follows_nil.
  - rewrite follows_cons. destruct (token_onward y t) as [y'|]; [apply IH|]. split; [discriminate | contradiction].
Qed.

(** ** The text *)

Lemma token_in_range : forall file before k m t, token_of file before k m t -> in_range k m = true.
Proof. intros file before k m t H. destruct H; cbn [in_range tl]; try reflexivity; lia. Qed.

Lemma bad_out_of_range : forall k m e, bad_lexeme k m e -> in_range k m = false.
Proof. intros k m e H. destruct H; cbn [in_range tl]; lia. Qed.

Theorem lexes_says : forall file before s ts, lexes file before s ts -> forall y, says (At y Between) s = tokens_end y ts.
Proof.
  induction 1 as [b | b c s ts B H IH | b s k m rest t ts L T H IH | b s k m rest e L B | b c s B N]; intros y.
  - unfold says. cbn [remembered fold_left content tokens_end]. apply andb_true_r.
  - rewrite says_cons. cbn [read]. unfold between. rewrite B. apply IH.
  - rewrite (lexeme_says _ _ _ _ y L), (token_in_range _ _ _ _ _ T). cbn [andb tokens_end].
    rewrite <- (token_leads _ _ _ _ _ y T). unfold from_place. destruct (onward y k); [apply IH | reflexivity].
  - rewrite (lexeme_says _ _ _ _ y L), (bad_out_of_range _ _ _ B). reflexivity.
  - rewrite stuck_says by assumption. reflexivity.
Qed.
