(** * PropLex: properties C01-C08 and C10, with an instance of each. *)

From Verif Require Import Base Text Location Token Scanner Parser Directive SpecLex SpecGrammar SpecCode
  SpecUtf8 BaseFacts LexProofs ScanProofs LexTheorems LexCode ParseProofs UtfProofs.
Open Scope N_scope.

(** A text used in the instances: two statements, a comment, non-ASCII blanks. *)
Definition sample : str := u "ld v0, $1f ; x" ++ [LF; 0xA0] ++ u ".db ""a\""b"", %1.1".

(** ** C01: scanning terminates without panicking, and stays finished. *)
Theorem C01_scan : forall file s, exists ts,
  scan file s = Done ts /\
  forall n, exists sc, nexts n (scanner_new file s)
    = Done (map Some (firstn n ts) ++ repeat None (n - length ts), sc).
Proof. exact next_token_fused. Qed.
Print Assumptions C01_scan.

Example C01_instance : exists ts, scan (u "f") sample = Done ts /\ length ts = 11%nat.
Proof. eexists. split; vm_compute; reflexivity. Qed.

(** The positions in this are byte positions: cutting a text at [a] and [b] panics unless
    these are the numbers of UTF-8 bytes before two of its characters. *)
Lemma byte_len_encoding : forall s bytes, encoding s bytes -> byte_len s = N.of_nat (length bytes).
Proof.
  intros s bytes E. apply encoding_utf8 in E. destruct E as [_ ->]. induction s as [|c s IH]; [reflexivity|].
  unfold utf8 in *. cbn [byte_len flat_map]. rewrite app_length, Nat2N.inj_add, <- IH. f_equal.
  unfold len_utf8, utf8_char. repeat destruct (_ <? _); reflexivity.
Qed.

Lemma take_bytes_inv : forall s n m, take_bytes s n = Done m -> exists y, s = m ++ y /\ n = byte_len m.
Proof.
  induction s as [|c s IH]; intros n m H; cbn [take_bytes] in H; destruct (n =? 0) eqn:E.
  - injection H as <-. exists []. split; [reflexivity|]. cbn [byte_len]. lia.
  - discriminate.
  - injection H as <-. exists (c :: s). split; [reflexivity|]. cbn [byte_len]. lia.
  - destruct (len_utf8 c <=? n) eqn:L; [|discriminate].
    destruct (take_bytes s (n - len_utf8 c)) as [t|] eqn:T; [|discriminate]. cbn [bind] in H. injection H as <-.
    destruct (IH _ _ T) as (y & -> & B). exists y. split; [reflexivity|]. cbn [byte_len]. lia.
Qed.

Lemma drop_bytes_inv : forall s n r, drop_bytes s n = Done r -> exists x, s = x ++ r /\ n = byte_len x.
Proof.
  induction s as [|c s IH]; intros n r H; cbn [drop_bytes] in H; destruct (n =? 0) eqn:E.
  - injection H as <-. exists []. split; [reflexivity|]. cbn [byte_len]. lia.
  - discriminate.
  - injection H as <-. exists []. split; [reflexivity|]. cbn [byte_len]. lia.
  - destruct (len_utf8 c <=? n) eqn:L; [|discriminate].
    destruct (IH _ _ H) as (x & -> & B). exists (c :: x). split; [reflexivity|]. cbn [byte_len]. lia.
Qed.

Theorem C01_slice : forall s a b m, Forall scalar s ->
  slice s a b = Done m <->
  exists x y xb mb, s = x ++ m ++ y /\ encoding x xb /\ encoding m mb /\
    a = N.of_nat (length xb) /\ b = a + N.of_nat (length mb).
Proof.
  intros s a b m F. split.
  - unfold slice. destruct (a <=? b) eqn:Le; [|discriminate]. intros H.
    destruct (drop_bytes s a) as [t|] eqn:D; [|discriminate]. cbn [bind] in H.
    destruct (drop_bytes_inv _ _ _ D) as (x & -> & A). destruct (take_bytes_inv _ _ _ H) as (y & -> & B).
    apply Forall_app in F. destruct F as [Fx F]. apply Forall_app in F. destruct F as [Fm _].
    assert (Ex : encoding x (utf8 x)) by (apply encoding_utf8; auto).
    assert (Em : encoding m (utf8 m)) by (apply encoding_utf8; auto).
    exists x, y, (utf8 x), (utf8 m). split; [reflexivity|]. split; [exact Ex|]. split; [exact Em|].
    rewrite <- (byte_len_encoding _ _ Ex), <- (byte_len_encoding _ _ Em). split; [exact A | lia].
  - intros (x & y & xb & mb & -> & Ex & Em & -> & ->).
    rewrite <- (byte_len_encoding _ _ Ex), <- (byte_len_encoding _ _ Em). apply slice_app.
Qed.
Print Assumptions C01_slice.

Example C01_slice_instance : slice [0x41; 0xE9; 0x20AC; 0x1F600; 0x42] 3 10 = Done [0x20AC; 0x1F600] /\
  slice [0x41; 0xE9; 0x20AC; 0x1F600; 0x42] 2 10 = Crash BadSlice.
Proof. split; vm_compute; reflexivity. Qed.

(** ** C02: the tokens partition the text. *)
Theorem C02_partition : forall file s ts,
  scan file s = Done ts -> existsb is_error ts = false -> partition ts s.
Proof. exact scan_partition. Qed.
Print Assumptions C02_partition.

Example C02_instance : exists ts,
  scan (u "f") sample = Done ts /\ existsb is_error ts = false /\ partition ts sample.
Proof.
  destruct (scan_total (u "f") sample) as (ts & E).
  assert (Ne : existsb is_error ts = false).
  { revert E. vm_compute. intros E. injection E as <-. reflexivity. }
  exists ts. split; [exact E|]. split; [exact Ne|]. exact (C02_partition _ _ _ E Ne).
Qed.

(** A newline stands in no other text but a string's. *)
Fixpoint avoids (c : char) (r : re) : bool :=
  match r with
  | Chr p => negb (p c)
  | Eps => true
  | Cat a b | Alt a b => avoids c a && avoids c b
  | Star a => avoids c a
  end.

Lemma avoids_ok : forall c r m, rmatch r m -> avoids c r = true -> ~ In c m.
Proof.
  intros c r m. induction 1; cbn [avoids]; rewrite ?andb_true_iff; intros A I.
  - destruct I as [<-|[]]. rewrite H in A. discriminate A.
  - destruct I.
  - apply in_app_iff in I. tauto.
  - tauto.
  - tauto.
  - destruct I.
  - apply in_app_iff in I. tauto.
Qed.

Theorem C02_newline : forall file s ts t m, scan file s = Done ts -> In t ts -> text_of t m -> In LF m ->
  (exists l, t = Newline l) \/ (exists b l, t = StringLiteral b l).
Proof.
  intros file s ts t m S I X F. apply scan_lexes in S.
  assert (Ne : forall k, avoids LF (pattern k) = true -> rmatch (pattern k) m -> False)
    by (intros k A R; exact (avoids_ok LF _ _ R A F)).
  induction S as [before | before c s ts Hb H IH | before s k m' rest t' ts L T H IH
                  | before s k m' rest e L B | before c s Hb St].
  - destruct I.
  - exact (IH I).
  - destruct I as [->|I]; [|exact (IH I)]. destruct L as (_ & R & _).
    inversion T; subst; inversion X; subst; eauto.
    + exfalso. exact (Ne KComment eq_refl R).
    + exfalso. vm_compute in F. destruct F as [F|[]]; discriminate F.
    + exfalso. vm_compute in F. destruct F as [F|[]]; discriminate F.
    + exfalso. vm_compute in F. destruct F as [F|[]]; discriminate F.
    + exfalso. match goal with Hk : In ?k _, Hr : rmatch _ _ |- _ => refine (Ne k _ Hr); destruct Hk as [<-|[<-|[<-|[]]]]; reflexivity end.
    + exfalso. match goal with Hk : In ?k _, Hr : rmatch _ _ |- _ => refine (Ne k _ Hr); destruct Hk as [<-|[<-|[<-|[]]]]; reflexivity end.
    + exfalso. match goal with Hk : In ?k _, Hr : rmatch _ _ |- _ => refine (Ne k _ Hr); destruct Hk as [<-|[<-|[<-|[]]]]; reflexivity end.
    + exfalso. exact (Ne KIdentifier eq_refl R).
    + exfalso. exact (Ne KIndirect eq_refl R).
  - destruct I as [<-|[]]. inversion X.
  - destruct I as [<-|[]]. inversion X.
Qed.
Print Assumptions C02_newline.

(** ** C03: locations.  The token's text [m] stands after [before], which contains
    exactly the tokens before it. *)
Theorem C03_location : forall file s ts i t,
  scan file s = Done ts -> nth_error ts i = Some t ->
  exists before m after,
    s = before ++ m ++ after /\ m <> [] /\
    token_location t = located file before m /\
    scan file before = Done (firstn i ts) /\
    (is_error t = false -> text_of t m).
Proof. exact scan_location. Qed.
Print Assumptions C03_location.

Example C03_instance :
  option_map (fun ts => nth_error (map token_location ts) 7)
    match scan (u "f") sample with Done ts => Some ts | Crash _ => None end
  = Some (Some (mk_loc (u "f") 2 3 2)) /\
  located (u "f") (u "ld v0, $1f ; x" ++ [LF; 0xA0] ++ u ".") (u "db") = mk_loc (u "f") 2 3 2.
Proof. split; vm_compute; reflexivity. Qed.

(** ** C04: the tokens are those of the lexical grammar, which has one cut for
    each text. *)
Theorem C04_grammar : forall file s ts, scan file s = Done ts <-> lexes file [] s ts.
Proof. exact scan_lexes. Qed.
Print Assumptions C04_grammar.

Theorem C04_unique : forall file before s ts, lexes file before s ts ->
  forall ts', lexes file before s ts' -> ts = ts'.
Proof. exact lexes_det. Qed.
Print Assumptions C04_unique.

Theorem C04_longest : forall k m rest k' m' rest' s,
  lexeme k m rest s -> lexeme k' m' rest' s -> k = k' /\ m = m' /\ rest = rest'.
Proof. exact lexeme_det. Qed.
Print Assumptions C04_longest.

(** Every state of the scanner, until the first error, is one of the states [standing] that
    C06-C10 are about: between two tokens, with the right position, line and column. *)
Theorem C04_states : forall file s ts n, scan file s = Done ts -> (n <= length ts)%nat ->
  existsb is_error_token (firstn n ts) = false ->
  exists before rest, s = before ++ rest /\
    nexts n (scanner_new file s) = Done (map Some (firstn n ts), standing file before rest) /\
    reading file before rest (skipn n ts).
Proof. exact scan_standing. Qed.
Print Assumptions C04_states.

Example C04_instance : lexes (u "f") [] (u "$12x")
  [NumericLiteral 0x12 (mk_loc (u "f") 1 1 3); Identifier (u "x") (mk_loc (u "f") 1 4 1)].
Proof. apply C04_grammar. vm_compute. reflexivity. Qed.

Definition two_lines : str := u "cls" ++ [LF] ++ u "$12 ?".

(** After three tokens, in the second line, before a mistake. *)
Example C04_instance_states : exists ts,
  scan (u "f") two_lines = Done ts /\ length ts = 4%nat /\ existsb is_error_token (firstn 3 ts) = false /\
  existsb is_error_token ts = true /\
  nexts 3 (scanner_new (u "f") two_lines) =
    Done (map Some (firstn 3 ts), standing (u "f") (u "cls" ++ [LF] ++ u "$12") (u " ?")).
Proof. eexists. repeat split; vm_compute; reflexivity. Qed.

(** ** C05: a lexical error is the last token, and no program contains one. *)
Theorem C05_last : forall file s ts i t,
  scan file s = Done ts -> nth_error ts i = Some t -> is_error t = true -> length ts = S i.
Proof. exact scan_error_last. Qed.
Print Assumptions C05_last.

Theorem C05_fatal : forall ts ns, parse ts = Done (Ok ns) -> existsb is_error ts = false.
Proof.
  intros ts ns H. apply parse_program in H.
  destruct (existsb is_error ts) eqn:E; [|reflexivity].
  apply existsb_exists in E. destruct E as (t & I & T). destruct t; try discriminate.
  exfalso. eapply program_no_error; eassumption.
Qed.
Print Assumptions C05_fatal.

Example C05_instance : exists ts,
  scan (u "f") (u "cls @ ret") = Done ts /\
  nth_error ts 1 = Some (ErrorToken (InvalidCharacter (c_ "@")) (mk_loc (u "f") 1 5 1)) /\
  length ts = 2%nat /\ forall ns, parse ts <> Done (Ok ns).
Proof.
  eexists. repeat split; try (vm_compute; reflexivity).
  intros ns H. apply C05_fatal in H. discriminate.
Qed.

(** ** C06: decimal numerals of any length. *)
Theorem C06_decimal : forall file before d rest ts,
  d <> [] -> forallb (among decimal_digits) d = true ->
  starts (among decimal_digits) rest = false ->
  reading file before (d ++ rest) ts ->
  if positional 10 d <=? 4095
  then exists ts', ts = NumericLiteral (positional 10 d) (located file before d) :: ts'
                   /\ reading file (before ++ d) rest ts'
  else ts = [ErrorToken (DecimalLiteralOutOfRange d) (located file before d)].
Proof.
  intros file before d rest ts Hn Ha Hs H. apply reading_lexes in H.
  pose proof (decimal_exact _ _ _ _ _ Hn Ha Hs H) as G. destruct (positional 10 d <=? 4095); [|exact G].
  destruct G as (ts' & E & L). exists ts'. split; [exact E | apply reading_lexes; exact L].
Qed.
Print Assumptions C06_decimal.

Example C06_instance :
  scan (u "f") (u "4095 18446744073709551617") =
  Done [NumericLiteral 4095 (mk_loc (u "f") 1 1 4);
        ErrorToken (DecimalLiteralOutOfRange (u "18446744073709551617")) (mk_loc (u "f") 1 6 20)] /\
  positional 10 (u "18446744073709551617") = 2 ^ 64 + 1.
Proof. split; vm_compute; reflexivity. Qed.

(** ** C07: hexadecimal numerals. *)
Theorem C07_hexadecimal : forall file before p d rest ts,
  among "$#" p = true -> (1 <= length d <= 3)%nat ->
  forallb (among hexadecimal_digits) d = true ->
  (length d = 3%nat \/ starts (among hexadecimal_digits) rest = false) ->
  reading file before (p :: d ++ rest) ts ->
  positional 16 d <= 4095 /\
  exists ts', ts = NumericLiteral (positional 16 d) (located file before (p :: d)) :: ts'
              /\ reading file (before ++ p :: d) rest ts'.
Proof.
  intros file before p d rest ts Hp Hl Ha Hs H. apply reading_lexes in H.
  destruct (hex_exact _ _ _ _ _ _ Hp Hl Ha Hs H) as [B G]. split; [exact B|].
  destruct G as (ts' & E & L). exists ts'. split; [exact E | apply reading_lexes; exact L].
Qed.
Print Assumptions C07_hexadecimal.

Theorem C07_invalid : forall file before p rest ts,
  among "$#" p = true -> starts (among hexadecimal_digits) rest = false ->
  reading file before (p :: rest) ts ->
  ts = [ErrorToken InvalidHexadecimalLiteral (located file before [p])].
Proof.
  intros file before p rest ts Hp Hs H. apply reading_lexes in H. eapply hex_invalid; eassumption.
Qed.
Print Assumptions C07_invalid.

(** Conversely, every number in the tokens is the value of its numeral. *)
Theorem C07_numbers : forall file before s ts, reading file before s ts ->
  forall v l, In (NumericLiteral v l) ts ->
  v <= 4095 /\
  exists b m after, s = b ++ m ++ after /\ l = located file (before ++ b) m /\
    ((rmatch (pattern KDec) m /\ v = positional 10 m) \/
     (exists p d, m = p :: d /\ rmatch (pattern KHex) m /\ v = positional 16 d) \/
     (exists p d, m = p :: d /\ rmatch (pattern KBin) m /\ v = positional 2 (undot d) mod 2 ^ 64)).
Proof. intros file before s ts H. apply lexes_number, reading_lexes, H. Qed.
Print Assumptions C07_numbers.

Example C07_instance :
  scan (u "f") (u "#aF $g") =
  Done [NumericLiteral 0xAF (mk_loc (u "f") 1 1 3);
        ErrorToken InvalidHexadecimalLiteral (mk_loc (u "f") 1 5 1)] /\
  positional 16 (u "aF") = 0xAF.
Proof. split; vm_compute; reflexivity. Qed.

(** ** C08: binary numerals.

    The claim is that of C06 for '%' and base 2.  It fails for numerals of more than
    64 digits: the value is accumulated in 64 bits and the overflowing bits are
    lost. *)
Definition C08_claim : Prop := forall file before d rest ts,
  d <> [] -> forallb (among "01.") d = true ->
  starts (among "01.") rest = false ->
  reading file before (c_ "%" :: d ++ rest) ts ->
  if positional 2 (undot d) <=? 4095
  then exists ts', ts = NumericLiteral (positional 2 (undot d)) (located file before (c_ "%" :: d)) :: ts'
                   /\ reading file (before ++ c_ "%" :: d) rest ts'
  else ts = [ErrorToken (BinaryLiteralOutOfRange d) (located file before (c_ "%" :: d))].

(** One followed by 64 zeros is read as 0. *)
Theorem C08_refuted : exists d,
  forallb (among "01.") d = true /\ positional 2 (undot d) = 2 ^ 64 /\
  scan (u "f") (c_ "%" :: d) = Done [NumericLiteral 0 (mk_loc (u "f") 1 1 66)].
Proof. exists (c_ "1" :: repeat (c_ "0") 64). repeat split; vm_compute; reflexivity. Qed.
Print Assumptions C08_refuted.

Theorem C08_claim_refuted : ~ C08_claim.
Proof.
  intros C. destruct C08_refuted as (d & Hd & V & S).
  assert (L : reading (u "f") [] (c_ "%" :: d) _) by exact S.
  rewrite <- (app_nil_r d) in L.
  assert (Dn : d <> []) by (intros ->; discriminate).
  specialize (C (u "f") [] d [] _ Dn Hd eq_refl L). rewrite V in C.
  change (2 ^ 64 <=? 4095) with false in C. cbn iota in C. discriminate.
Qed.
Print Assumptions C08_claim_refuted.

(** The claim holds of exactly the numerals which are not, modulo 2^64, a number in range: in
    particular of all up to 64 digits.  Of the others, [C08_actual] says what happens. *)
Theorem C08_binary_partial : forall file before d rest ts,
  d <> [] -> forallb (among "01.") d = true ->
  (2 ^ 64 <= positional 2 (undot d) -> 4095 < positional 2 (undot d) mod 2 ^ 64) ->
  starts (among "01.") rest = false ->
  reading file before (c_ "%" :: d ++ rest) ts ->
  if positional 2 (undot d) <=? 4095
  then exists ts', ts = NumericLiteral (positional 2 (undot d)) (located file before (c_ "%" :: d)) :: ts'
                   /\ reading file (before ++ c_ "%" :: d) rest ts'
  else ts = [ErrorToken (BinaryLiteralOutOfRange d) (located file before (c_ "%" :: d))].
Proof.
  intros file before d rest ts Hn Ha Hl Hs H. apply reading_lexes in H.
  pose proof (binary_actual _ _ _ _ _ Hn Ha Hs H) as G. cbv zeta in G.
  destruct (N.leb_spec (2 ^ 64) (positional 2 (undot d))) as [V|V].
  - specialize (Hl V). replace (positional 2 (undot d) mod 2 ^ 64 <=? 4095) with false in G by lia.
    replace (positional 2 (undot d) <=? 4095) with false by lia. exact G.
  - rewrite N.mod_small in G by exact V. destruct (positional 2 (undot d) <=? 4095); [|exact G].
    destruct G as (ts' & E & L). exists ts'. split; [exact E | apply reading_lexes; exact L].
Qed.
Print Assumptions C08_binary_partial.

Theorem C08_digits : forall d, forallb (among "01.") d = true -> (length d <= 64)%nat -> positional 2 (undot d) < 2 ^ 64.
Proof. intros d Ha Hl. eapply N.lt_le_trans; [apply undot_small; exact Ha|]. apply N.pow_le_mono_r; lia. Qed.
Print Assumptions C08_digits.

Theorem C08_actual : forall file before d rest ts,
  d <> [] -> forallb (among "01.") d = true ->
  starts (among "01.") rest = false ->
  reading file before (c_ "%" :: d ++ rest) ts ->
  let v := positional 2 (undot d) mod 2 ^ 64 in
  if v <=? 4095
  then exists ts', ts = NumericLiteral v (located file before (c_ "%" :: d)) :: ts'
                   /\ reading file (before ++ c_ "%" :: d) rest ts'
  else ts = [ErrorToken (BinaryLiteralOutOfRange d) (located file before (c_ "%" :: d))].
Proof.
  intros file before d rest ts Hn Ha Hs H v. apply reading_lexes in H.
  pose proof (binary_actual _ _ _ _ _ Hn Ha Hs H) as G. fold v in G. cbv zeta in G.
  destruct (v <=? 4095); [|exact G].
  destruct G as (ts' & E & L). exists ts'. split; [exact E | apply reading_lexes; exact L].
Qed.
Print Assumptions C08_actual.

Example C08_instance :
  scan (u "f") (u "%1..1 %1000000000000") =
  Done [NumericLiteral 9 (mk_loc (u "f") 1 1 5);
        ErrorToken (BinaryLiteralOutOfRange (u "1000000000000")) (mk_loc (u "f") 1 7 14)] /\
  positional 2 (undot (u "1..1")) = 9.
Proof. split; vm_compute; reflexivity. Qed.

(** ** C10: strings. *)
Theorem C10_string : forall file before b rest ts, string_body b ->
  reading file before (QUOTE :: b ++ QUOTE :: rest) ts ->
  exists ts', ts = StringLiteral b (located file before (QUOTE :: b ++ [QUOTE])) :: ts'
              /\ reading file (before ++ QUOTE :: b ++ [QUOTE]) rest ts'.
Proof.
  intros file before b rest ts Hb H. apply reading_lexes in H.
  pose proof (string_exact _ _ _ _ _ Hb H) as G.
  destruct G as (ts' & E & L). exists ts'. split; [exact E | apply reading_lexes; exact L].
Qed.
Print Assumptions C10_string.

(** Conversely, every string in the tokens stands between quotes in the text. *)
Theorem C10_strings : forall file before s ts, reading file before s ts ->
  forall b l, In (StringLiteral b l) ts ->
  string_body b /\
  exists x after, s = x ++ QUOTE :: b ++ QUOTE :: after /\ l = located file (before ++ x) (QUOTE :: b ++ [QUOTE]).
Proof.
  intros file before s ts H. apply reading_lexes in H.
  induction H as [before | before c s ts Hb H IH | before s k m rest t ts L T H IH
                  | before s k m rest e L B | before c s Hb St]; intros b l Hin.
  - destruct Hin.
  - destruct (IH _ _ Hin) as (V & x & after & -> & El). split; [exact V|].
    exists (c :: x), after. split; [reflexivity|]. rewrite <- app_assoc in El. exact El.
  - destruct Hin as [->|Hin].
    + destruct L as (E & R & _). inversion T; subst. split.
      * cbn [pattern] in R. apply rmatch_cat in R. destruct R as (q & y & E & Rq & Ry).
        apply rmatch_lit in Rq. subst q. cbn [app] in E. injection E as <-.
        apply rmatch_cat in Ry. destruct Ry as (z & q & E & Rz & Rq). apply rmatch_lit in Rq. subst q.
        apply app_inv_tail in E. subst z. apply string_body_star. exact Rz.
      * exists [], rest. split.
        { cbn [app]. rewrite <- app_assoc. reflexivity. }
        rewrite app_nil_r. reflexivity.
    + destruct (IH _ _ Hin) as (V & x & after & -> & El). split; [exact V|].
      exists (m ++ x), after. destruct L as (-> & _). split; [rewrite <- app_assoc; reflexivity|].
      rewrite <- app_assoc in El. exact El.
  - destruct Hin as [Hin|[]]. discriminate Hin.
  - destruct Hin as [Hin|[]]. discriminate Hin.
Qed.
Print Assumptions C10_strings.

(** A quote that begins no string is an error. *)
Theorem C10_unterminated : forall file before s ts,
  (forall b rest, string_body b -> s <> b ++ QUOTE :: rest) ->
  reading file before (QUOTE :: s) ts ->
  ts = [ErrorToken InvalidStringLiteral (located file before [QUOTE])].
Proof.
  intros file before s ts Hs H. apply reading_lexes in H. eapply lexes_det; [exact H|].
  change InvalidStringLiteral with (no_lexeme_error QUOTE).
  apply lex_stuck; [reflexivity|]. intros k m rest E R.
  destruct (find KString (QUOTE :: s)) as [m'|] eqn:F.
  - destruct (find_lexeme _ _ _ F) as (r & E' & (_ & R' & _)).
    cbn [pattern] in R'. apply rmatch_cat in R'. destruct R' as (q & y & E1 & Rq & Ry).
    apply rmatch_lit in Rq. subst q m'. cbn [app] in E'. injection E' as E'.
    apply rmatch_cat in Ry. destruct Ry as (z & q & E1 & Rz & Rq). apply rmatch_lit in Rq. subst q y.
    apply (Hs z r); [apply string_body_star; exact Rz|]. rewrite E', <- app_assoc. reflexivity.
  - revert E R. apply (stuck_only KString); [reflexivity | exact F].
Qed.
Print Assumptions C10_unterminated.

Definition quoted_sample : str := u "a\""b" ++ [LF; 0xE9] ++ u "\\".
Example C10_string_instance :
  string_body quoted_sample /\
  scan (u "f") (u ".db " ++ QUOTE :: quoted_sample ++ QUOTE :: u ",1") =
    Done [DirectiveMarker (mk_loc (u "f") 1 1 1); Identifier (u "db") (mk_loc (u "f") 1 2 2);
          StringLiteral quoted_sample (mk_loc (u "f") 1 5 6); Comma (mk_loc (u "f") 2 5 1);
          NumericLiteral 1 (mk_loc (u "f") 2 6 1)] /\
  scan (u "f") (u ".db " ++ QUOTE :: u "a\""") =
    Done [DirectiveMarker (mk_loc (u "f") 1 1 1); Identifier (u "db") (mk_loc (u "f") 1 2 2);
          ErrorToken InvalidStringLiteral (mk_loc (u "f") 1 5 1)].
Proof.
  split.
  - change quoted_sample with [97; BACKSLASH; QUOTE; 98; LF; 0xE9; BACKSLASH; BACKSLASH].
    apply sb_char; [discriminate | discriminate |]. apply sb_pair; [discriminate|].
    apply sb_char; [discriminate | discriminate |]. apply sb_char; [discriminate | discriminate |].
    apply sb_char; [discriminate | discriminate |]. apply sb_pair; [discriminate | apply sb_nil].
  - split; vm_compute; reflexivity.
Qed.
