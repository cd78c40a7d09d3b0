(** * UtfProofs: the model's UTF-8 functions against SpecUtf8. *)

From Verif Require Import Base Text SpecUtf8 BaseFacts.
Open Scope N_scope.

Lemma encoded_scalar : forall c bytes, encoded c bytes -> scalar c.
Proof. unfold scalar. intros c bytes H. destruct H; unfold continuation in *; lia. Qed.

Lemma encoded_utf8 : forall c bytes, encoded c bytes -> bytes = utf8_char c.
Proof.
  unfold utf8_char. intros c bytes H.
  destruct H as [x L | x y b L [-> Ly] R | x y z b c L [-> Ly] [-> Lz] R S
                | x y z t b c d L [-> Ly] [-> Lz] [-> Lt] R].
  - replace (x <? 0x80) with true by lia. reflexivity.
  - replace (x * 64 + y <? 0x80) with false by lia. replace (x * 64 + y <? 0x800) with true by lia.
    repeat f_equal; lia.
  - replace (x * 4096 + y * 64 + z <? 0x80) with false by lia.
    replace (x * 4096 + y * 64 + z <? 0x800) with false by lia.
    replace (x * 4096 + y * 64 + z <? 0x10000) with true by lia.
    repeat f_equal; lia.
  - replace (x * 262144 + y * 4096 + z * 64 + t <? 0x80) with false by lia.
    replace (x * 262144 + y * 4096 + z * 64 + t <? 0x800) with false by lia.
    replace (x * 262144 + y * 4096 + z * 64 + t <? 0x10000) with false by lia.
    repeat f_equal; lia.
Qed.

Lemma utf8_encoded : forall c, scalar c -> encoded c (utf8_char c).
Proof.
  intros c H. unfold utf8_char, scalar in *.
  destruct (N.ltb_spec c 0x80); [constructor; assumption|].
  destruct (N.ltb_spec c 0x800).
  { assert (E : c = c / 64 * 64 + c mod 64) by lia. rewrite E at 1.
    apply enc_2; [lia | split; [reflexivity | lia] | lia]. }
  destruct (N.ltb_spec c 0x10000).
  { assert (E : c = c / 4096 * 4096 + (c / 64) mod 64 * 64 + c mod 64) by lia. rewrite E at 1.
    apply enc_3; [lia | split; [reflexivity | lia] | split; [reflexivity | lia] | lia | lia]. }
  assert (E : c = c / 262144 * 262144 + (c / 4096) mod 64 * 4096 + (c / 64) mod 64 * 64 + c mod 64) by lia.
  rewrite E at 1.
  apply enc_4; [lia | split; [reflexivity | lia] | split; [reflexivity | lia] | split; [reflexivity | lia] | lia].
Qed.

Theorem encoding_utf8 : forall s bytes, encoding s bytes <-> Forall scalar s /\ bytes = utf8 s.
Proof.
  intros s bytes. split.
  - induction 1 as [|c b s rest H _ [F ->]]; [split; [constructor | reflexivity]|].
    split; [constructor; [eapply encoded_scalar; exact H | exact F]|].
    unfold utf8. cbn [flat_map]. rewrite <- (encoded_utf8 _ _ H). reflexivity.
  - intros [F ->]. induction F as [|c s H _ IH]; [constructor|]. unfold utf8. cbn [flat_map].
    constructor; [apply utf8_encoded; exact H | exact IH].
Qed.

(** ** Decoding *)

Lemma is_scalar_spec : forall c, is_scalar c = true <-> scalar c.
Proof. intros c. unfold is_scalar, scalar. lia. Qed.

Lemma is_cont_spec : forall b, is_cont b = true <-> continuation b (b - 0x80).
Proof. intros b. unfold is_cont, continuation. lia. Qed.

Lemma decode_step : forall n b0 r0, 
  utf8_decode_fuel (S n) (b0 :: r0) =
  let cons_char (c : N) (ok : bool) (r : list byte) :=
    if ok && is_scalar c then
      match utf8_decode_fuel n r with
      | Some s => Some (c :: s)
      | None => None
      end
    else None in
  if b0 <? 0x80 then cons_char b0 true r0
  else if (0xC0 <=? b0) && (b0 <? 0xE0) then
    match r0 with
    | b1 :: r1 =>
        let c := (b0 - 0xC0) * 64 + (b1 - 0x80) in
        cons_char c (is_cont b1 && (0x80 <=? c)) r1
    | _ => None
    end
  else if (0xE0 <=? b0) && (b0 <? 0xF0) then
    match r0 with
    | b1 :: b2 :: r2 =>
        let c := ((b0 - 0xE0) * 64 + (b1 - 0x80)) * 64 + (b2 - 0x80) in
        cons_char c (is_cont b1 && is_cont b2 && (0x800 <=? c)) r2
    | _ => None
    end
  else if (0xF0 <=? b0) && (b0 <? 0xF8) then
    match r0 with
    | b1 :: b2 :: b3 :: r3 =>
        let c := (((b0 - 0xF0) * 64 + (b1 - 0x80)) * 64 + (b2 - 0x80)) * 64 + (b3 - 0x80) in
        cons_char c (is_cont b1 && is_cont b2 && is_cont b3 && (0x10000 <=? c)) r3
    | _ => None
    end
  else None.
Proof. reflexivity. Qed.

Lemma decode_sound : forall n bytes s, utf8_decode_fuel n bytes = Some s -> encoding s bytes.
Proof.
  induction n as [|n IH]; intros bytes s H.
  { destruct bytes; [injection H as <-; constructor | discriminate]. }
  destruct bytes as [|b0 r0]; [injection H as <-; constructor|]. rewrite decode_step in H.
  cbv zeta in H.
  assert (G : forall c (ok : bool) r bs,
    (ok = true -> is_scalar c = true -> encoded c bs) ->
    (if ok && is_scalar c then match utf8_decode_fuel n r with Some t => Some (c :: t) | None => None end
     else None) = Some s -> encoding s (bs ++ r)).
  { intros c ok r bs E K. destruct ok; [|discriminate]. cbn [andb] in K.
    destruct (is_scalar c) eqn:Sc; [|discriminate].
    destruct (utf8_decode_fuel n r) as [t|] eqn:D; [|discriminate]. injection K as <-.
    constructor; [apply E; reflexivity | apply IH; exact D]. }
  destruct (N.ltb_spec b0 0x80).
  { apply (G b0 true r0 [b0]); [|exact H]. intros _ _. constructor. assumption. }
  destruct ((0xC0 <=? b0) && (b0 <? 0xE0)) eqn:R2.
  { destruct r0 as [|b1 r1]; [discriminate|]. eapply (G _ _ r1 [b0; b1]); [|exact H].
    intros O Sc. apply andb_true_iff in O. destruct O as [C1 L]. apply is_cont_spec in C1.
    assert (E : [b0; b1] = [0xC0 + (b0 - 0xC0); b1]) by (repeat f_equal; lia). rewrite E.
    apply enc_2; [lia | exact C1 | lia]. }
  destruct ((0xE0 <=? b0) && (b0 <? 0xF0)) eqn:R3.
  { destruct r0 as [|b1 [|b2 r2]]; try discriminate. eapply (G _ _ r2 [b0; b1; b2]); [|exact H].
    intros O Sc. apply andb_true_iff in O. destruct O as [O L]. apply andb_true_iff in O. destruct O as [C1 C2].
    apply is_cont_spec in C1. apply is_cont_spec in C2. apply is_scalar_spec in Sc.
    assert (E : [b0; b1; b2] = [0xE0 + (b0 - 0xE0); b1; b2]) by (repeat f_equal; lia). rewrite E.
    replace (((b0 - 0xE0) * 64 + (b1 - 0x80)) * 64 + (b2 - 0x80))
      with ((b0 - 0xE0) * 4096 + (b1 - 0x80) * 64 + (b2 - 0x80)) in * by lia.
    apply enc_3; [lia | exact C1 | exact C2 | lia | unfold scalar in Sc; lia]. }
  destruct ((0xF0 <=? b0) && (b0 <? 0xF8)) eqn:R4; [|discriminate].
  destruct r0 as [|b1 [|b2 [|b3 r3]]]; try discriminate. eapply (G _ _ r3 [b0; b1; b2; b3]); [|exact H].
  intros O Sc. apply andb_true_iff in O. destruct O as [O L]. apply andb_true_iff in O. destruct O as [O C3].
  apply andb_true_iff in O. destruct O as [C1 C2].
  apply is_cont_spec in C1. apply is_cont_spec in C2. apply is_cont_spec in C3. apply is_scalar_spec in Sc.
  assert (E : [b0; b1; b2; b3] = [0xF0 + (b0 - 0xF0); b1; b2; b3]) by (repeat f_equal; lia). rewrite E.
  replace ((((b0 - 0xF0) * 64 + (b1 - 0x80)) * 64 + (b2 - 0x80)) * 64 + (b3 - 0x80))
    with ((b0 - 0xF0) * 262144 + (b1 - 0x80) * 4096 + (b2 - 0x80) * 64 + (b3 - 0x80)) in * by lia.
  apply enc_4; [lia | exact C1 | exact C2 | exact C3 | unfold scalar in Sc; lia].
Qed.

Lemma decode_complete : forall s bytes, encoding s bytes ->
  forall n, (length bytes <= n)%nat -> utf8_decode_fuel n bytes = Some s.
Proof.
  induction 1 as [|c bytes s rest H _ IH]; intros n L; [destruct n; reflexivity|].
  assert (Sc : is_scalar c = true) by (apply is_scalar_spec; eapply encoded_scalar; exact H).
  rewrite app_length in L.
  destruct n as [|n]; [destruct H; cbn in L; lia|].
  assert (IH' : forall k, (k <= S n)%nat -> length bytes = S k -> utf8_decode_fuel n rest = Some s)
    by (intros k Hk E; apply IH; lia).
  destruct H as [x Lx | x y b Lx [-> Ly] R | x y z b c Lx [-> Ly] [-> Lz] R S
                | x y z t b c d Lx [-> Ly] [-> Lz] [-> Lt] R]; cbn [length app] in L; cbn [app];
    rewrite decode_step; cbv zeta; cbn [app].
  - replace (x <? 0x80) with true by lia. cbn [andb]. rewrite Sc, IH by lia. reflexivity.
  - replace (0xC0 + x <? 0x80) with false by lia.
    replace ((0xC0 <=? 0xC0 + x) && (0xC0 + x <? 0xE0)) with true by lia.
    replace ((0xC0 + x - 0xC0) * 64 + (0x80 + y - 0x80)) with (x * 64 + y) by lia.
    replace (is_cont (0x80 + y)) with true by (unfold is_cont; lia).
    replace (0x80 <=? x * 64 + y) with true by lia. cbn [andb]. rewrite Sc, IH by lia. reflexivity.
  - replace (0xE0 + x <? 0x80) with false by lia.
    replace ((0xC0 <=? 0xE0 + x) && (0xE0 + x <? 0xE0)) with false by lia.
    replace ((0xE0 <=? 0xE0 + x) && (0xE0 + x <? 0xF0)) with true by lia.
    replace (((0xE0 + x - 0xE0) * 64 + (0x80 + y - 0x80)) * 64 + (0x80 + z - 0x80))
      with (x * 4096 + y * 64 + z) by lia.
    replace (is_cont (0x80 + y)) with true by (unfold is_cont; lia).
    replace (is_cont (0x80 + z)) with true by (unfold is_cont; lia).
    replace (0x800 <=? x * 4096 + y * 64 + z) with true by lia. cbn [andb]. rewrite Sc, IH by lia. reflexivity.
  - replace (0xF0 + x <? 0x80) with false by lia.
    replace ((0xC0 <=? 0xF0 + x) && (0xF0 + x <? 0xE0)) with false by lia.
    replace ((0xE0 <=? 0xF0 + x) && (0xF0 + x <? 0xF0)) with false by lia.
    replace ((0xF0 <=? 0xF0 + x) && (0xF0 + x <? 0xF8)) with true by lia.
    replace ((((0xF0 + x - 0xF0) * 64 + (0x80 + y - 0x80)) * 64 + (0x80 + z - 0x80)) * 64 + (0x80 + t - 0x80))
      with (x * 262144 + y * 4096 + z * 64 + t) by lia.
    replace (is_cont (0x80 + y)) with true by (unfold is_cont; lia).
    replace (is_cont (0x80 + z)) with true by (unfold is_cont; lia).
    replace (is_cont (0x80 + t)) with true by (unfold is_cont; lia).
    replace (0x10000 <=? x * 262144 + y * 4096 + z * 64 + t) with true by lia. cbn [andb].
    rewrite Sc, IH by lia. reflexivity.
Qed.

Theorem decode_encoding : forall bytes s, utf8_decode bytes = Some s <-> encoding s bytes.
Proof.
  intros bytes s. unfold utf8_decode. split; [apply decode_sound|].
  intros H. eapply decode_complete; [exact H | lia].
Qed.

Lemma utf8_byte : forall s, Forall scalar s -> Forall (fun b => b < 256) (utf8 s).
Proof.
  intros s F. assert (E : encoding s (utf8 s)) by (apply encoding_utf8; auto).
  induction E as [|c bytes s' rest H _ IH]; [constructor|]. inversion F; subst.
  apply Forall_app. split; [|auto].
  destruct H; unfold continuation in *; repeat constructor; lia.
Qed.

Lemma utf8_app : forall a b, utf8 (a ++ b) = utf8 a ++ utf8 b.
Proof. intros. unfold utf8. apply flat_map_app. Qed.
