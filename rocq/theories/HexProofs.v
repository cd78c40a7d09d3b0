(** * HexProofs: the HEX writer against the format (C39, C40). *)

From Verif Require Import Base Text U12 DataRange IHex SpecLayout SpecHex BaseFacts DataRangeProofs.
Open Scope N_scope.

Lemma small_cases : forall n, n < 16 ->
  n = 0 \/ n = 1 \/ n = 2 \/ n = 3 \/ n = 4 \/ n = 5 \/ n = 6 \/ n = 7 \/ n = 8 \/ n = 9 \/
  n = 10 \/ n = 11 \/ n = 12 \/ n = 13 \/ n = 14 \/ n = 15.
Proof. lia. Qed.

Lemma hex_char_upper : forall d, d < 16 -> upper_digit d (hex_char true d).
Proof.
  intros d L. unfold upper_digit, hex_char.
  destruct (small_cases d L) as [->|[->|[->|[->|[->|[->|[->|[->|[->|[->|[->|[->|[->|[->|[->| ->]]]]]]]]]]]]]]];
    vm_compute; (left; split; [reflexivity|reflexivity]) || (right; split; [split; [discriminate | reflexivity] | reflexivity]).
Qed.

Lemma hex_text_map : forall bytes, Forall (fun b => b < 256) bytes -> hex_text bytes (flat_map hex2 bytes).
Proof.
  induction 1 as [|b bytes B F IH]; [constructor|]. cbn [flat_map hex2 app].
  constructor; [apply hex_char_upper; lia | apply hex_char_upper; lia | exact IH].
Qed.

Lemma upper_digit_value : forall d c, upper_digit d c -> digit_value c = Some d /\ c <> 10.
Proof.
  intros d c [[L ->]|[L ->]]; unfold digit_value.
  - replace ((48 <=? 48 + d) && (48 + d <=? 57)) with true by lia. split; [f_equal|]; lia.
  - replace ((48 <=? 55 + d) && (55 + d <=? 57)) with false by lia.
    replace ((65 <=? 55 + d) && (55 + d <=? 70)) with true by lia. split; [f_equal|]; lia.
Qed.

Lemma hex_text_pairs : forall bytes s, hex_text bytes s -> digit_pairs s = Some bytes /\ ~ In 10 s.
Proof.
  induction 1 as [|b h l bytes s H L T [IH1 IH2]]; [split; [reflexivity | tauto]|].
  apply upper_digit_value in H. apply upper_digit_value in L. destruct H as [H Hn], L as [L Ln].
  cbn [digit_pairs]. rewrite H, L, IH1. split.
  - f_equal. f_equal. lia.
  - cbn [In]. tauto.
Qed.

(** ** Lines *)

Lemma lines_app : forall line s, ~ In 10 line ->
  lines (line ++ 10 :: s) = match lines s with Some ls => Some (line :: ls) | None => None end.
Proof.
  induction line as [|c line IH]; intros s N.
  - cbn [app lines]. destruct (lines s); reflexivity.
  - cbn [app lines]. rewrite IH by (intros I; apply N; right; exact I).
    destruct (lines s) as [ls|]; [|reflexivity].
    destruct (N.eqb_spec c 10) as [->|]; [exfalso; apply N; left; reflexivity | reflexivity].
Qed.

Lemma lines_end : forall ls, Forall (fun l => ~ In 10 l) ls -> lines (end_lines ls) = Some ls.
Proof.
  induction 1 as [|l ls H F IH]; [reflexivity|]. unfold end_lines. cbn [flat_map]. rewrite <- app_assoc.
  cbn [app]. rewrite lines_app by exact H. fold (end_lines ls). rewrite IH. reflexivity.
Qed.

(** ** Records *)

Lemma sum_app : forall a b, sum (a ++ b) = sum a + sum b.
Proof. induction a as [|x a IH]; intros b; [reflexivity|]. cbn [app sum]. rewrite IH. lia. Qed.

Lemma data_line_read : forall a data line, a < 65536 -> data_line a data line ->
  read_record line = Some (HexData a data) /\ ~ In 10 line.
Proof.
  intros a data line A (check & digits & -> & T & C & M). apply hex_text_pairs in T. destruct T as [T N].
  split.
  - unfold read_record. change (58 =? 58) with true. cbv iota. rewrite T. cbv zeta.
    rewrite app_length. cbn [length].
    replace (N.of_nat (length data + 1) =? N.of_nat (length data) + 1) with true by lia.
    replace (sum (N.of_nat (length data) :: a / 256 :: a mod 256 :: 0 :: data ++ [check]) mod 256 =? 0) with true.
    + cbn [andb]. change (0 =? 0) with true. cbv iota. rewrite removelast_last. f_equal. f_equal. lia.
    + symmetry. apply N.eqb_eq. cbn [sum]. rewrite sum_app. cbn [sum]. rewrite <- M. f_equal. lia.
  - cbn [In]. intros [E|E]; [discriminate | exact (N E)].
Qed.

Lemma end_line_read : read_record end_line = Some HexEnd /\ ~ In 10 end_line.
Proof.
  split; [vm_compute; reflexivity|]. unfold end_line. cbn [In]. intros H.
  repeat (destruct H as [H|H]; [discriminate|]). exact H.
Qed.

Lemma fold_sum : forall l, fold_right N.add 0 l = sum l.
Proof. induction l as [|x l IH]; [reflexivity|]. cbn [fold_right sum]. rewrite IH. reflexivity. Qed.

Lemma record_data_line : forall a data, a < 65536 -> Forall (fun b => b < 256) data -> (length data <= 255)%nat ->
  exists line, record_string (RData a data) = Some line /\ data_line a data line.
Proof.
  intros a data A F L. unfold record_string, format_record.
  replace (Nat.leb (length data) 255) with true by (symmetry; apply Nat.leb_le; exact L).
  cbv zeta. eexists. split; [reflexivity|].
  set (region := [N.of_nat (length data); a / 256; a mod 256; 0] ++ data).
  exists (checksum region), (flat_map hex2 region ++ hex2 (checksum region)).
  assert (C : checksum region < 256) by (unfold checksum; lia).
  assert (S : checksum region = (256 - sum region mod 256) mod 256) by (unfold checksum; rewrite fold_sum; reflexivity).
  split; [reflexivity|]. split; [|split; [exact C|]].
  - replace (flat_map hex2 region ++ hex2 (checksum region)) with (flat_map hex2 (region ++ [checksum region]))
      by (rewrite flat_map_app; cbn [flat_map]; rewrite app_nil_r; reflexivity).
    unfold region at 2. rewrite <- app_assoc. apply hex_text_map. unfold region at 1. cbn [app].
    repeat constructor; try lia. apply Forall_app. split; [exact F|]. constructor; [exact C | constructor].
  - rewrite S. unfold region. rewrite sum_app. cbn [sum]. lia.
Qed.

Lemma end_record : record_string REndOfFile = Some end_line.
Proof. vm_compute. reflexivity. Qed.

(** ** Chunks *)

Lemma chunks_fuel_enough : forall l m n, (length l <= m)%nat -> (length l <= n)%nat ->
  chunks_fuel m 16 l = chunks_fuel n 16 l.
Proof.
  intros l. remember (length l) as k eqn:K. revert l K.
  induction k as [k IH] using lt_wf_ind. intros l -> m n M N.
  destruct l as [|b l]; [destruct m, n; reflexivity|].
  destruct m as [|m]; [cbn in M; lia|]. destruct n as [|n]; [cbn in N; lia|].
  cbn [chunks_fuel]. f_equal. cbn [length] in *.
  apply (IH (length (skipn 16 (b :: l)))); rewrite ?skipn_length; cbn [length]; lia || reflexivity.
Qed.

Lemma chunks_step : forall l, l <> [] -> chunks 16 l = firstn 16 l :: chunks 16 (skipn 16 l).
Proof.
  intros l N. unfold chunks. destruct l as [|b l]; [contradiction|]. cbn [length].
  change (chunks_fuel (S (length l)) 16 (b :: l))
    with (firstn 16 (b :: l) :: chunks_fuel (length l) 16 (skipn 16 (b :: l))).
  f_equal. apply chunks_fuel_enough; rewrite ?skipn_length; cbn [length]; lia.
Qed.

Lemma block_records : forall l a, l <> [] -> a + N.of_nat (length l) < 65536 -> Forall (fun b => b < 256) l ->
  exists recs ls, data_records a (chunks 16 l) = Done recs /\
    all_some (map record_string recs) = Some ls /\ existsb is_eof recs = false /\ block_lines a l ls.
Proof.
  intros l. remember (length l) as k eqn:K. revert l K.
  induction k as [k IH] using lt_wf_ind. intros l -> a N L F.
  rewrite chunks_step by exact N.
  assert (Fl : length (firstn 16 l) = Nat.min 16 (length l)) by apply firstn_length.
  assert (L1 : (1 <= length l)%nat) by (destruct l; [contradiction | cbn; lia]).
  assert (F1 : Forall (fun b => b < 256) (firstn 16 l)).
  { rewrite <- (firstn_skipn 16 l) in F. apply Forall_app in F. tauto. }
  assert (F2 : Forall (fun b => b < 256) (skipn 16 l)).
  { rewrite <- (firstn_skipn 16 l) in F. apply Forall_app in F. tauto. }
  cbn [data_records]. cbv zeta. replace (a + N.of_nat (length (firstn 16 l)) <? 65536) with true by lia.
  destruct (record_data_line a (firstn 16 l)) as (line & E & D); [lia | exact F1 | lia |].
  destruct (Nat.leb_spec (length l) 16) as [S|S].
  - rewrite (skipn_all2 l) by exact S. rewrite (firstn_all2 l) in * by exact S.
    exists [RData a l], [line]. cbn [data_records bind map all_some].
    split; [reflexivity|]. rewrite E. split; [reflexivity|]. split; [reflexivity|].
    constructor; [lia | exact D].
  - assert (Ls : length (skipn 16 l) = (length l - 16)%nat) by apply skipn_length.
    assert (Ns : skipn 16 l <> []) by (intros X; rewrite X in Ls; cbn in Ls; lia).
    destruct (IH (length (skipn 16 l)) ltac:(lia) (skipn 16 l) eq_refl (a + 16) Ns ltac:(lia) F2)
      as (recs & ls & R & T & Ne & B).
    replace (a + N.of_nat (length (firstn 16 l))) with (a + 16) by lia. rewrite R. cbn [bind].
    exists (RData a (firstn 16 l) :: recs), (line :: ls). split; [reflexivity|].
    cbn [map all_some]. rewrite E, T. split; [reflexivity|]. split; [exact Ne|].
    rewrite <- (firstn_skipn 16 l) at 1. apply block_more; [lia | exact Ns | exact D | exact B].
Qed.

(** Ranges the format can express. *)
Definition writable (r : data_range) : Prop :=
  dr_start r + range_len r < 65536 /\ Forall (fun b => b < 256) (dr_data r).

(** The lines of each range; an empty range has none. *)
Inductive blocks : list data_range -> list str -> Prop :=
| blocks_nil : blocks [] []
| blocks_empty : forall r rs ls, dr_data r = [] -> blocks rs ls -> blocks (r :: rs) ls
| blocks_cons : forall r rs ls ls', block_lines (dr_start r) (dr_data r) ls -> blocks rs ls' ->
    blocks (r :: rs) (ls ++ ls').

Lemma all_some_app : forall (A : Type) (a b : list (option A)) x y,
  all_some a = Some x -> all_some b = Some y -> all_some (a ++ b) = Some (x ++ y).
Proof.
  induction a as [|[v|] a IH]; intros b x y A1 B1; cbn [all_some app] in *.
  - injection A1 as <-. exact B1.
  - destruct (all_some a) as [z|]; [|discriminate]. injection A1 as <-. rewrite (IH b z y eq_refl B1). reflexivity.
  - discriminate.
Qed.

Lemma range_records_exact : forall rs, Forall writable rs ->
  exists recs ls, range_records rs = Done recs /\ all_some (map record_string recs) = Some ls /\
    existsb is_eof recs = false /\ blocks rs ls.
Proof.
  induction 1 as [|r rs [S F] _ (recs & ls & R & T & Ne & B)].
  - exists [], []. repeat split. constructor.
  - cbn [range_records]. change (fst (address_range r)) with (dr_start r).
    destruct (dr_data r) as [|b l] eqn:D.
    + cbn [chunks chunks_fuel length data_records bind]. rewrite R. cbn [bind app].
      exists recs, ls. split; [reflexivity|]. split; [exact T|]. split; [exact Ne|]. apply blocks_empty; assumption.
    + rewrite <- D in *. destruct (block_records (dr_data r) (dr_start r)) as (recs1 & ls1 & R1 & T1 & Ne1 & B1).
      * rewrite D. discriminate.
      * exact S.
      * exact F.
      * rewrite R1, R. cbn [bind]. exists (recs1 ++ recs), (ls1 ++ ls). split; [reflexivity|].
        rewrite map_app. split; [apply all_some_app; assumption|].
        split; [rewrite existsb_app, Ne1, Ne; reflexivity|]. apply blocks_cons; assumption.
Qed.

Lemma join_end : forall ls line, join [10] (ls ++ [line]) ++ [10] = end_lines (ls ++ [line]).
Proof.
  induction ls as [|l ls IH]; intros line.
  - cbn [app join]. unfold end_lines. cbn [flat_map]. rewrite app_nil_r. reflexivity.
  - cbn [app]. unfold end_lines. cbn [flat_map]. fold (end_lines (ls ++ [line])). rewrite <- IH.
    destruct (ls ++ [line]) as [|x y] eqn:E; [destruct ls; discriminate|].
    cbn [join]. rewrite <- !app_assoc. reflexivity.
Qed.

Lemma existsb_rev : forall (A : Type) (f : A -> bool) l, existsb f (rev l) = existsb f l.
Proof.
  induction l as [|a l IH]; [reflexivity|]. cbn [rev existsb]. rewrite existsb_app, IH. cbn [existsb].
  rewrite orb_false_r. apply orb_comm.
Qed.

Theorem ihex_exact : forall rs, Forall writable rs -> find_overlapping_ranges rs = [] ->
  exists ls, ihex_representation rs = Done (end_lines (ls ++ [end_line])) /\ blocks rs ls.
Proof.
  intros rs F O. unfold ihex_representation. rewrite O. cbn [length assert_ bind Nat.eqb].
  destruct (range_records_exact rs F) as (recs & ls & R & T & Ne & B). rewrite R. cbn [bind].
  unfold create_object_file. rewrite rev_app_distr. cbn [rev app]. rewrite existsb_rev, Ne.
  rewrite map_app, (all_some_app _ _ _ ls [end_line] T); [|cbn [map all_some]; rewrite end_record; reflexivity].
  cbn [unwrap bind]. rewrite join_end. eauto.
Qed.

Theorem ihex_overlap : forall rs, find_overlapping_ranges rs <> [] -> exists why, ihex_representation rs = Crash why.
Proof.
  intros rs O. unfold ihex_representation.
  destruct (find_overlapping_ranges rs); [contradiction|]. cbn. eauto.
Qed.

(** ** Reading back *)

Lemma block_read : forall a l ls, block_lines a l ls -> a + N.of_nat (length l) < 65536 ->
  Forall (fun s => ~ In 10 s) ls /\
  forall more image, read_records more = Some image -> read_records (ls ++ more) = Some (place a l ++ image).
Proof.
  induction 1 as [a data line Ln D|a data rest line ls Ln N D B IH]; intros L.
  - destruct (data_line_read a data line ltac:(lia) D) as [R NL]. split; [repeat constructor; exact NL|].
    intros more image M. cbn [app read_records]. rewrite R, M. reflexivity.
  - rewrite app_length in L. destruct (data_line_read a data line ltac:(lia) D) as [R NL].
    destruct IH as [I1 I2]; [lia|]. split; [constructor; assumption|].
    intros more image M. cbn [app read_records]. rewrite R, (I2 _ _ M). rewrite place_app, <- app_assoc.
    replace (N.of_nat (length data)) with 16 by lia. reflexivity.
Qed.

Lemma blocks_read : forall rs ls, blocks rs ls -> Forall writable rs ->
  Forall (fun s => ~ In 10 s) ls /\
  forall more image, read_records more = Some image -> read_records (ls ++ more) = Some (memory rs ++ image).
Proof.
  induction 1 as [|r rs ls E B IH|r rs ls ls' D B IH]; intros F.
  - split; [constructor|]. intros more image M. exact M.
  - inversion F as [|? ? [S _] F']; subst. destruct (IH F') as [I1 I2]. split; [exact I1|].
    unfold memory. cbn [flat_map]. rewrite E. exact I2.
  - inversion F as [|? ? [S _] F']; subst. destruct (IH F') as [I1 I2].
    destruct (block_read _ _ _ D S) as [J1 J2]. split; [apply Forall_app; tauto|].
    intros more image M. rewrite <- app_assoc. rewrite (J2 _ _ (I2 _ _ M)). unfold memory. cbn [flat_map].
    rewrite app_assoc. reflexivity.
Qed.

Theorem ihex_loads : forall rs, Forall writable rs -> find_overlapping_ranges rs = [] ->
  exists s, ihex_representation rs = Done s /\ read_hex s = Some (memory rs).
Proof.
  intros rs F O. destruct (ihex_exact rs F O) as (ls & E & B). exists (end_lines (ls ++ [end_line])).
  split; [exact E|]. destruct (blocks_read rs ls B F) as [N R]. unfold read_hex.
  destruct end_line_read as [Er En].
  rewrite lines_end by (apply Forall_app; split; [exact N | repeat constructor; exact En]).
  rewrite (R [end_line] []); [rewrite app_nil_r; reflexivity|]. cbn [read_records]. rewrite Er. reflexivity.
Qed.
