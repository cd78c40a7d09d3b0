(** * RecordProofs: when two HEX files are the same. *)

From Verif Require Import Base Text U12 Location Token Scanner Parser Directive Opcode Instruction DataRange Assembler
  IHex Main SpecLex SpecErase SpecCode SpecOpcode SpecLayout SpecHex SpecTool SpecMeta SpecRewrite SpecInsert SpecRecords BaseFacts
  DataRangeProofs LayoutProofs EmitProofs OutputProofs HexProofs MainProofs EditProofs.
From Coq Require Import Lia.
Open Scope string_scope.
Open Scope list_scope.
Open Scope N_scope.

(** ** Lines are determined by their bytes *)

Lemma upper_digit_det : forall d c c', upper_digit d c -> upper_digit d c' -> c = c'.
Proof. intros d c c' [[A ->]|[A ->]] [[B ->]|[B ->]]; lia. Qed.

Lemma hex_text_det : forall bytes s, hex_text bytes s -> forall s', hex_text bytes s' -> s = s'.
Proof.
  induction 1 as [|b h l bytes s H L T IH]; intros s' T'; inversion T' as [|? h' l' ? s2 H' L' T2]; subst; [reflexivity|].
  rewrite (upper_digit_det _ _ _ H H'), (upper_digit_det _ _ _ L L'), (IH _ T2). reflexivity.
Qed.

Lemma data_line_det : forall a data line line', data_line a data line -> data_line a data line' -> line = line'.
Proof.
  intros a data line line' (c & d & -> & T & C & M) (c' & d' & -> & T' & C' & M').
  assert (c = c') by lia. subst c'. f_equal. exact (hex_text_det _ _ T _ T').
Qed.

(** ** The records of blocks *)

Definition line_of (r : data_range) (line : str) : Prop := data_line (dr_start r) (dr_data r) line.

Definition record_list (ps : list data_range) (ls : list str) (rs : list data_range) : Prop :=
  Forall2 line_of ps ls /\ memory ps = memory rs /\
  Forall (fun r => dr_data r <> [] /\ dr_start r < 65536) ps /\
  forall x, In x (map dr_start ps) <-> record_starts rs x.

Lemma block_record_list : forall a l ls, block_lines a l ls -> a + N.of_nat (length l) < 65536 ->
  exists ps, record_list ps ls [mk_range a l].
Proof.
  induction 1 as [a data line Ln D|a data rest line ls Ln Ne D B IH]; intros L.
  - exists [mk_range a data]. split; [repeat constructor; exact D|]. split; [reflexivity|].
    split; [repeat constructor; cbn [dr_data dr_start]; [intros ->; cbn in Ln; lia | lia]|].
    intros x. cbn [map In dr_start]. unfold record_starts. split.
    + intros [<-|[]]. exists (mk_range a data), 0. cbn [In dr_start dr_data]. split; [auto|]. lia.
    + intros (r & k & [<-|[]] & -> & K). cbn [dr_start dr_data] in *. left. lia.
  - rewrite app_length in L. destruct IH as (ps & F & M & V & S); [lia|].
    exists (mk_range a data :: ps). split; [constructor; [exact D | exact F]|]. split.
    { unfold memory in *. cbn [flat_map dr_start dr_data] in *. rewrite M, place_app, <- app_assoc.
      replace (N.of_nat (length data)) with 16 by lia. reflexivity. }
    split; [constructor; [|exact V]; cbn [dr_data dr_start]; split; [intros ->; cbn in Ln; lia | lia]|].
    assert (R : (0 < length rest)%nat) by (destruct rest; [contradiction | cbn; lia]).
    intros x. cbn [map In dr_start]. rewrite S. unfold record_starts. split.
    + intros [<-|(r & k & [<-|[]] & -> & K)]; cbn [dr_start dr_data] in *.
      * exists (mk_range a (data ++ rest)), 0. cbn [In dr_start dr_data]. rewrite app_length. split; [auto|]. lia.
      * exists (mk_range a (data ++ rest)), (k + 1). cbn [In dr_start dr_data]. rewrite app_length. split; [auto|]. lia.
    + intros (r & k & [<-|[]] & -> & K). cbn [dr_start dr_data] in *. rewrite app_length in K.
      destruct (N.eq_dec k 0) as [->|Nk]; [left; lia|]. right. exists (mk_range (a + 16) rest), (k - 1).
      cbn [In dr_start dr_data]. split; [auto|]. lia.
Qed.

Lemma starts_cons : forall r rs x, record_starts (r :: rs) x <-> record_starts [r] x \/ record_starts rs x.
Proof.
  intros r rs x. unfold record_starts. split.
  - intros (r' & k & [<-|I] & K); [left; exists r, k; cbn [In]; tauto | right; eauto].
  - intros [(r' & k & [<-|[]] & K)|(r' & k & I & K)]; [exists r, k | exists r', k]; cbn [In]; tauto.
Qed.

Lemma blocks_record_list : forall rs ls, blocks rs ls -> Forall writable rs -> exists ps, record_list ps ls rs.
Proof.
  induction 1 as [|r rs ls E B IH|r rs ls ls' D B IH]; intros F.
  - exists []. split; [constructor|]. split; [reflexivity|]. split; [constructor|].
    intros x. split; [intros [] | intros (r & k & [] & _)].
  - inversion F as [|? ? _ F']; subst. destruct (IH F') as (ps & T & M & V & S). exists ps.
    split; [exact T|]. split; [unfold memory in *; cbn [flat_map]; rewrite E; exact M|]. split; [exact V|].
    intros x. rewrite S, starts_cons. split; [auto|]. intros [(r' & k & [<-|[]] & _ & K)|K]; [|exact K].
    rewrite E in K. cbn in K. lia.
  - inversion F as [|? ? [W _] F']; subst. destruct (IH F') as (ps & T & M & V & S).
    destruct (block_record_list _ _ _ D W) as (ps1 & T1 & M1 & V1 & S1). exists (ps1 ++ ps).
    split; [apply Forall2_app; assumption|]. split.
    { unfold memory in *. rewrite flat_map_app, M, M1. cbn [flat_map dr_start dr_data]. rewrite app_nil_r. reflexivity. }
    split; [apply Forall_app; split; assumption|].
    intros x. rewrite map_app, in_app_iff, S, S1, (starts_cons r rs).
    replace (mk_range (dr_start r) (dr_data r)) with r by (destruct r; reflexivity). reflexivity.
Qed.

(** ** Bytes and starts determine the records *)

Lemma start_in_memory : forall ps x, Forall (fun r => dr_data r <> [] /\ dr_start r < 65536) ps ->
  In x (map dr_start ps) -> In x (map fst (memory ps)).
Proof.
  intros ps x F I. apply in_map_iff in I. destruct I as (r & <- & I). rewrite Forall_forall in F. destruct (F r I) as [D _].
  unfold memory. rewrite in_map_iff. destruct (dr_data r) as [|b l] eqn:E; [contradiction|].
  exists (dr_start r, b). split; [reflexivity|]. apply in_flat_map. exists r. split; [exact I|]. rewrite E. left. reflexivity.
Qed.

Lemma place_same_length : forall a l l' m m', length l = length l' -> place a l ++ m = place a l' ++ m' -> l = l' /\ m = m'.
Proof.
  intros a l. revert a. induction l as [|b l IH]; intros a [|b' l'] m m' L E; cbn [length] in L; try lia; cbn [place app] in E.
  - split; [reflexivity | exact E].
  - injection E as <- E. destruct (IH (a + 1) l' m m') as [<- <-]; [lia | exact E | split; reflexivity].
Qed.

(** A record that ends inside another one: the record after it would start there. *)
Lemma record_shorter : forall a l l' ps ps', l <> [] ->
  Forall (fun r => dr_data r <> [] /\ dr_start r < 65536) ps -> Forall (fun r => dr_data r <> [] /\ dr_start r < 65536) ps' ->
  (length l < length l')%nat -> place a l ++ memory ps = place a l' ++ memory ps' -> NoDup (map fst (place a l' ++ memory ps')) ->
  (forall x, In x (a :: map dr_start ps) -> In x (a :: map dr_start ps')) -> False.
Proof.
  intros a l l' ps ps' Nl V V' Lt M N S.
  rewrite <- (firstn_skipn (length l) l') in M, N. set (h := firstn (length l) l') in *. set (t := skipn (length l) l') in *.
  assert (Lh : length h = length l) by (apply firstn_length_le; lia).
  assert (Lt' : (0 < length t)%nat) by (unfold t; rewrite skipn_length; lia).
  rewrite place_app, <- app_assoc in M. apply place_same_length in M; [|lia]. destruct M as [_ M].
  rewrite Lh in M. destruct t as [|b t]; [cbn in Lt'; lia|]. cbn [place app] in M.
  destruct ps as [|r ps]; [discriminate M|]. inversion V as [|? ? [D _] _]; subst.
  unfold memory in M at 1. cbn [flat_map] in M. destruct (dr_data r) as [|c d] eqn:E; [contradiction|].
  cbn [place app] in M. injection M as Ms _ _.
  destruct (S (dr_start r)) as [X|X]; [right; left; reflexivity | |].
  - assert (0 < length l)%nat by (destruct l; [contradiction | cbn; lia]). lia.
  - apply (start_in_memory _ _ V') in X. rewrite map_app, nodup_app in N. destruct N as (_ & _ & N).
    apply (N (dr_start r)); [|exact X]. apply DataRangeProofs.place_addresses. rewrite app_length. cbn [length]. lia.
Qed.

Lemma records_same : forall ps ps', Forall (fun r => dr_data r <> [] /\ dr_start r < 65536) ps ->
  Forall (fun r => dr_data r <> [] /\ dr_start r < 65536) ps' -> memory ps = memory ps' -> NoDup (map fst (memory ps)) ->
  (forall x, In x (map dr_start ps) <-> In x (map dr_start ps')) -> ps = ps'.
Proof.
  induction ps as [|[a l] ps IH]; intros [|[a' l'] ps'] V V' M N S.
  - reflexivity.
  - exfalso. apply (S a'). left. reflexivity.
  - exfalso. apply (S a). left. reflexivity.
  - inversion V as [|? ? [D A] Vp]; inversion V' as [|? ? [D' A'] Vp']; subst. cbn [dr_data dr_start map] in *.
    unfold memory in M, N. cbn [flat_map dr_data dr_start] in M, N. fold (memory ps) in M, N. fold (memory ps') in M.
    assert (a' = a).
    { destruct l as [|b l]; [contradiction|]. destruct l' as [|b' l']; [contradiction|]. cbn [place app] in M. injection M as E _ _. auto. }
    subst a'.
    assert (L : length l = length l').
    { destruct (Nat.lt_trichotomy (length l) (length l')) as [L|[L|L]]; [|exact L|].
      - exfalso. apply (record_shorter a l l' ps ps'); try assumption; [rewrite <- M; exact N|]. intros x. apply S.
      - exfalso. apply (record_shorter a l' l ps' ps); try assumption; [symmetry; exact M|]. intros x. apply S. }
    destruct (place_same_length _ _ _ _ _ L M) as [<- M']. f_equal.
    rewrite map_app, nodup_app in N. destruct N as (_ & N & X).
    assert (Na : ~ In a (map fst (memory ps))).
    { intros I. apply (X a); [|exact I]. apply DataRangeProofs.place_addresses. destruct l; [contradiction | cbn [length]; lia]. }
    apply IH; try assumption. intros x. specialize (S x). cbn [In] in S. split; intros I.
    + destruct (proj1 S (or_intror I)) as [<-|Y]; [|exact Y]. exfalso. apply Na. apply (start_in_memory _ _ Vp I).
    + destruct (proj2 S (or_intror I)) as [<-|Y]; [|exact Y]. exfalso. apply Na. rewrite M'. apply (start_in_memory _ _ Vp' I).
Qed.

Lemma lines_of_records : forall ps ls, Forall2 line_of ps ls -> forall ls', Forall2 line_of ps ls' -> ls = ls'.
Proof.
  induction 1 as [|p line ps ls D F IH]; intros ls' F'; inversion F' as [|? line' ? ls2 D' F2]; subst; [reflexivity|].
  rewrite (data_line_det _ _ _ _ D D'), (IH _ F2). reflexivity.
Qed.

Lemma records_of_lines : forall ps ls, Forall2 line_of ps ls -> forall ps', Forall2 line_of ps' ls ->
  Forall (fun r => dr_data r <> [] /\ dr_start r < 65536) ps -> Forall (fun r => dr_data r <> [] /\ dr_start r < 65536) ps' -> ps = ps'.
Proof.
  induction 1 as [|p line ps ls D F IH]; intros ps' F' V V'; inversion F' as [|p' ? ps2 ? D' F2]; subst; [reflexivity|].
  inversion V as [|? ? [_ A] Vp]; inversion V' as [|? ? [_ A'] Vp']; subst.
  destruct (data_line_read _ _ _ A D) as [R _]. destruct (data_line_read _ _ _ A' D') as [R' _]. rewrite R in R'.
  injection R' as E1 E2. f_equal; [destruct p as [a l], p' as [a' l']; cbn in *; subst; reflexivity | exact (IH _ F2 Vp Vp')].
Qed.

Theorem same_file : forall rs rs', Forall writable rs -> find_overlapping_ranges rs = [] ->
  Forall writable rs' -> find_overlapping_ranges rs' = [] -> NoDup (map fst (memory rs)) ->
  (ihex_representation rs = ihex_representation rs' <->
   memory rs = memory rs' /\ forall x, record_starts rs x <-> record_starts rs' x).
Proof.
  intros rs rs' W O W' O' N.
  destruct (ihex_exact rs W O) as (ls & E & B). destruct (ihex_exact rs' W' O') as (ls' & E' & B'). rewrite E, E'.
  destruct (blocks_record_list _ _ B W) as (ps & F & M & V & S). destruct (blocks_record_list _ _ B' W') as (ps' & F' & M' & V' & S').
  destruct (blocks_read _ _ B W) as [U _]. destruct (blocks_read _ _ B' W') as [U' _].
  split.
  - intros H. injection H as H.
    assert (L : ls ++ [end_line] = ls' ++ [end_line]).
    { assert (X : SpecHex.lines (end_lines (ls ++ [end_line])) = SpecHex.lines (end_lines (ls' ++ [end_line]))) by (rewrite H; reflexivity).
      rewrite !lines_end in X; [injection X as X; exact X | |];
        (apply Forall_app; split; [assumption | constructor; [apply end_line_read | constructor]]). }
    apply app_inj_tail in L. destruct L as [<- _]. pose proof (records_of_lines _ _ F _ F' V V'). subst ps'.
    split; [congruence|]. intros x. rewrite <- S, <- S'. reflexivity.
  - intros [Mm Ss]. assert (ps = ps').
    { apply records_same; try assumption; [congruence | congruence |]. intros x. rewrite S, S'. apply Ss. }
    subst ps'. rewrite (lines_of_records _ _ F _ F'). reflexivity.
Qed.

(** ** The starts of a program *)

Lemma output_starts : forall p rs, output p rs -> forall x,
  record_starts rs x <-> exists s k, In s (sections p) /\ x = fst s + 16 * k /\ 16 * k < extent (snd s).
Proof.
  intros p rs (all & F & ->) x. unfold record_starts. split.
  - intros (r & k & I & -> & K). apply filter_In in I. destruct I as [I _].
    induction F as [|s r' ss all (A & bs & B & D) F IH]; [destruct I|]. destruct I as [<-|I].
    + exists s, k. split; [left; reflexivity|]. rewrite A. split; [reflexivity|]. rewrite D, (bytes_extent _ _ _ B) in K. exact K.
    + destruct (IH I) as (s' & k' & J & H). exists s', k'. split; [right; exact J | exact H].
  - intros (s & k & I & -> & K).
    induction F as [|s' r ss all (A & bs & B & D) F IH]; [destruct I|]. destruct I as [->|I].
    + exists r, k. rewrite D, (bytes_extent _ _ _ B), A. split; [|split; [reflexivity | exact K]].
      apply filter_In. split; [left; reflexivity|]. unfold nonempty. rewrite D.
      pose proof (bytes_extent _ _ _ B) as X. destruct (length (concat bs)) eqn:Z; [|reflexivity]. cbn in X. lia.
    + destruct (IH I) as (r' & k' & J & H). exists r', k'. split; [|exact H]. cbn [filter].
      destruct (nonempty r); [right|]; exact J.
Qed.

(** The last section of [p], and the others. *)
Lemma sections_split : forall p, exists ss a l, sections p = ss ++ [(a, l)] /\ extent l = open_bytes p /\ counter 0 p = a + open_bytes p /\
  forall q, sections (p ++ q) = ss ++ (a, l ++ fst (split_sections q)) :: snd (split_sections q).
Proof.
  intros p. induction p as [|n p IH] using rev_ind.
  - exists [], 0, []. split; [reflexivity|]. split; [reflexivity|]. split; [reflexivity|].
    intros q. unfold sections. cbn [app]. destruct (split_sections q). reflexivity.
  - destruct IH as (ss & a & l & E & X & C & H). unfold open_bytes, counter in *. rewrite !fold_left_app. cbn [fold_left].
    rewrite C. unfold after. destruct (origin n) as [o|] eqn:O.
    + exists (ss ++ [(a, l)]), o, []. rewrite N.add_0_r.
      assert (Y : forall q, sections ((p ++ [n]) ++ q) = (ss ++ [(a, l)]) ++ (o, [] ++ fst (split_sections q)) :: snd (split_sections q)).
      { intros q. rewrite <- app_assoc, H. cbn [app split_sections]. destruct (split_sections q) as [f r]. rewrite O. cbn [fst snd].
        rewrite app_nil_r, <- app_assoc. reflexivity. }
      split; [rewrite <- (app_nil_r (p ++ [n])); exact (Y [])|]. split; [reflexivity|]. split; [reflexivity | exact Y].
    + exists ss, a, (l ++ [n]).
      assert (Y : forall q, sections ((p ++ [n]) ++ q) = ss ++ (a, (l ++ [n]) ++ fst (split_sections q)) :: snd (split_sections q)).
      { intros q. rewrite <- app_assoc, H. cbn [app split_sections]. destruct (split_sections q) as [f r]. rewrite O. cbn [fst snd].
        rewrite <- app_assoc. reflexivity. }
      split; [rewrite <- (app_nil_r (p ++ [n])), Y; cbn [split_sections fst snd]; rewrite app_nil_r; reflexivity|].
      split; [rewrite <- X; unfold extent; rewrite fold_right_app; cbn [fold_right]; clear|split; [lia | exact Y]].
      induction l as [|m l IHl]; cbn [fold_right]; lia.
Qed.

Lemma split_next : forall q, extent (fst (split_sections q)) = next_bytes q.
Proof.
  induction q as [|n q IH]; [reflexivity|]. cbn [split_sections next_bytes]. destruct (split_sections q) as [f r].
  destruct (origin n); [reflexivity|]. cbn [fst] in *. unfold extent in *. cbn [fold_right]. rewrite IH. reflexivity.
Qed.

Lemma extent_app : forall a b, extent (a ++ b) = extent a + extent b.
Proof. induction a as [|n a IH]; intros b; unfold extent in *; cbn [app fold_right]; [reflexivity|]. rewrite IH. lia. Qed.

(** Two places with one address are one place. *)
Lemma covered_once : forall rs, NoDup (map fst (memory rs)) -> forall r r' x, In r rs -> In r' rs ->
  dr_start r <= x < dr_start r + N.of_nat (length (dr_data r)) -> dr_start r' <= x < dr_start r' + N.of_nat (length (dr_data r')) -> r = r'.
Proof.
  induction rs as [|s rs IH]; intros Nd r r' x I I' X X'; [destruct I|].
  unfold memory in Nd. cbn [flat_map] in Nd. rewrite map_app, nodup_app in Nd. fold (memory rs) in Nd. destruct Nd as (_ & Nd & D).
  assert (G : forall y, In y rs -> dr_start y <= x < dr_start y + N.of_nat (length (dr_data y)) -> In x (map fst (memory rs))).
  { intros y J Y. apply DataRangeProofs.place_addresses in Y. unfold memory. apply in_map_iff in Y. destruct Y as (z & <- & Y).
    apply in_map. apply in_flat_map. exists y. auto. }
  destruct I as [<-|I], I' as [<-|I'].
  - reflexivity.
  - exfalso. apply (D x); [apply DataRangeProofs.place_addresses; exact X | exact (G _ I' X')].
  - exfalso. apply (D x); [apply DataRangeProofs.place_addresses; exact X' | exact (G _ I X)].
  - exact (IH Nd _ _ _ I I' X X').
Qed.

Lemma output_section : forall p rs s, output p rs -> In s (sections p) -> 0 < extent (snd s) ->
  exists r, In r rs /\ dr_start r = fst s /\ N.of_nat (length (dr_data r)) = extent (snd s).
Proof.
  intros p rs s (all & F & ->) I X.
  induction F as [|s' r ss all (A & bs & B & D) F IH]; [destruct I|]. destruct I as [->|I].
  - pose proof (bytes_extent _ _ _ B) as Y. rewrite <- D in Y. exists r. split; [|split; assumption].
    apply filter_In. split; [left; reflexivity|]. unfold nonempty. destruct (length (dr_data r)); [cbn in Y; lia | reflexivity].
  - destruct (IH I) as (r' & J & H). exists r'. split; [|exact H]. cbn [filter]. destruct (nonempty r); [right|]; exact J.
Qed.

(** An '.org' to the next address. *)
Theorem starts_org : forall p q n rs rs', origin n = Some (counter 0 p) -> output (p ++ q) rs -> output (p ++ n :: q) rs' ->
  NoDup (map fst (memory rs)) ->
  ((forall x, record_starts rs x <-> record_starts rs' x) <-> open_bytes p mod 16 = 0 \/ next_bytes q = 0).
Proof.
  intros p q n rs rs' On O O' Nd.
  destruct (sections_split p) as (ss & a & l & _ & X & C & H).
  pose proof (H q) as Hq. pose proof (H (n :: q)) as Hn. cbn [split_sections] in Hn. pose proof (split_next q) as Xn.
  destruct (split_sections q) as [f r]. rewrite On in Hn. cbn [fst snd] in *. rewrite app_nil_r in Hn.
  assert (S : forall x, record_starts rs x <-> exists s k, In s (ss ++ (a, l ++ f) :: r) /\ x = fst s + 16 * k /\ 16 * k < extent (snd s))
    by (rewrite <- Hq; exact (output_starts _ _ O)).
  assert (S' : forall x, record_starts rs' x <-> exists s k, In s (ss ++ (a, l) :: (counter 0 p, f) :: r) /\ x = fst s + 16 * k /\ 16 * k < extent (snd s))
    by (rewrite <- Hn; exact (output_starts _ _ O')).
  split.
  - intros E. destruct (N.eq_dec (next_bytes q) 0) as [Z|Z]; [right; exact Z|]. left.
    assert (T : record_starts rs (counter 0 p)).
    { apply E, S'. exists (counter 0 p, f), 0. cbn [fst snd]. split; [|split; [lia|]].
      - apply in_or_app. right. right. left. reflexivity.
      - lia. }
    destruct T as (b & k & I & K1 & K2).
    destruct (output_section _ rs (a, l ++ f) O) as (b' & I' & A' & L').
    + rewrite Hq. apply in_or_app. right. left. reflexivity.
    + cbn [snd]. rewrite extent_app. lia.
    + cbn [fst snd] in *. rewrite extent_app in L'.
      assert (b = b') by (apply (covered_once _ Nd b b' (counter 0 p)); try assumption; lia). subst b'.
      assert (Q : open_bytes p = k * 16) by lia. rewrite Q. apply N.mod_mul. lia.
  - intros Z x. rewrite S, S'. split.
    + intros (s & k & I & -> & K). apply in_app_or in I. destruct I as [I|[<-|I]].
      * exists s, k. split; [apply in_or_app; left; exact I | split; [reflexivity | exact K]].
      * cbn [fst snd] in *. rewrite extent_app in K. destruct (N.ltb_spec (16 * k) (extent l)) as [Lt|Ge].
        -- exists (a, l), k. split; [apply in_or_app; right; left; reflexivity | split; [reflexivity | exact Lt]].
        -- destruct Z as [Z|Z]; [|lia]. assert (Q : open_bytes p = 16 * (open_bytes p / 16)) by lia.
           exists (counter 0 p, f), (k - open_bytes p / 16). cbn [fst snd].
           split; [apply in_or_app; right; right; left; reflexivity | lia].
      * exists s, k. split; [apply in_or_app; right; right; right; exact I | split; [reflexivity | exact K]].
    + intros (s & k & I & -> & K). apply in_app_or in I. destruct I as [I|[<-|[<-|I]]].
      * exists s, k. split; [apply in_or_app; left; exact I | split; [reflexivity | exact K]].
      * cbn [fst snd] in *. exists (a, l ++ f), k. cbn [fst snd]. rewrite extent_app.
        split; [apply in_or_app; right; left; reflexivity | lia].
      * cbn [fst snd] in *. destruct Z as [Z|Z]; [|lia]. assert (Q : open_bytes p = 16 * (open_bytes p / 16)) by lia.
        exists (a, l ++ f), (open_bytes p / 16 + k). cbn [fst snd]. rewrite extent_app.
        split; [apply in_or_app; right; left; reflexivity | lia].
      * exists s, k. split; [apply in_or_app; right; right; exact I | split; [reflexivity | exact K]].
Qed.
