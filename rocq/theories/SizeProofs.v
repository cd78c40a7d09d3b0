(** * SizeProofs: how much a text can amount to (C75). *)

From Verif Require Import Base Text U12 Location Token Scanner Parser Directive Opcode Instruction DataRange Assembler
  IHex Main SpecLex SpecGrammar SpecOpcode SpecRefusal SpecLayout SpecHex SpecUtf8 SpecTool SpecSize
  BaseFacts LexProofs ScanProofs LexTheorems ParseProofs LayoutProofs EmitProofs PipelineProofs DataRangeProofs HexProofs MainProofs OutputProofs
  IoProofs.
Open Scope string_scope.
Open Scope list_scope.
Open Scope N_scope.

(** ** Tokens *)

(** The least number of bytes a token takes in the text. *)
Definition weight (t : token) : N :=
  match t with
  | StringLiteral s _ => N.of_nat (length (utf8 s)) + 2
  | Identifier id _ => N.of_nat (length id)
  | _ => 1
  end.

Fixpoint weights (ts : list token) : N :=
  match ts with [] => 0 | t :: rest => weight t + weights rest end.

Lemma utf8_long : forall s, N.of_nat (length s) <= N.of_nat (length (utf8 s)).
Proof.
  induction s as [|c s IH]; [reflexivity|]. change (c :: s) with ([c] ++ s). rewrite utf8_app, !app_length.
  assert (1 <= length (utf8 [c]))%nat.
  { unfold utf8. cbn [flat_map]. rewrite app_nil_r. unfold utf8_char. destruct (c <? 0x80); [cbn; lia|].
    destruct (c <? 0x800); [cbn; lia|]. destruct (c <? 0x10000); cbn; lia. }
  cbn [length]. lia.
Qed.

Lemma lexes_weight : forall file before s ts, lexes file before s ts -> weights ts <= N.of_nat (length (utf8 s)).
Proof.
  induction 1 as [before|before c s ts B L IH|before s k m rest t ts Lx T L IH|before s k m rest e Lx B|before c s B N]; cbn [weights].
  - lia.
  - change (c :: s) with ([c] ++ s). rewrite utf8_app, app_length. lia.
  - pose proof (lexeme_nonempty _ _ _ _ Lx) as Ne. destruct Lx as (-> & _). rewrite utf8_app, app_length.
    enough (weight t <= N.of_nat (length (utf8 m))) by lia. pose proof (utf8_long m) as U.
    assert (1 <= length m)%nat by (destruct m; [contradiction | cbn; lia]).
    destruct T; cbn [weight]; try lia. change (QUOTE :: b ++ [QUOTE]) with ([QUOTE] ++ b ++ [QUOTE]).
    rewrite !utf8_app, !app_length. change (length (utf8 [QUOTE])) with 1%nat. lia.
  - pose proof (lexeme_nonempty _ _ _ _ Lx) as Ne. destruct Lx as (-> & _). rewrite utf8_app, app_length.
    pose proof (utf8_long m) as U. destruct m; [contradiction|]. cbn [length] in U. cbn [weight]. lia.
  - pose proof (utf8_long (c :: s)) as U. cbn [length] in U. cbn [weight]. lia.
Qed.

Lemma lexes_count : forall file before s ts, lexes file before s ts -> (length ts <= length s)%nat.
Proof.
  induction 1 as [before|before c s ts B L IH|before s k m rest t ts Lx T L IH|before s k m rest e Lx B|before c s B N]; cbn [length].
  - lia.
  - lia.
  - pose proof (lexeme_nonempty _ _ _ _ Lx) as Ne. destruct Lx as (-> & _). rewrite app_length. destruct m; [contradiction|]. cbn [length]. lia.
  - pose proof (lexeme_nonempty _ _ _ _ Lx) as Ne. destruct Lx as (-> & _). rewrite app_length. destruct m; [contradiction|]. cbn [length]. lia.
  - lia.
Qed.

(** ** Statements *)

Lemma literals_count : forall ts args rest, literals ts args rest -> (length rest <= length ts)%nat.
Proof. induction 1; cbn [length] in *; lia. Qed.

Lemma fields_count : forall ts fs rest, fields ts fs rest -> (length rest <= length ts)%nat.
Proof. induction 1; cbn [length] in *; lia. Qed.

Lemma program_count : forall ts p, program ts p -> (length p <= length ts)%nat.
Proof.
  induction 1 as [| | |l0 id l ts args rest ns L P IH| |id l ts args rest ns L P IH]; cbn [length] in *; try lia.
  - apply literals_count in L. lia.
  - apply fields_count in L. lia.
Qed.

(** The most bytes a statement can emit, by its text. *)
Definition bulk (n : node) : N :=
  match n with
  | NInstruction _ m _ => N.of_nat (length m)
  | NDirective _ _ args => N.of_nat (length (flat_map literal_bytes args))
  | NLabel _ _ => 0
  end.

Fixpoint bulks (p : list node) : N :=
  match p with [] => 0 | n :: rest => bulk n + bulks rest end.

Lemma literals_weight : forall ts args rest, literals ts args rest ->
  N.of_nat (length (flat_map literal_bytes args)) + weights rest <= weights ts.
Proof.
  assert (H : forall t a, literal_token t a -> N.of_nat (length (literal_bytes a)) <= weight t).
  { intros t a [s l|n l]; cbn [literal_bytes weight length]; lia. }
  induction 1 as [l rest|t a rest T|t a l ts args rest T L IH]; cbn [flat_map weights weight length].
  - lia.
  - apply H in T. rewrite app_nil_r. lia.
  - apply H in T. rewrite app_length. lia.
Qed.

Lemma fields_weight : forall ts fs rest, fields ts fs rest -> weights rest <= weights ts.
Proof. induction 1; cbn [weights weight] in *; lia. Qed.

Lemma program_weight : forall ts p, program ts p -> bulks p <= weights ts.
Proof.
  induction 1 as [| | |l0 id l ts args rest ns L P IH| |id l ts args rest ns L P IH]; cbn [bulks bulk weights weight] in *; try lia.
  - apply literals_weight in L. lia.
  - apply fields_weight in L. lia.
Qed.

(** ** Bytes *)

Lemma mnemonics_long : forallb (fun row : string * string * list string => let '(_, name, _) := row in Nat.leb 2 (length (u name))) table = true.
Proof. vm_compute. reflexivity. Qed.

Lemma encodes_long : forall lk m fs w, encodes lk m fs w -> 2 <= N.of_nat (length m).
Proof.
  intros lk m fs w (pattern & name & operands & x & y & v & R & _). destruct R as (I & N & _).
  pose proof mnemonics_long as F. rewrite forallb_forall in F. specialize (F _ I). cbv beta iota in F.
  unfold named in N. rewrite <- N, map_length in F. apply Nat.leb_le in F. lia.
Qed.

Lemma node_bytes_bulk : forall lk n b, node_bytes lk n b -> N.of_nat (length b) <= bulk n.
Proof.
  intros lk n b H. destruct H as [l m fs w E|l id args bytes M|l id args a M|l id args c M|l id]; cbn [bulk length].
  - apply encodes_long in E. lia.
  - inversion M; subst. lia.
  - lia.
  - lia.
  - lia.
Qed.

Lemma place_length : forall bytes a, length (place a bytes) = length bytes.
Proof. induction bytes as [|b l IH]; intros a; cbn [place length]; [reflexivity | rewrite IH; reflexivity]. Qed.

Lemma bytes_in_memory : forall rs, bytes_in rs = N.of_nat (length (memory rs)).
Proof.
  induction rs as [|r rs IH]; [reflexivity|]. cbn [bytes_in]. rewrite memory_cons, app_length, place_length, IH. lia.
Qed.

Lemma image_bulk : forall lk p bs, Forall2 (node_bytes lk) p bs -> forall a, N.of_nat (length (image a p bs)) <= bulks p.
Proof.
  induction 1 as [|n b p bs B F IH]; intros a; cbn [image bulks length]; [lia|].
  rewrite app_length, place_length. apply node_bytes_bulk in B. specialize (IH (after a n)). lia.
Qed.

Lemma output_bulk : forall p rs, well_formed p -> output p rs -> bytes_in rs <= bulks p.
Proof.
  intros p rs W O. destruct (output_image p rs W O) as (bs & F & M). rewrite bytes_in_memory, M. eapply image_bulk. exact F.
Qed.

Lemma nonempty_count : forall rs, Forall (fun r => dr_data r <> []) rs -> N.of_nat (length rs) <= bytes_in rs.
Proof.
  induction 1 as [|r rs N F IH]; cbn [bytes_in length]; [lia|]. destruct (dr_data r); [contradiction | cbn [length]; lia].
Qed.

(** ** The HEX text *)

Lemma hex_text_length : forall bytes s, hex_text bytes s -> length s = (2 * length bytes)%nat.
Proof. induction 1; cbn [length]; lia. Qed.

Lemma data_line_length : forall a data line, data_line a data line -> length line = (11 + 2 * length data)%nat.
Proof.
  intros a data line (check & digits & -> & H & _). apply hex_text_length in H. cbn [length] in *. rewrite H, app_length. cbn [length]. lia.
Qed.

Lemma end_lines_app : forall a b, end_lines (a ++ b) = end_lines a ++ end_lines b.
Proof. intros. unfold end_lines. apply flat_map_app. Qed.

Lemma block_length : forall a l ls, block_lines a l ls ->
  N.of_nat (length (end_lines ls)) = 12 * ((N.of_nat (length l) + 15) / 16) + 2 * N.of_nat (length l).
Proof.
  induction 1 as [a data line L D|a data rest line ls L Ne D B IH]; cbn [end_lines flat_map]; rewrite app_length, app_length; cbn [length].
  - apply data_line_length in D. rewrite D. replace ((N.of_nat (length data) + 15) / 16) with 1; [lia|].
    apply (N.div_unique _ _ _ (N.of_nat (length data) - 1)); lia.
  - apply data_line_length in D. rewrite D. change (flat_map (fun line : list N => line ++ [10]) ls) with (end_lines ls).
    rewrite app_length. replace (N.of_nat (length data + length rest) + 15) with (1 * 16 + (N.of_nat (length rest) + 15)) by lia.
    rewrite N.div_add_l by lia. lia.
Qed.

Lemma blocks_length : forall rs ls, blocks rs ls -> N.of_nat (length (end_lines ls)) = 12 * records_in rs + 2 * bytes_in rs.
Proof.
  induction 1 as [|r rs ls E B IH|r rs ls ls' L B IH]; cbn [records_in bytes_in].
  - reflexivity.
  - rewrite E. cbn [length]. change ((N.of_nat 0 + 15) / 16) with 0. lia.
  - rewrite end_lines_app, app_length. apply block_length in L. lia.
Qed.

Theorem ihex_length : forall rs text, Forall writable rs -> ihex_representation rs = Done text ->
  N.of_nat (length text) = 12 * records_in rs + 2 * bytes_in rs + 12.
Proof.
  intros rs text W I. destruct (find_overlapping_ranges rs) as [|x l] eqn:O.
  - destruct (ihex_exact rs W O) as (ls & E & B). rewrite E in I. injection I as <-.
    rewrite end_lines_app, app_length. apply blocks_length in B.
    change (length (end_lines [end_line])) with 12%nat. lia.
  - destruct (ihex_overlap rs) as (why & C); [rewrite O; discriminate|]. rewrite C in I. discriminate I.
Qed.

Lemma records_bytes : forall rs, records_in rs <= bytes_in rs.
Proof.
  induction rs as [|r rs IH]; cbn [records_in bytes_in]; [lia|].
  enough ((N.of_nat (length (dr_data r)) + 15) / 16 <= N.of_nat (length (dr_data r))) by lia.
  destruct (dr_data r) as [|b l]; [reflexivity|]. cbn [length]. apply N.div_le_upper_bound; lia.
Qed.

Lemma bytes_bound : forall rs, NoDup (map fst (memory rs)) -> Forall (fun x => fst x < 4095) (memory rs) -> bytes_in rs <= 4095.
Proof.
  intros rs D B. rewrite bytes_in_memory. rewrite <- (map_length fst (memory rs)).
  assert (I : incl (map fst (memory rs)) (map N.of_nat (seq 0 (N.to_nat 4095)))).
  { intros x X. apply in_map_iff in X. destruct X as (y & <- & Y). rewrite Forall_forall in B. specialize (B y Y). cbv beta in B.
    rewrite <- (N2Nat.id (fst y)). apply in_map, in_seq. lia. }
  apply (NoDup_incl_length D) in I. rewrite (map_length N.of_nat), seq_length in I. lia.
Qed.

(** ** Overlaps *)

Lemma overlaps_count : forall rs, (2 * length (find_overlapping_ranges rs) <= length rs * (length rs - 1))%nat.
Proof.
  induction rs as [|r rs IH]; cbn [find_overlapping_ranges length]; [lia|].
  rewrite app_length, map_length.
  assert (F : (length (filter (intersects r) rs) <= length rs)%nat).
  { clear. induction rs as [|x rs IH]; cbn [filter length]; [lia|]. destruct (intersects r x); cbn [length]; lia. }
  destruct rs as [|x rs]; [cbn; lia|]. cbn [length] in *. nia.
Qed.

Lemma overlaps_all : forall r n, intersects r r = true -> (2 * length (find_overlapping_ranges (repeat r n)) = n * (n - 1))%nat.
Proof.
  intros r n I. induction n as [|n IH]; [reflexivity|]. cbn [repeat find_overlapping_ranges]. rewrite app_length, map_length.
  assert (F : length (filter (intersects r) (repeat r n)) = n).
  { clear IH. induction n as [|n IH]; [reflexivity|]. cbn [repeat filter]. rewrite I. cbn [length]. rewrite IH. reflexivity. }
  rewrite F. destruct n as [|n]; [reflexivity|]. cbn [length] in *. nia.
Qed.
