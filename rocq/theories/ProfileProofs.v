(** * ProfileProofs: both profiles do what the other models say. *)

From Verif Require Import Base Text U12 Location Token Scanner ScannerW ScannerO Parser Directive Opcode
  Instruction DataRange Assembler IHex Main Profile SpecUtf8 SpecLex SpecGrammar SpecLayout SpecWidth BaseFacts LexProofs ScanProofs
  LexTheorems ParseProofs EmitProofs PipelineProofs WidthProofs UtfProofs CounterProofs MainProofs PropLayout PropMessage.
Open Scope N_scope.

(** [b] does what [a] does unless [a] panics. *)
Definition as_good {A : Type} (a b : run A) : Prop := forall v, a = Done v -> b = Done v.

Lemma good_refl : forall A (a : run A), as_good a a.
Proof. intros A a v H. exact H. Qed.

Lemma good_bind : forall A B (a b : run A) (f g : A -> run B),
  as_good a b -> (forall x, as_good (f x) (g x)) -> as_good (bind a f) (bind b g).
Proof.
  intros A B a b f g H K v E. destruct a as [x|]; [|discriminate E]. rewrite (H x eq_refl). exact (K x v E).
Qed.

Lemma good_add : forall k bits x y, as_good (add_o bits x y) (add_p k bits x y).
Proof.
  intros k bits x y v. unfold add_o, add_p. destruct (x + y <? 2 ^ bits); [trivial | discriminate].
Qed.

Lemma good_sub : forall k bits x y, as_good (sub_o x y) (sub_p k bits x y).
Proof. intros k bits x y v. unfold sub_o, sub_p. destruct (y <=? x); [trivial | discriminate]. Qed.

Lemma good_fold : forall A B (f g : A -> B -> run A), (forall a x, as_good (f a x) (g a x)) ->
  forall l a, as_good (fold_o f l a) (fold_o g l a).
Proof.
  intros A B f g H. induction l as [|x r IH]; intros a; [apply good_refl|]. cbn [fold_o]. apply good_bind; auto.
Qed.

Create HintDb good.

Ltac good :=
  repeat match goal with
    | |- as_good ?a ?a => apply good_refl
    | |- as_good (add_o _ _ _) _ => apply good_add
    | |- as_good (sub_o _ _) _ => apply good_sub
    | |- as_good (bind _ _) _ => apply good_bind; intros
    | |- as_good (fold_o _ _ _) _ => apply good_fold; intros
    | |- as_good (match ?x with _ => _ end) _ => destruct x
    | _ => solve [auto 2 with good]
    end.

Lemma good_char : forall k bits sc o, as_good (char_at_o bits sc o) (char_at_p k bits sc o).
Proof. intros. unfold char_at_o, char_at_p. good. Qed.

Lemma good_step : forall k bits st c, as_good (advance_step_o bits st c) (advance_step_p k bits st c).
Proof. intros k bits [[n f] o] c. unfold advance_step_o, advance_step_p. good. Qed.
#[global] Hint Resolve good_char good_step : good.

Lemma good_advance : forall k bits sc n, as_good (advance_by_o bits sc n) (advance_by_p k bits sc n).
Proof. intros. unfold advance_by_o, advance_by_p. good. Qed.
#[global] Hint Resolve good_advance : good.

Lemma good_consume_char : forall k bits sc, as_good (consume_char_o bits sc) (consume_char_p k bits sc).
Proof. intros. unfold consume_char_o, consume_char_p. good. Qed.
#[global] Hint Resolve good_consume_char : good.

Lemma good_comment : forall k bits s n, as_good (comment_bytes_o bits n s) (comment_bytes_p k bits n s).
Proof.
  intros k bits. induction s as [|c r IH]; intros n; [apply good_refl|]. cbn [comment_bytes_o comment_bytes_p]. good.
Qed.
#[global] Hint Resolve good_comment : good.

Lemma good_token : forall k bits sc c, as_good (consume_token_at_o bits sc c) (consume_token_at_p k bits sc c).
Proof.
  intros. unfold consume_token_at_o, consume_token_at_p.
  repeat match goal with |- as_good (if ?b then _ else _) _ => destruct b end;
    unfold consume_single_line_comment_o, consume_single_line_comment_p, consume_mark_o, consume_mark_p,
      consume_string_literal_o, consume_string_literal_p, consume_hex_literal_o, consume_hex_literal_p,
      consume_bin_literal_o, consume_bin_literal_p, consume_index_register_indirect_o,
      consume_index_register_indirect_p, consume_decimal_literal_o, consume_decimal_literal_p,
      consume_identifier_o, consume_identifier_p; good.
Qed.
#[global] Hint Resolve good_token : good.

Lemma good_next : forall k bits sc, as_good (next_token_o bits sc) (next_token_p k bits sc).
Proof. intros. unfold next_token_o, next_token_p, consume_whitespace_o, consume_whitespace_p. good. Qed.
#[global] Hint Resolve good_next : good.

Lemma good_scan : forall k bits file s, as_good (scan_o bits file s) (scan_p k bits file s).
Proof.
  intros k bits file s. unfold scan_o, scan_p. generalize (scanner_new file s). induction (S (length s)) as [|n IH]; intros sc.
  - apply good_refl.
  - cbn [scan_fuel_o scan_fuel_p]. good.
Qed.

(** ** Messages *)

Lemma good_place : forall k bits l, loc_fmt_o bits l = Done (loc_fmt l) -> loc_fmt_p k bits l = Done (loc_fmt l).
Proof.
  intros k bits l H. unfold loc_fmt_o, loc_fmt_p, loc_fmt in *. destruct (l_length l =? 1); [reflexivity|].
  unfold add_o in H. unfold add_p. destruct (l_location l + l_length l <? 2 ^ bits); [|discriminate H].
  cbn [bind] in H |- *. unfold sub_o in H. unfold sub_p. destruct (1 <=? l_location l + l_length l); [|discriminate H].
  cbn [bind]. rewrite <- !app_assoc. reflexivity.
Qed.

Lemma good_semantic : forall k bits e, loc_fmt_o bits (error_location e) = Done (loc_fmt (error_location e)) ->
  semantic_error_fmt_p k bits e = Done (semantic_error_fmt e).
Proof.
  intros k bits e H. destruct e; cbn [error_location] in H; cbn [semantic_error_fmt_p semantic_error_fmt];
    rewrite (good_place k bits _ H); cbn [bind]; reflexivity.
Qed.

Lemma good_syntax : forall k bits e,
  (forall expected t, e = UnexpectedToken expected t -> loc_fmt_o bits (token_location t) = Done (loc_fmt (token_location t))) ->
  parse_error_fmt_p k bits e = parse_error_fmt e.
Proof.
  intros k bits [expected|expected t] H; [reflexivity|]. specialize (H expected t eq_refl).
  destruct t; cbn [token_location] in H; cbn [parse_error_fmt_p parse_error_fmt token_location];
    rewrite (good_place k bits _ H); cbn [bind]; reflexivity.
Qed.

(** ** Ranges *)

Lemma good_range_fmt : forall k bits r, as_good (range_fmt r) (range_fmt_p k bits r).
Proof.
  intros k bits r v. unfold range_fmt, range_fmt_p. destruct (address_range r) as [first end_]. unfold sub_p.
  destruct (1 <=? end_); [trivial | discriminate].
Qed.

Lemma good_remaining : forall k bits r, 13 <= bits -> as_good (bytes_remaining r) (bytes_remaining_p k bits r).
Proof.
  intros k bits r B v. unfold bytes_remaining, bytes_remaining_p, sub_p, add_p.
  destruct (dr_start r <=? u12_max) eqn:E; [|discriminate]. cbn [bind].
  assert (F : u12_max - dr_start r + 1 < 2 ^ bits).
  { pose proof (N.pow_le_mono_r 2 13 bits ltac:(lia) B). change (2 ^ 13) with 8192 in H. unfold u12_max. lia. }
  apply N.ltb_lt in F. rewrite F. cbn [bind]. destruct (range_len r <=? u12_max - dr_start r + 1); [trivial | discriminate].
Qed.

Lemma good_emit : forall k bits, 13 <= bits -> forall l labels ranges current,
  as_good (emit_loop labels ranges current l) (emit_loop_p k bits labels ranges current l).
Proof.
  intros k bits B. pose proof (fun r => good_remaining k bits r B) as R.
  assert (P : forall r bytes, as_good (append_asserted r bytes) (append_asserted_p k bits r bytes)).
  { intros. unfold append_asserted, append_asserted_p, range_append, range_append_p. good. }
  induction l as [|n l IH]; intros labels ranges current; [apply good_refl|].
  destruct n as [? id args|? ?|? m fs]; cbn [emit_loop emit_loop_p].
  - destruct (directive_from id args) as [[]|]; good.
  - good.
  - destruct (instruction_from m fs labels); good.
Qed.

Lemma good_assemble : forall k bits p, 13 <= bits -> as_good (assemble p) (assemble_p k bits p).
Proof.
  intros k bits p B. unfold assemble, assemble_p, emit_data_ranges. destruct (define_labels p); [|apply good_refl].
  apply good_emit. exact B.
Qed.

Lemma good_records : forall k cs a, as_good (data_records a cs) (data_records_p k a cs).
Proof.
  intros k. induction cs as [|c r IH]; intros a; [apply good_refl|]. cbn [data_records data_records_p]. intros v.
  unfold add_p. change (2 ^ 16) with 65536. destruct (a + N.of_nat (length c) <? 65536); [|discriminate]. cbn [bind].
  apply good_bind; [apply IH | intros; apply good_refl].
Qed.
#[global] Hint Resolve good_records good_range_fmt : good.

Lemma good_hex : forall k rs, as_good (ihex_representation rs) (ihex_representation_p k rs).
Proof.
  intros k rs. unfold ihex_representation, ihex_representation_p. apply good_bind; [apply good_refl|]. intros _.
  apply good_bind; [|intros; apply good_refl].
  induction rs as [|r rs IH]; [apply good_refl|]. cbn [range_records range_records_p]. good.
Qed.

Lemma good_overlaps : forall k bits e l, as_good (overlap_report e l) (overlap_report_p k bits e l).
Proof.
  intros k bits e. induction l as [|[a b] l IH]; [apply good_refl|]. cbn [overlap_report overlap_report_p]. good.
Qed.

(** ** From text to HEX *)

(** The integers are large enough for the text. *)
Definition roomy (bits : N) (s : str) : Prop := 13 <= bits /\ byte_len s + 1 < 2 ^ bits.

Lemma places_fit : forall bits file s ts t, roomy bits s -> scan file s = Done ts -> In t ts ->
  loc_fmt_o bits (token_location t) = Done (loc_fmt (token_location t)).
Proof.
  intros bits file s ts t [_ B] S I. apply In_nth_error in I. destruct I as (i & I).
  destruct (scan_location _ _ _ _ _ S I) as (before & m & after & -> & Hm & -> & _).
  exact (location_fits bits file before m after Hm B).
Qed.

Theorem profile_text : forall k bits e file s, Forall scalar s -> roomy bits s -> scan_w bits file s = scan file s ->
  assemble_text_p k bits e file s = assemble_text e file s.
Proof.
  intros k bits e file s Sc R W. pose proof R as [B L].
  assert (T : exists v, assemble_text e file s = Done v).
  { destruct (assemble_text_spec e file s Sc) as [(t & rs & E & _)|(m & E & _)]; eauto. }
  destruct T as (v & T). rewrite T. unfold assemble_text in T. unfold assemble_text_p.
  destruct (scan_total file s) as (ts & S). rewrite S in T. cbn [bind] in T.
  rewrite (good_scan k bits file s ts) by (rewrite scan_fits, W; [exact S | lia | exact L]). cbn [bind].
  destruct (parse ts) as [[p|err]|] eqn:P; [| |discriminate T]; cbn [bind] in T |- *.
  - destruct (assemble p) as [a|] eqn:A; [|discriminate T]. cbn [bind] in T.
    rewrite (good_assemble k bits p B a A). cbn [bind]. destruct a as [rs|err].
    + destruct (Nat.ltb 0 (length (find_overlapping_ranges rs))).
      * revert T. apply good_bind; [apply good_overlaps | intros; apply good_refl].
      * revert T. apply good_bind; [apply good_hex | intros; apply good_refl].
    + rewrite good_semantic; [exact T|].
      destruct (C30_location p err (parsed_node_ok _ _ _ _ S P) A) as (i & n & Ni & -> & _).
      apply parse_program in P. pose proof (program_names _ _ P n (nth_error_In _ _ Ni)) as I.
      exact (places_fit bits file s ts _ R S I).
  - rewrite good_syntax; [exact T|]. intros expected t ->. destruct (parse_error_token _ _ _ P) as (b & a & E & _).
    apply (places_fit bits file s ts t R S). rewrite E. apply in_or_app. right. left. reflexivity.
Qed.

Lemma byte_len_utf8 : forall s, Forall scalar s -> byte_len s = N.of_nat (length (utf8 s)).
Proof.
  unfold utf8. induction 1 as [|c s C F IH]; [reflexivity|]. cbn [byte_len flat_map]. rewrite app_length, IH.
  assert (E : len_utf8 c = N.of_nat (length (utf8_char c))).
  { unfold len_utf8, utf8_char. destruct (c <? 128); [reflexivity|]. destruct (c <? 2048); [reflexivity|].
    destruct (c <? 65536); reflexivity. }
  lia.
Qed.

Theorem profile_tool : forall k bits e f,
  (forall path bytes s, f path = Some bytes -> encoding s bytes -> roomy bits s /\ scan_w bits path s = scan path s) ->
  main_p k bits e f = main e f.
Proof.
  intros k bits e f H. unfold main_p, main. destruct (e_options e) as [m|]; [|reflexivity].
  destruct (m_help m); [reflexivity|]. destruct (m_version m); [reflexivity|].
  destruct (m_free m) as [|input [|x y]]; try reflexivity. unfold assemble_file_p, assemble_file.
  destruct (read_input_spec e f input) as [(s & E & R)|(m' & E & _)]; rewrite E; [|reflexivity].
  pose proof (reads_scalar _ _ _ _ R) as Sc. destruct R as (_ & _ & bytes & Eb & D).
  destruct (H input bytes s Eb D) as [R W]. rewrite (profile_text k bits e input s Sc R W). reflexivity.
Qed.
