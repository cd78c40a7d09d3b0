(** * WorkProofs: how many steps are taken (C100). *)

From Verif Require Import Base Text U12 Location Token Scanner Parser Directive Opcode Instruction DataRange Assembler
  IHex Main Work SpecLex SpecGrammar SpecOpcode SpecRefusal SpecLayout SpecHex SpecUtf8 SpecTool SpecSize SpecRegex SpecWork
  BaseFacts LexProofs ScanProofs LexTheorems ParseProofs LayoutProofs EmitProofs PipelineProofs DataRangeProofs HexProofs MainProofs OutputProofs
  IoProofs SizeProofs FmtProofs CaseProofs RegexProofs.
Open Scope string_scope.
Open Scope list_scope.
Open Scope N_scope.

(** ** Counting changes nothing *)

Lemma fst_afterwards : forall (A B : Type) (m : work A) (k : A -> work B),
  fst (afterwards m k) = bind (fst m) (fun a => fst (k a)).
Proof. intros A B [[a|c] n] k; cbn [afterwards fst bind]; [destruct (k a); reflexivity | reflexivity]. Qed.

Lemma afterwards_same : forall (A B : Type) (m : work A) (k : A -> work B) m' k',
  fst m = m' -> (forall a, fst (k a) = k' a) -> fst (afterwards m k) = bind m' k'.
Proof.
  intros A B m k m' k' E K. rewrite fst_afterwards, E. destruct m' as [a|c]; [apply K | reflexivity].
Qed.

Lemma steps_same : forall (A B : Type) n (a : A) (k : A -> work B) r, fst (k a) = r -> fst (afterwards (steps n (Done a)) k) = r.
Proof. intros A B n a k r E. rewrite fst_afterwards. exact E. Qed.

Lemma try_same : forall (E A B : Type) (m : work (result E A)) (k : A -> work (result E B)) m' k',
  fst m = m' -> (forall a, fst (k a) = k' a) -> fst (try_w m k) = try_ m' k'.
Proof.
  intros E A B m k m' k' H K. unfold try_w. rewrite fst_afterwards, H. destruct m' as [[a|e]|c]; cbn [bind try_]; [apply K | reflexivity | reflexivity].
Qed.

Ltac same :=
  match goal with
  | |- fst (try_w _ _) = _ => apply try_same; [try reflexivity | intro]
  | |- fst (afterwards _ _) = bind _ _ => apply afterwards_same; [try reflexivity | intro]
  | _ => apply steps_same
  end.

Lemma advance_same : forall sc bytes, fst (advance_by_w sc bytes) = advance_by sc bytes.
Proof.
  intros. unfold advance_by_w, advance_by. same. same. same. same. destruct (fold_left advance_step a (0, 0, sc_offset sc)) as [[n f] o].
  same. reflexivity.
Qed.

Lemma consume_char_same : forall sc, fst (consume_char_w sc) = consume_char sc.
Proof. intros. unfold consume_char_w, consume_char. same. same; [apply advance_same|]. destruct a0. reflexivity. Qed.

Lemma whitespace_same : forall sc, fst (consume_whitespace_w sc) = consume_whitespace sc.
Proof.
  intros. unfold consume_whitespace_w, consume_whitespace. same. same. destruct (find_whitespace a); [|reflexivity].
  same; [apply advance_same|]. destruct a0. reflexivity.
Qed.

Lemma string_same : forall sc, fst (consume_string_literal_w sc) = consume_string_literal sc.
Proof.
  intros. unfold consume_string_literal_w, consume_string_literal. same. same. destruct (find_string_literal a); [|reflexivity].
  same. same; [apply advance_same|]. destruct a1. reflexivity.
Qed.

Lemma hex_same : forall sc, fst (consume_hex_literal_w sc) = consume_hex_literal sc.
Proof.
  intros. unfold consume_hex_literal_w, consume_hex_literal. same. same. destruct (find_hex_literal a); [|reflexivity].
  same. same; [apply advance_same|]. destruct a1. same. reflexivity.
Qed.

Lemma bin_same : forall sc, fst (consume_bin_literal_w sc) = consume_bin_literal sc.
Proof.
  intros. unfold consume_bin_literal_w, consume_bin_literal. same. same. destruct (find_bin_literal a); [|reflexivity].
  same. same; [apply advance_same|]. destruct a1. same. destruct (parse_12_bit_bin_str a0); reflexivity.
Qed.

Lemma decimal_same : forall sc, fst (consume_decimal_literal_w sc) = consume_decimal_literal sc.
Proof.
  intros. unfold consume_decimal_literal_w, consume_decimal_literal. same. same. destruct (find_decimal_literal a) as [m|]; [|reflexivity].
  same. cbv zeta. same.
  assert (E : fst (let+ (l, sc') := advance_by_w sc (byte_len m) in
                   steps 2 (Done (ErrorToken (DecimalLiteralOutOfRange a0) l, jump_to_end sc')))
              = let* (l, sc') := advance_by sc (byte_len m) in
                Done (ErrorToken (DecimalLiteralOutOfRange a0) l, jump_to_end sc')).
  { same; [apply advance_same|]. destruct a1. reflexivity. }
  destruct (from_str_radix usize_bits 10 a0) as [value|]; [|exact E]. destruct (value <=? 4095); [|exact E].
  same; [apply advance_same|]. destruct a1. reflexivity.
Qed.

Lemma identifier_same : forall sc, fst (consume_identifier_w sc) = consume_identifier sc.
Proof.
  intros. unfold consume_identifier_w, consume_identifier. same. same. destruct (find_identifier a); [|reflexivity].
  same. same; [apply advance_same|]. destruct a1. reflexivity.
Qed.

Lemma indirect_same : forall sc, fst (consume_index_register_indirect_w sc) = consume_index_register_indirect sc.
Proof.
  intros. unfold consume_index_register_indirect_w, consume_index_register_indirect. same. same.
  destruct (starts_with a (u "[i]") || starts_with a (u "[I]")); [|reflexivity].
  same. same; [apply advance_same|]. destruct a1. reflexivity.
Qed.

Lemma comment_bytes_same : forall s, fst (comment_bytes_w s) = Done (comment_bytes s).
Proof.
  induction s as [|c s IH]; [reflexivity|]. cbn [comment_bytes_w comment_bytes]. destruct (c =? newline); [reflexivity|].
  rewrite fst_afterwards, IH. reflexivity.
Qed.

Lemma comment_same : forall sc, fst (consume_single_line_comment_w sc) = consume_single_line_comment sc.
Proof.
  intros. unfold consume_single_line_comment_w, consume_single_line_comment. same. same. same.
  rewrite fst_afterwards, comment_bytes_same. cbn [bind]. same. same; [apply advance_same|]. destruct a3. reflexivity.
Qed.

Lemma mark_same : forall c t sc, fst (consume_mark_w c t sc) =
  let* (value, l, sc') := consume_char sc in
  let* _ := assert_ (value =? c) in
  Done (t l, sc').
Proof. intros. unfold consume_mark_w. same; [apply consume_char_same|]. destruct a as [[v l] sc']. same. reflexivity. Qed.

Lemma token_same : forall sc c, fst (consume_token_at_w sc c) = consume_token_at sc c.
Proof.
  intros. unfold consume_token_at_w, consume_token_at. same.
  destruct (c =? c_ ";"); [apply comment_same|]. destruct (c =? c_ "."); [apply mark_same|].
  destruct (c =? c_ ":"); [apply mark_same|]. destruct (c =? c_ ","); [apply mark_same|].
  destruct (c =? 34); [apply string_same|]. destruct (c =? c_ "$"); [apply hex_same|]. destruct (c =? c_ "#"); [apply hex_same|].
  destruct (c =? c_ "%"); [apply bin_same|]. destruct (c =? c_ "["); [apply indirect_same|].
  destruct (is_digit c); [apply decimal_same|]. destruct (is_id_start c); [apply identifier_same|].
  destruct (c =? newline); [apply mark_same | reflexivity].
Qed.

Lemma next_same : forall sc, fst (next_token_w sc) = next_token sc.
Proof.
  intros. unfold next_token_w, next_token. same; [apply whitespace_same|]. same. destruct (is_at_end a); [reflexivity|].
  same. same; [apply token_same|]. destruct a1. reflexivity.
Qed.

Lemma scan_fuel_same : forall n sc, fst (scan_fuel_w n sc) = scan_fuel n sc.
Proof.
  induction n as [|n IH]; intros sc; [reflexivity|]. cbn [scan_fuel_w scan_fuel]. same; [apply next_same|].
  destruct a as [[t|] sc']; [|reflexivity]. same; [apply IH|]. reflexivity.
Qed.

Theorem scan_same : forall file s, fst (scan_w file s) = scan file s.
Proof. intros. apply scan_fuel_same. Qed.

(** *** The parser *)

Lemma literals_same : forall n p acc, fst (parse_literal_list_w n p acc) = parse_literal_list n p acc.
Proof.
  induction n as [|n IH]; intros p acc; [reflexivity|]. cbn [parse_literal_list_w parse_literal_list].
  assert (E : fst (try+ (lit, p) := parse_literal_w p in
                   match p_current p with
                   | Some (Comma _) => let+ p := steps 5 (Done (snd (consume_token p))) in parse_literal_list_w n p (acc ++ [lit])
                   | _ => steps 4 (Done (Ok (acc ++ [lit], p)))
                   end)
              = try* (lit, p) := parse_literal p in
                match p_current p with
                | Some (Comma _) => parse_literal_list n (snd (consume_token p)) (acc ++ [lit])
                | _ => Done (Ok (acc ++ [lit], p))
                end).
  { same. destruct a as [lit q]. destruct (p_current q) as [[]|]; try reflexivity. same. apply IH. }
  destruct (p_current p) as [[]|]; try exact E. reflexivity.
Qed.

Lemma directive_same_w : forall n p, fst (parse_directive_w n p) = parse_directive n p.
Proof.
  intros. unfold parse_directive_w, parse_directive. destruct (consume_token p) as [[[]|] q]; try reflexivity.
  same. same. destruct a as [[id l'] q']. same; [apply literals_same|]. destruct a. reflexivity.
Qed.

Lemma label_same_w : forall p, fst (parse_label_w p) = parse_label p.
Proof.
  intros. unfold parse_label_w, parse_label. same. destruct a as [[id l'] q']. destruct (consume_token q') as [[[]|] q]; reflexivity.
Qed.

Lemma field_same_w : forall p, fst (parse_field_w p) = parse_field p.
Proof. intros. unfold parse_field_w, parse_field. destruct (p_current p) as [[]|]; try reflexivity. same. reflexivity. Qed.

Lemma fields_same : forall n p acc, fst (parse_field_list_w n p acc) = parse_field_list n p acc.
Proof.
  induction n as [|n IH]; intros p acc; [reflexivity|]. cbn [parse_field_list_w parse_field_list].
  assert (E : fst (try+ (f, p) := parse_field_w p in
                   match p_current p with
                   | Some (Comma _) => let+ p := steps 5 (Done (snd (consume_token p))) in parse_field_list_w n p (acc ++ [f])
                   | _ => steps 5 (Done (Ok (acc ++ [f], p)))
                   end)
              = try* (f, p) := parse_field p in
                match p_current p with
                | Some (Comma _) => parse_field_list n (snd (consume_token p)) (acc ++ [f])
                | _ => Done (Ok (acc ++ [f], p))
                end).
  { same; [apply field_same_w|]. destruct a as [f q]. destruct (p_current q) as [[]|]; try reflexivity. same. apply IH. }
  destruct (p_current p) as [[]|]; try exact E; reflexivity.
Qed.

Lemma instruction_same_w : forall n p, fst (parse_instruction_w n p) = parse_instruction n p.
Proof.
  intros. unfold parse_instruction_w, parse_instruction. same. destruct a as [[m l] q]. same; [apply fields_same|]. destruct a. reflexivity.
Qed.

Lemma statement_same_w : forall n p, fst (parse_statement_w n p) = parse_statement n p.
Proof.
  intros. unfold parse_statement_w, parse_statement. same.
  destruct (p_current p) as [[]|]; try reflexivity; [apply directive_same_w|].
  destruct (p_next p) as [[]|]; first [apply label_same_w | apply instruction_same_w].
Qed.

Lemma statements_same : forall n p acc, fst (parse_statement_list_w n p acc) = parse_statement_list n p acc.
Proof.
  induction n as [|n IH]; intros p acc; [reflexivity|]. cbn [parse_statement_list_w parse_statement_list].
  assert (E : fst (let+ _ := steps 4 (Done tt) in
                   try+ (nd, p) := parse_statement_w (S n) p in parse_statement_list_w n p (acc ++ [nd]))
              = try* (nd, p) := parse_statement (S n) p in parse_statement_list n p (acc ++ [nd])).
  { same. same; [apply statement_same_w|]. destruct a. apply IH. }
  destruct (p_current p) as [[]|]; try exact E; try reflexivity; same; apply IH.
Qed.

Theorem parse_same_w : forall ts, fst (parse_w ts) = parse ts.
Proof. intros. unfold parse_w, parse. same. apply statements_same. Qed.

(** *** The assembler *)

Lemma db_same : forall args bytes, fst (db_bytes_w bytes args) = Done (db_bytes bytes args).
Proof.
  induction args as [|[s|n] args IH]; intros bytes; cbn [db_bytes_w db_bytes]; [reflexivity | |].
  - rewrite fst_afterwards. apply IH.
  - destruct (0xFF <? n); [reflexivity|]. rewrite fst_afterwards. apply IH.
Qed.

Lemma directive_from_same : forall id args, fst (directive_from_w id args) = Done (directive_from id args).
Proof.
  intros. unfold directive_from_w, directive_from. same.
  destruct (str_eqb (to_lowercase id) name_org); [reflexivity|]. destruct (str_eqb (to_lowercase id) name_db).
  - destruct args as [|a args]; [reflexivity|]. unfold try_w. rewrite fst_afterwards, db_same. cbn [bind].
    destruct (db_bytes [] (a :: args)); reflexivity.
  - destruct (str_eqb (to_lowercase id) name_equ); reflexivity.
Qed.

Lemma peek_same : forall rest, fst (peek_constant_w rest) = Done (peek_constant rest).
Proof.
  intros [|[l id args|l id|l m fs] rest]; try reflexivity. cbn [peek_constant_w peek_constant].
  rewrite fst_afterwards, directive_from_same. reflexivity.
Qed.

Lemma insert_same : forall labels l id v, fst (insert_w labels l id v) =
  Done (if contains_key labels id then Err (RedefinitionOfLabel l id) else Ok ((id, v) :: labels)).
Proof. intros. unfold insert_w. same. destruct (contains_key labels id); reflexivity. Qed.

Lemma labels_same : forall p labels a, fst (define_labels_loop_w labels a p) = Done (define_labels_loop labels a p).
Proof.
  assert (H : forall k p, (length p <= k)%nat -> forall labels a, fst (define_labels_loop_w labels a p) = Done (define_labels_loop labels a p)).
  { induction k as [|k IH]; intros [|n p] L labels a; try reflexivity; [cbn in L; lia|]. cbn [length] in L.
    destruct n as [l id args|l id|l m fs]; cbn [define_labels_loop_w define_labels_loop].
    - rewrite fst_afterwards, directive_from_same. cbn [bind]. unfold try_w. rewrite fst_afterwards. cbn [fst steps bind].
      destruct (directive_from id args) as [d|e]; cbn [map_err rbind]; [|reflexivity].
      rewrite fst_afterwards. cbn [fst steps bind].
      destruct (ok_or (u12_failable_into (directive_size d)) (DirectiveTooLarge l d)) as [sz|e]; cbn [rbind]; [|reflexivity].
      rewrite fst_afterwards. cbn [fst steps bind].
      destruct (ok_or (u12_checked_add a sz) (DirectiveWouldOverflow l d)) as [ad|e]; cbn [rbind]; [|reflexivity].
      rewrite fst_afterwards. cbn [fst steps bind].
      destruct d as [o|bs|v]; [apply IH; lia | apply IH; lia | reflexivity].
    - rewrite fst_afterwards. cbn [fst steps bind]. rewrite fst_afterwards, peek_same. cbn [bind].
      destruct p as [|n' p].
      + unfold try_w. rewrite fst_afterwards, insert_same. cbn [bind]. destruct (contains_key labels id); [reflexivity|]. reflexivity.
      + destruct (peek_constant (n' :: p)) as [v|]; unfold try_w; rewrite fst_afterwards, insert_same; cbn [bind];
          (destruct (contains_key labels id); [reflexivity|]); apply IH; cbn [length] in *; lia.
    - unfold try_w. rewrite fst_afterwards. cbn [fst steps bind].
      destruct (ok_or (u12_checked_add a bytes_per_instruction) (InstructionWouldOverflow l)) as [ad|e]; cbn [rbind]; [|reflexivity].
      apply IH. lia. }
  intros p. exact (H (length p) p (le_n _)).
Qed.

Lemma emit_same : forall p labels rs cur, fst (emit_loop_w labels rs cur p) = emit_loop labels rs cur p.
Proof.
  induction p as [|[l id args|l id|l m fs] p IH]; intros labels rs cur; cbn [emit_loop_w emit_loop].
  - reflexivity.
  - rewrite fst_afterwards, directive_from_same. cbn [bind]. destruct (directive_from id args) as [[o|bs|v]|e].
    + same. apply IH.
    + same. apply IH.
    + same. apply IH.
    + reflexivity.
  - same. apply IH.
  - rewrite fst_afterwards. cbn [instruction_from_w fst steps bind]. destruct (instruction_from m fs labels) as [o|e]; [|reflexivity].
    same. same. apply IH.
Qed.

Theorem assemble_same : forall p, fst (assemble_w p) = assemble p.
Proof.
  intros p. unfold assemble_w, assemble, try_w, define_labels. rewrite fst_afterwards, labels_same. cbn [bind].
  destruct (define_labels_loop [] 0 p) as [labels|e]; [|reflexivity]. apply emit_same.
Qed.

(** *** The output *)

Lemma compare_same : forall rest lhs, fst (compare_w lhs rest) = Done (map (fun rhs => (lhs, rhs)) (filter (intersects lhs) rest)).
Proof.
  induction rest as [|r rest IH]; intros lhs; [reflexivity|]. cbn [compare_w filter]. same. rewrite fst_afterwards, IH. cbn [bind].
  destruct (intersects lhs r); reflexivity.
Qed.

Lemma overlapping_same : forall rs, fst (find_overlapping_ranges_w rs) = Done (find_overlapping_ranges rs).
Proof.
  induction rs as [|r rs IH]; [reflexivity|]. cbn [find_overlapping_ranges_w find_overlapping_ranges].
  rewrite fst_afterwards, compare_same. cbn [bind]. rewrite fst_afterwards, IH. reflexivity.
Qed.

Lemma records_same : forall cs a, fst (data_records_w a cs) = data_records a cs.
Proof.
  induction cs as [|c cs IH]; intros a; [reflexivity|]. cbn [data_records_w data_records]. unfold amount.
  rewrite fst_afterwards. cbn [steps fst]. destruct (a + N.of_nat (length c) <? 65536); [|reflexivity]. cbn [bind].
  same; [apply IH|]. reflexivity.
Qed.

Lemma range_records_same : forall rs, fst (range_records_w rs) = range_records rs.
Proof.
  induction rs as [|r rs IH]; [reflexivity|]. cbn [range_records_w range_records]. same; [apply records_same|]. same. same; [apply IH|]. reflexivity.
Qed.

Lemma ihex_same : forall rs, fst (ihex_representation_w rs) = ihex_representation rs.
Proof.
  intros. unfold ihex_representation_w, ihex_representation. rewrite fst_afterwards, overlapping_same. cbn [bind]. same.
  same; [apply range_records_same|]. cbv zeta. same. reflexivity.
Qed.

Lemma report_same : forall e l, fst (overlap_report_w e l) = overlap_report e l.
Proof. induction l as [|[a b] l IH]; [reflexivity|]. cbn [overlap_report_w overlap_report]. same. same. same; [apply IH|]. reflexivity. Qed.

Theorem assemble_text_same : forall e file s, fst (assemble_text_w e file s) = assemble_text e file s.
Proof.
  intros. unfold assemble_text_w, assemble_text. same; [apply scan_same|]. same; [apply parse_same_w|].
  destruct a0 as [p|m]; [|same; reflexivity]. same; [apply assemble_same|]. destruct a0 as [rs|m]; [|reflexivity].
  rewrite fst_afterwards, overlapping_same. cbn [bind]. destruct (Nat.ltb 0 (length (find_overlapping_ranges rs))).
  - same; [apply report_same|]. reflexivity.
  - same; [apply ihex_same|]. reflexivity.
Qed.

(** ** Scanning takes a number of steps for each character *)

Lemma amount_app : forall (A : Type) (a b : list A), amount (a ++ b) = amount a + amount b.
Proof. intros. unfold amount. rewrite app_length. lia. Qed.

Lemma amount_cons : forall (A : Type) (a : A) b, amount (a :: b) = 1 + amount b.
Proof. intros. unfold amount. cbn [length]. lia. Qed.

Lemma advance_cost : forall file before m s, m <> [] ->
  advance_by_w (at_ file before (m ++ s)) (byte_len m) = (Done (located file before m, at_ file (before ++ m) s), 7 + 2 * amount m).
Proof.
  intros file before m s Ne. rewrite (surjective_pairing (advance_by_w _ _)), advance_same, at_advance by exact Ne. f_equal.
  unfold advance_by_w, at_. cbn [sc_input sc_position sc_file sc_line sc_offset]. rewrite slice_app.
  cbn [afterwards steps]. rewrite total_bytes, N.add_0_l, N.eqb_refl. cbn [assert_ afterwards]. rewrite advance_fold.
  cbn [afterwards]. unfold loc_new. pose proof (first_line_pos m Ne). change (0 =? 0) with true. cbn iota.
  rewrite (proj2 (andb_true_iff _ _)) by lia. cbn [assert_ bind afterwards snd]. lia.
Qed.

(** One token, or an error which ends the text. *)
Inductive cost_spec (file before s : str) (fixed each : N) : work (token * scanner) -> Prop :=
| cost_token : forall m rest t n, s = m ++ rest -> m <> [] -> n <= fixed + each * amount m ->
    cost_spec file before s fixed each (Done (t, at_ file (before ++ m) rest), n)
| cost_end : forall t sc n, finished sc -> n <= fixed + each * amount s -> cost_spec file before s fixed each (Done (t, sc), n).

Lemma error_cost : forall file before c s e, error_here_w (at_ file before (c :: s)) e
  = (Done (ErrorToken e (located file before [c]), jump_to_end (at_ file before (c :: s))), 3).
Proof. intros. unfold error_here_w, steps. rewrite error_here_at. reflexivity. Qed.

Lemma mark_cost : forall file before c t s, cost_spec file before (c :: s) 15 2 (consume_mark_w c t (at_ file before (c :: s))).
Proof.
  intros. unfold consume_mark_w, consume_char_w, char_at_w, steps. rewrite at_char. cbn [afterwards].
  change (c :: s) with ([c] ++ s). replace (len_utf8 c) with (byte_len [c]) by (cbn; lia).
  rewrite advance_cost by discriminate. cbn [afterwards]. rewrite N.eqb_refl. cbn [assert_ afterwards].
  apply cost_token; [reflexivity | discriminate |]. lia.
Qed.

Lemma look_whitespace_amount : forall s, look_whitespace s <= 1 + amount s.
Proof.
  intros s. unfold look_whitespace. destruct (take_while_split (fun c => is_whitespace c && negb (c =? newline)) s) as (r & E & _).
  rewrite E at 2. rewrite amount_app. lia.
Qed.

Lemma look_string_found : forall n s m, (length s <= n)%nat -> find_string_body s = Some m -> look_string_body s = amount m.
Proof.
  induction n as [|n IH]; intros [|c s] m L F; try discriminate F; [cbn in L; lia|]. cbn [find_string_body look_string_body length] in *.
  destruct (c =? 34); [inversion F; reflexivity|]. destruct (c =? 92).
  - destruct s as [|d s]; [discriminate F|]. destruct (d =? newline); [discriminate F|].
    destruct (find_string_body s) as [m'|] eqn:E; [|discriminate F]. inversion F; subst. rewrite (IH s m') by (cbn [length] in L; first [lia | exact E]).
    rewrite !amount_cons. lia.
  - destruct (find_string_body s) as [m'|] eqn:E; [|discriminate F]. inversion F; subst. rewrite (IH s m') by (first [lia | exact E]).
    rewrite amount_cons. lia.
Qed.

Lemma look_string_amount : forall n s, (length s <= n)%nat -> look_string_body s <= amount s.
Proof.
  induction n as [|n IH]; intros [|c s] L; [cbn; lia | cbn in L; lia | cbn; lia |]. cbn [look_string_body length] in *. rewrite amount_cons.
  destruct (c =? 34); [lia|]. destruct (c =? 92).
  - destruct s as [|d s]; [lia|]. rewrite amount_cons. destruct (d =? newline); [lia|]. cbn [length] in L. specialize (IH s ltac:(lia)). lia.
  - specialize (IH s ltac:(lia)). lia.
Qed.

Lemma string_cost : forall file before s, cost_spec file before (34 :: s) 15 3 (consume_string_literal_w (at_ file before (34 :: s))).
Proof.
  intros. unfold consume_string_literal_w. rewrite at_rest. unfold steps. cbn [afterwards].
  destruct (find_string_literal (34 :: s)) as [m|] eqn:F.
  - destruct (find_lexeme KString (34 :: s) m F) as (rest & E & _).
    unfold find_string_literal in F. change (34 =? 34) with true in F. cbn iota in F.
    destruct (find_string_body s) as [b|] eqn:FB; [|discriminate F]. inversion F; subst m; clear F.
    pose proof (look_string_found _ _ _ (le_n _) FB) as L.
    destruct (find_string_body_sound _ _ _ (le_n _) FB) as (b' & ? & -> & _).
    assert (Q : look_string (34 :: s) = 1 + amount (QUOTE :: b' ++ [QUOTE])).
    { unfold look_string. change (34 =? 34) with true. cbn iota. rewrite amount_cons. change QUOTE with 34 in *. rewrite L. lia. }
    rewrite Q. at_split E. rewrite at_slice_inner by reflexivity. cbn [afterwards].
    rewrite advance_cost by discriminate. cbn [afterwards]. apply cost_token; [exact E | discriminate | change QUOTE with 34; lia].
  - rewrite error_cost. apply cost_end; [apply jump_finished|]. unfold look_string. change (34 =? 34) with true. cbn iota.
    rewrite amount_cons. pose proof (look_string_amount _ s (le_n _)). lia.
Qed.

Lemma hex_cost : forall file before c s, (c =? c_ "$") || (c =? c_ "#") = true ->
  cost_spec file before (c :: s) 18 4 (consume_hex_literal_w (at_ file before (c :: s))).
Proof.
  intros file before c s Ec. unfold consume_hex_literal_w. rewrite at_rest. unfold steps. cbn [afterwards].
  destruct (find_hex_literal (c :: s)) as [m|] eqn:F.
  - destruct (find_lexeme KHex (c :: s) m F) as (rest & E & _).
    assert (Hm : exists d, m = c :: d /\ d <> [] /\ (length d <= 3)%nat /\ forallb is_hex_digit d = true /\ look_hex (c :: s) = 1 + amount m).
    { unfold find_hex_literal in F. unfold look_hex. rewrite Ec in *.
      pose proof (take_while_max_all 3 is_hex_digit s) as A. pose proof (take_while_max_length 3 is_hex_digit s) as B.
      destruct (take_while_max 3 is_hex_digit s) as [|d ds]; [discriminate F|]. inversion F; subst.
      exists (d :: ds). rewrite (amount_cons _ c). repeat split; [discriminate | exact B | exact A | lia]. }
    destruct Hm as (d & -> & Nd & Ld & Hd & Q). rewrite Q. at_split E.
    rewrite at_slice_tail. 2:{ apply ascii_len. apply orb_true_iff in Ec. destruct Ec as [Ec|Ec]; apply N.eqb_eq in Ec; subst c; reflexivity. }
    cbn [afterwards]. rewrite advance_cost by discriminate. cbn [afterwards]. rewrite hex_value by assumption. cbn [unwrap afterwards].
    apply cost_token; [exact E | discriminate |]. rewrite amount_cons. lia.
  - rewrite error_cost. apply cost_end; [apply jump_finished|]. unfold find_hex_literal in F. unfold look_hex. rewrite Ec in *.
    destruct (take_while_max 3 is_hex_digit s); [|discriminate F]. unfold amount at 1. cbn [length]. lia.
Qed.

Lemma bin_cost : forall file before s, cost_spec file before (c_ "%" :: s) 20 4 (consume_bin_literal_w (at_ file before (c_ "%" :: s))).
Proof.
  intros file before s. unfold consume_bin_literal_w. rewrite at_rest. unfold steps. cbn [afterwards].
  destruct (find_bin_literal (c_ "%" :: s)) as [m|] eqn:F.
  - destruct (find_lexeme KBin (c_ "%" :: s) m F) as (rest & E & _).
    assert (Hm : exists d, m = c_ "%" :: d /\ look_bin (c_ "%" :: s) = 1 + amount m).
    { unfold find_bin_literal in F. unfold look_bin. rewrite N.eqb_refl in *.
      destruct (take_while is_bin_digit s) as [|d ds]; [discriminate F|]. inversion F; subst.
      exists (d :: ds). rewrite (amount_cons _ (c_ "%")). split; [reflexivity | lia]. }
    destruct Hm as (d & -> & Q). rewrite Q. at_split E. rewrite at_slice_tail by reflexivity.
    cbn [afterwards]. rewrite advance_cost by discriminate. cbn [afterwards]. destruct (parse_12_bit_bin_str d) as [v|e]; cbn [afterwards].
    + apply cost_token; [exact E | discriminate |]. rewrite amount_cons. lia.
    + apply cost_end; [apply jump_finished|]. rewrite E, !amount_app, amount_cons. lia.
  - rewrite error_cost. apply cost_end; [apply jump_finished|]. unfold find_bin_literal in F. unfold look_bin. rewrite N.eqb_refl in *.
    destruct (take_while is_bin_digit s); [|discriminate F]. unfold amount at 1. cbn [length]. lia.
Qed.

Lemma decimal_cost : forall file before c s, is_digit c = true ->
  cost_spec file before (c :: s) 18 4 (consume_decimal_literal_w (at_ file before (c :: s))).
Proof.
  intros file before c s Hc. unfold consume_decimal_literal_w. rewrite at_rest. unfold steps. cbn [afterwards].
  destruct (find_decimal_literal (c :: s)) as [m|] eqn:F.
  - destruct (find_lexeme KDec (c :: s) m F) as (rest & E & _).
    assert (Hm : m <> [] /\ look_decimal (c :: s) = 1 + amount m).
    { unfold find_decimal_literal in F. unfold look_decimal. cbn [take_while] in *. rewrite Hc in *. inversion F; subst. split; [discriminate | reflexivity]. }
    destruct Hm as (Ne & Q). rewrite Q. at_split E. rewrite at_slice. cbn [afterwards]. cbv zeta.
    rewrite advance_cost by exact Ne. cbn [afterwards].
    assert (X : forall n, n <= 18 + 4 * amount m -> forall t,
      cost_spec file before (c :: s) 18 4 (Done (t, jump_to_end (at_ file (before ++ m) rest)), n)).
    { intros n L t. apply cost_end; [apply jump_finished|]. rewrite E, amount_app. lia. }
    destruct (from_str_radix usize_bits 10 m) as [v|]; [destruct (v <=? 4095)|]; cbn [afterwards].
    + apply cost_token; [exact E | exact Ne | lia].
    + apply X. lia.
    + apply X. lia.
  - exfalso. unfold find_decimal_literal in F. cbn [take_while] in F. rewrite Hc in F. discriminate F.
Qed.

Lemma identifier_cost : forall file before c s, is_id_start c = true ->
  cost_spec file before (c :: s) 18 4 (consume_identifier_w (at_ file before (c :: s))).
Proof.
  intros file before c s Hc. unfold consume_identifier_w. rewrite at_rest. unfold steps. cbn [afterwards].
  unfold find_identifier, look_identifier. rewrite Hc.
  assert (F : find KIdentifier (c :: s) = Some (c :: take_while is_id_char s)).
  { cbn [find]. unfold find_identifier. rewrite Hc. reflexivity. }
  destruct (find_lexeme _ _ _ F) as (rest & E & _). at_split E. rewrite at_slice. cbn [afterwards].
  rewrite advance_cost by discriminate. cbn [afterwards]. apply cost_token; [exact E | discriminate |]. rewrite amount_cons. lia.
Qed.

Lemma indirect_cost : forall file before s,
  cost_spec file before (c_ "[" :: s) 25 4 (consume_index_register_indirect_w (at_ file before (c_ "[" :: s))).
Proof.
  intros. unfold consume_index_register_indirect_w. rewrite at_rest. unfold steps. cbn [afterwards].
  destruct (starts_with (c_ "[" :: s) (u "[i]") || starts_with (c_ "[" :: s) (u "[I]")) eqn:F0.
  - assert (F : find KIndirect (c_ "[" :: s) = Some (firstn 3 (c_ "[" :: s)))
      by (cbn [find]; rewrite F0; reflexivity).
    destruct (find_lexeme _ _ _ F) as (rest & E & _).
    assert (Lm : byte_len (firstn 3 (c_ "[" :: s)) = 3).
    { change (u "[i]") with [91; 105; 93] in F0. change (u "[I]") with [91; 73; 93] in F0.
      cbn [starts_with] in F0. destruct s as [|a [|b s]];
        try (cbn [starts_with] in F0; lia).
      cbn [starts_with] in F0. assert (b = 93) by lia. subst b.
      assert (a < 128) by lia. cbn [firstn byte_len]. rewrite (ascii_len a) by assumption.
      reflexivity. }
    at_split E. rewrite <- Lm. rewrite at_slice. cbn [afterwards].
    rewrite advance_cost by discriminate. cbn [afterwards].
    apply cost_token; [exact E | discriminate | lia].
  - rewrite error_cost. apply cost_end; [apply jump_finished | lia].
Qed.

Lemma comment_bytes_cost : forall s, snd (comment_bytes_w s) = 1 + 2 * amount (take_while (fun c => negb (c =? newline)) s).
Proof.
  induction s as [|c s IH]; [reflexivity|]. cbn [comment_bytes_w take_while]. destruct (c =? newline); cbn [negb]; [reflexivity|].
  pose proof (comment_bytes_same s) as E. destruct (comment_bytes_w s) as [r n]. cbn [fst snd] in *. subst r. cbn [afterwards steps snd].
  rewrite amount_cons. lia.
Qed.

Lemma comment_cost : forall file before s,
  cost_spec file before (c_ ";" :: s) 20 4 (consume_single_line_comment_w (at_ file before (c_ ";" :: s))).
Proof.
  intros. unfold consume_single_line_comment_w, char_at_w, steps. rewrite at_char. cbn [afterwards]. rewrite N.eqb_refl. cbn [assert_ afterwards].
  rewrite at_rest. cbn [afterwards]. rewrite (surjective_pairing (comment_bytes_w _)), comment_bytes_same, comment_bytes_cost. cbn [afterwards].
  rewrite comment_bytes_spec. set (m := take_while (fun c => negb (c =? newline)) (c_ ";" :: s)).
  assert (F : find KComment (c_ ";" :: s) = Some m) by reflexivity.
  destruct (find_lexeme _ _ _ F) as (rest & E & L). at_split E.
  rewrite at_slice. cbn [afterwards]. rewrite advance_cost by (unfold m; discriminate). cbn [afterwards].
  apply cost_token; [exact E | unfold m; discriminate | lia].
Qed.

Lemma cost_more : forall file before s f e f' e' r, cost_spec file before s f e r -> f <= f' -> e <= e' -> cost_spec file before s f' e' r.
Proof.
  intros file before s f e f' e' r [m rest t n E Ne L|t sc n F L] Lf Le.
  - apply cost_token; [exact E | exact Ne |]. pose proof (N.mul_le_mono_r e e' (amount m) Le). lia.
  - apply cost_end; [exact F|]. pose proof (N.mul_le_mono_r e e' (amount s) Le). lia.
Qed.

Lemma token_cost : forall file before c s, cost_spec file before (c :: s) 38 4 (consume_token_at_w (at_ file before (c :: s)) c).
Proof.
  intros. unfold consume_token_at_w. unfold steps at 1. cbn [afterwards].
  assert (X : forall r, cost_spec file before (c :: s) 25 4 r ->
    cost_spec file before (c :: s) 38 4 (let (r, n') := r in (r, 13 + n'))).
  { intros r [m rest t n E Ne L|t sc n F L]; [apply cost_token | apply cost_end]; try assumption; lia. }
  apply X. clear X.
  assert (M : forall t, cost_spec file before (c :: s) 25 4 (consume_mark_w c t (at_ file before (c :: s)))).
  { intros t. eapply cost_more; [apply mark_cost | lia | lia]. }
  destruct (c =? c_ ";") eqn:E1; [apply N.eqb_eq in E1; subst c; eapply cost_more; [apply comment_cost | lia | lia]|].
  destruct (c =? c_ ".") eqn:E2; [apply N.eqb_eq in E2; subst c; apply M|].
  destruct (c =? c_ ":") eqn:E3; [apply N.eqb_eq in E3; subst c; apply M|].
  destruct (c =? c_ ",") eqn:E4; [apply N.eqb_eq in E4; subst c; apply M|].
  destruct (c =? 34) eqn:E5; [apply N.eqb_eq in E5; subst c; eapply cost_more; [apply string_cost | lia | lia]|].
  destruct (c =? c_ "$") eqn:E6; [eapply cost_more; [apply hex_cost; rewrite E6; reflexivity | lia | lia]|].
  destruct (c =? c_ "#") eqn:E7; [eapply cost_more; [apply hex_cost; rewrite E7; apply orb_true_r | lia | lia]|].
  destruct (c =? c_ "%") eqn:E8; [apply N.eqb_eq in E8; subst c; eapply cost_more; [apply bin_cost | lia | lia]|].
  destruct (c =? c_ "[") eqn:E9; [apply N.eqb_eq in E9; subst c; apply indirect_cost|].
  destruct (is_digit c) eqn:E10; [eapply cost_more; [apply decimal_cost; exact E10 | lia | lia]|].
  destruct (is_id_start c) eqn:E11; [eapply cost_more; [apply identifier_cost; exact E11 | lia | lia]|].
  destruct (c =? newline) eqn:E12; [apply N.eqb_eq in E12; subst c; apply M|].
  rewrite error_cost. apply cost_end; [apply jump_finished | lia].
Qed.

Lemma whitespace_cost : forall file before s, exists w s', s = w ++ s' /\ exists n, consume_whitespace_w (at_ file before s) = (Done (at_ file (before ++ w) s'), n) /\ n <= 10 + 3 * amount w.
Proof.
  intros file before s. unfold consume_whitespace_w. rewrite at_rest. unfold steps. cbn [afterwards]. unfold find_whitespace, look_whitespace.
  destruct (take_while_split (fun c => is_whitespace c && negb (c =? newline)) s) as (s' & E & _).
  exists (take_while (fun c => is_whitespace c && negb (c =? newline)) s), s'. split; [exact E|].
  destruct (take_while (fun c => is_whitespace c && negb (c =? newline)) s) as [|c w] eqn:T; cbn [non_empty].
  - cbn [app] in E. subst s'. eexists. rewrite app_nil_r. split; [reflexivity|]. unfold amount. cbn [length]. lia.
  - eexists. rewrite E. rewrite advance_cost by discriminate. cbn [afterwards]. split; [reflexivity | lia].
Qed.

Lemma finished_cost : forall sc, finished sc -> next_token_w sc = (Done (None, sc), 5).
Proof.
  intros sc F. rewrite (surjective_pairing (next_token_w _)), next_same, next_finished by exact F. f_equal.
  unfold next_token_w, consume_whitespace_w, rest_of_input. rewrite F, drop_all. unfold steps. cbn [afterwards find_whitespace take_while non_empty].
  unfold is_at_end. rewrite F, N.leb_refl. reflexivity.
Qed.

Lemma next_cost : forall file before s, exists n,
  (exists sc, next_token_w (at_ file before s) = (Done (None, sc), n) /\ n <= 12 + 3 * amount s) \/
  exists t, (exists m rest, s = m ++ rest /\ m <> [] /\ next_token_w (at_ file before s) = (Done (Some t, at_ file (before ++ m) rest), n) /\
               n <= 53 + 4 * amount m) \/
            (exists sc, s <> [] /\ finished sc /\ next_token_w (at_ file before s) = (Done (Some t, sc), n) /\ n <= 53 + 4 * amount s).
Proof.
  intros file before s. unfold next_token_w. destruct (whitespace_cost file before s) as (w & s' & E & n & -> & L).
  unfold steps. cbn [afterwards]. rewrite at_end. destruct s' as [|c s'].
  - cbn [afterwards]. eexists. left. eexists. split; [reflexivity|]. rewrite E, amount_app. unfold amount at 2. cbn [length]. lia.
  - unfold char_at_w. rewrite at_char. unfold steps. cbn [afterwards].
    pose proof (token_cost file (before ++ w) c s') as T. remember (consume_token_at_w (at_ file (before ++ w) (c :: s')) c) as r.
    destruct T as [m rest t n' Em Ne L'|t sc n' F L']; cbn [afterwards].
    + eexists. right. exists t. left. exists (w ++ m), rest. rewrite E, Em, app_assoc. split; [reflexivity|]. split; [destruct w; [exact Ne | discriminate]|].
      rewrite app_assoc. split; [reflexivity|]. rewrite amount_app. lia.
    + eexists. right. exists t. right. exists sc. split; [rewrite E; destruct w; discriminate|]. split; [exact F|]. split; [reflexivity|].
      rewrite E, amount_app. lia.
Qed.

Theorem scan_cost : forall file s, snd (scan_w file s) <= 20 + 60 * amount s.
Proof.
  intros file s. unfold scan_w. rewrite at_new.
  assert (H : forall n before s, (length s < n)%nat -> snd (scan_fuel_w n (at_ file before s)) <= 20 + 60 * amount s).
  { induction n as [|n IH]; intros before t L; [lia|]. cbn [scan_fuel_w].
    destruct (next_cost file before t) as (k & [(sc & -> & Lk) | (tk & [(m & rest & E & Ne & -> & Lk) | (sc & Ne & F & -> & Lk)])]);
      unfold steps; cbn [afterwards].
    - cbn [snd]. lia.
    - subst t. assert (0 < length m)%nat by (destruct m; [contradiction | cbn; lia]). rewrite app_length in L.
      specialize (IH (before ++ m) rest ltac:(lia)). rewrite amount_app.
      assert (1 <= amount m) by (unfold amount; lia).
      destruct (scan_fuel_w n (at_ file (before ++ m) rest)) as [[ts|c] k']; cbn [afterwards snd] in *; lia.
    - assert (1 <= amount t) by (unfold amount; destruct t; [contradiction | cbn; lia]).
      destruct n as [|n]; [destruct t; [contradiction | cbn in L; lia]|]. cbn [scan_fuel_w]. rewrite finished_cost by exact F. unfold steps. cbn [afterwards snd]. lia. }
  apply H. lia.
Qed.

(** ** Parsing takes a number of steps for each token and for each character of a name *)

Definition load (t : token) : N :=
  1 + match t with Identifier id _ => amount id | StringLiteral s _ => amount (utf8 s) | _ => 0 end.
Definition loads (ts : list token) : N := sums (map load ts).

Lemma loads_cons : forall t ts, loads (t :: ts) = load t + loads ts.
Proof. reflexivity. Qed.

Lemma load_positive : forall t, 1 <= load t.
Proof. intros. unfold load. lia. Qed.

(** At most [c] steps and forty for everything that has been consumed. *)
Definition paid {A : Type} (c d : N) (ts : list token) (r : work_presult A) : Prop :=
  match r with
  | (Done (Ok (_, p)), n) => exists rest, p = parser_new rest /\ n + 40 * loads rest <= c + 40 * loads ts
  | (_, n) => n <= d + 40 * loads ts
  end.

Lemma literals_cost : forall fuel ts acc, paid 12 12 ts (parse_literal_list_w fuel (parser_new ts) acc).
Proof.
  induction fuel as [|fuel IH]; intros ts acc; [cbn [parse_literal_list_w steps paid]; lia|]. cbn [parse_literal_list_w]. rewrite current_new.
  assert (G : paid 12 12 ts (try+ (lit, p) := parse_literal_w (parser_new ts) in
          match p_current p with
          | Some (Comma _) => let+ p := steps 5 (Done (snd (consume_token p))) in parse_literal_list_w fuel p (acc ++ [lit])
          | _ => steps 4 (Done (Ok (acc ++ [lit], p)))
          end)).
  { unfold parse_literal_w, parse_literal. rewrite current_new. destruct ts as [|t ts]; [cbn [hd_error steps try_w afterwards paid]; lia|].
    assert (K : forall lit, paid 12 12 (t :: ts) (let+ (lit, p) := steps 5 (Done (lit, parser_new ts)) in
          match p_current p with
          | Some (Comma _) => let+ p := steps 5 (Done (snd (consume_token p))) in parse_literal_list_w fuel p (acc ++ [lit])
          | _ => steps 4 (Done (Ok (acc ++ [lit], p)))
          end)).
    { intros lit. cbn [afterwards steps]. rewrite current_new. pose proof (load_positive t).
      assert (D : paid 12 12 (t :: ts) (Done (Ok (acc ++ [lit], parser_new ts)), 5 + 4)) by (exists ts; split; [reflexivity | rewrite loads_cons; lia]).
      destruct ts as [|t' ts]; [exact D|]. cbn [hd_error]. destruct t'; try exact D. rewrite consume_new. cbn [snd afterwards].
      specialize (IH ts (acc ++ [lit])). destruct (parse_literal_list_w fuel (parser_new ts) (acc ++ [lit])) as [[[[b q]|e]|w] n']; cbn [paid] in *.
      - destruct IH as (r & -> & L). exists r. split; [reflexivity|]. rewrite !loads_cons. lia.
      - rewrite !loads_cons. lia.
      - rewrite !loads_cons. lia. }
    unfold try_w. cbn [hd_error]. destruct t; try (rewrite consume_new; exact (K _)); cbn [steps afterwards paid]; rewrite ?loads_cons; lia. }
  destruct (hd_error ts) as [t|] eqn:E; [|exact G]. destruct t; try exact G. cbn [steps paid]. exists ts. split; [reflexivity | lia].
Qed.

Lemma field_list_cost : forall fuel ts acc, paid 12 40 ts (parse_field_list_w fuel (parser_new ts) acc).
Proof.
  induction fuel as [|fuel IH]; intros ts acc; [cbn [parse_field_list_w steps paid]; lia|]. cbn [parse_field_list_w]. rewrite current_new.
  assert (G : paid 12 40 ts (try+ (f, p) := parse_field_w (parser_new ts) in
          match p_current p with
          | Some (Comma _) => let+ p := steps 5 (Done (snd (consume_token p))) in parse_field_list_w fuel p (acc ++ [f])
          | _ => steps 5 (Done (Ok (acc ++ [f], p)))
          end)).
  { unfold parse_field_w. rewrite current_new. destruct ts as [|t ts]; [cbn [hd_error steps try_w afterwards paid]; lia|].
    assert (K : forall f k, k <= 23 + load t -> paid 12 40 (t :: ts) (let+ (f, p) := steps k (Done (f, parser_new ts)) in
          match p_current p with
          | Some (Comma _) => let+ p := steps 5 (Done (snd (consume_token p))) in parse_field_list_w fuel p (acc ++ [f])
          | _ => steps 5 (Done (Ok (acc ++ [f], p)))
          end)).
    { intros f k Lk. cbn [afterwards steps]. rewrite current_new. pose proof (load_positive t).
      assert (D : paid 12 40 (t :: ts) (Done (Ok (acc ++ [f], parser_new ts)), k + 5)) by (exists ts; split; [reflexivity | rewrite loads_cons; lia]).
      destruct ts as [|t' ts]; [exact D|]. cbn [hd_error]. destruct t'; try exact D. rewrite consume_new. cbn [snd afterwards].
      specialize (IH ts (acc ++ [f])). destruct (parse_field_list_w fuel (parser_new ts) (acc ++ [f])) as [[[[b q]|e]|w] n']; cbn [paid] in *.
      - destruct IH as (r & -> & L). exists r. split; [reflexivity|]. rewrite !loads_cons. lia.
      - rewrite !loads_cons. lia.
      - rewrite !loads_cons. lia. }
    unfold try_w. cbn [hd_error]. destruct t; try (cbn [steps afterwards paid]; rewrite ?loads_cons; lia).
    - unfold identifier_field_w, steps. rewrite identifier_field_operand, consume_new. cbn [afterwards snd].
      apply (K (operand _) (18 + amount _ + 5)). unfold load. lia.
    - rewrite consume_new. cbn [snd]. apply (K _ 5). lia. }
  destruct (hd_error ts) as [t|] eqn:E; [|exact G]. destruct t; try exact G; cbn [steps paid]; exists ts; (split; [reflexivity | lia]).
Qed.

Lemma identifier_cost_p : forall ts,
  match parse_identifier_w (parser_new ts) with
  | (Done (Ok (_, p)), n) => exists rest, p = parser_new rest /\ n + 36 + 40 * loads rest <= 40 * loads ts
  | (_, n) => n <= 4
  end.
Proof.
  intros [|t ts]; unfold parse_identifier_w, parse_identifier; [rewrite consume_new_nil; unfold steps; lia|]. rewrite consume_new. unfold steps.
  destruct t; try lia. exists ts. split; [reflexivity|]. rewrite loads_cons. unfold load. lia.
Qed.

Lemma statement_cost : forall fuel ts,
  match parse_statement_w fuel (parser_new ts) with
  | (Done (Ok (_, p)), n) => exists rest, p = parser_new rest /\ n + 5 + 40 * loads rest <= 40 * loads ts
  | (_, n) => n <= 50 + 40 * loads ts
  end.
Proof.
  intros fuel ts. unfold parse_statement_w. cbn [afterwards steps]. rewrite current_new, next_new.
  assert (I : match parse_instruction_w fuel (parser_new ts) with
    | (Done (Ok (_, p)), n) => exists rest, p = parser_new rest /\ n + 9 + 40 * loads rest <= 40 * loads ts
    | (_, n) => n <= 46 + 40 * loads ts end).
  { unfold parse_instruction_w, try_w. pose proof (identifier_cost_p ts) as C.
    destruct (parse_identifier_w (parser_new ts)) as [[[[[m l] p]|e]|w] n]; cbn [afterwards steps] in *; [|lia|lia].
    destruct C as (rest & -> & C). pose proof (field_list_cost fuel rest []) as F.
    destruct (parse_field_list_w fuel (parser_new rest) []) as [[[[fs p]|e]|w] n']; cbn [afterwards steps paid] in *; [|lia|lia].
    destruct F as (r & -> & F). exists r. split; [reflexivity | lia]. }
  assert (J : forall l ts', ts = DirectiveMarker l :: ts' -> match parse_directive_w fuel (parser_new ts) with
    | (Done (Ok (_, p)), n) => exists rest, p = parser_new rest /\ n + 9 + 40 * loads rest <= 40 * loads ts
    | (_, n) => n <= 46 + 40 * loads ts end).
  { intros l ts' ->. unfold parse_directive_w, try_w. rewrite consume_new, loads_cons. cbn [afterwards steps]. pose proof (identifier_cost_p ts') as C.
    destruct (parse_identifier_w (parser_new ts')) as [[[[[m l'] p]|e]|w] n]; cbn [afterwards steps] in *; [|lia|lia].
    destruct C as (rest & -> & C). pose proof (literals_cost fuel rest []) as F.
    destruct (parse_literal_list_w fuel (parser_new rest) []) as [[[[fs p]|e]|w] n']; cbn [afterwards steps paid] in *; [|lia|lia].
    destruct F as (r & -> & F). exists r. split; [reflexivity | lia]. }
  assert (L : match parse_label_w (parser_new ts) with
    | (Done (Ok (_, p)), n) => exists rest, p = parser_new rest /\ n + 9 + 40 * loads rest <= 40 * loads ts
    | (_, n) => n <= 46 + 40 * loads ts end).
  { unfold parse_label_w, try_w. pose proof (identifier_cost_p ts) as C.
    destruct (parse_identifier_w (parser_new ts)) as [[[[[m l] p]|e]|w] n]; cbn [afterwards steps] in *; [|lia|lia].
    destruct C as (rest & -> & C). destruct rest as [|t rest]; [rewrite consume_new_nil; cbn [afterwards steps]; lia|]. rewrite consume_new.
    destruct t; cbn [afterwards steps]; try lia. rewrite loads_cons in C. exists rest. split; [reflexivity | lia]. }
  assert (M : forall (r : work_presult node), match r with
    | (Done (Ok (_, p)), n) => exists rest, p = parser_new rest /\ n + 9 + 40 * loads rest <= 40 * loads ts
    | (_, n) => n <= 46 + 40 * loads ts end ->
    match (let '(x, n') := r in (x, 4 + n')) with
    | (Done (Ok (_, p)), n) => exists rest, p = parser_new rest /\ n + 5 + 40 * loads rest <= 40 * loads ts
    | (_, n) => n <= 50 + 40 * loads ts end).
  { intros [[[[nd p]|e]|w] n] X; [|lia|lia]. destruct X as (r & -> & X). exists r. split; [reflexivity | lia]. }
  destruct ts as [|t ts]; [cbn [hd_error tl steps]; lia|]. cbn [hd_error tl].
  destruct t; cbn [steps]; try lia.
  - apply M. eapply J. reflexivity.
  - destruct ts as [|t' ts]; [apply M; exact I|]. cbn [hd_error]. destruct t'; apply M; first [exact I | exact L].
Qed.

Theorem parse_cost : forall ts, snd (parse_w ts) <= 65 + 40 * loads ts.
Proof.
  intros ts. unfold parse_w. cbn [afterwards steps].
  assert (H : forall fuel ts acc, snd (parse_statement_list_w fuel (parser_new ts) acc) <= 60 + 40 * loads ts).
  { clear ts. induction fuel as [|fuel IH]; intros ts acc; [cbn [parse_statement_list_w steps snd]; lia|].
    cbn [parse_statement_list_w]. rewrite current_new. destruct ts as [|t ts]; [cbn [hd_error steps snd]; lia|]. cbn [hd_error].
    assert (G : snd (let+ _ := steps 4 (Done tt) in try+ (nd, p) := parse_statement_w (S fuel) (parser_new (t :: ts)) in
                     parse_statement_list_w fuel p (acc ++ [nd])) <= 60 + 40 * loads (t :: ts)).
    { cbn [afterwards steps]. unfold try_w. pose proof (statement_cost (S fuel) (t :: ts)) as C.
      destruct (parse_statement_w (S fuel) (parser_new (t :: ts))) as [[[[nd p]|e]|w] n]; cbn [afterwards steps snd] in *; [|lia|lia].
      destruct C as (rest & -> & C). specialize (IH rest (acc ++ [nd])).
      destruct (parse_statement_list_w fuel (parser_new rest) (acc ++ [nd])) as [r k]. cbn [snd] in *. lia. }
    pose proof (load_positive t) as Lt. assert (G' : snd (let+ p := steps 5 (Done (snd (consume_token (parser_new (t :: ts))))) in parse_statement_list_w fuel p acc)
               <= 60 + 40 * loads (t :: ts)).
    { cbn [afterwards steps]. rewrite consume_new, loads_cons. cbn [snd]. specialize (IH ts acc).
      destruct (parse_statement_list_w fuel (parser_new ts) acc) as [r k]. cbn [snd] in *. lia. }
    destruct t; first [exact G | exact G']. }
  specialize (H (S (length ts)) ts []). destruct (parse_statement_list_w (S (length ts)) (parser_new ts) []) as [r k]. cbn [snd] in *. lia.
Qed.

(** ** Assembling takes a number of steps for each token and for each character of a name or a string *)

Definition literal_load (a : literal) : N := 1 + match a with LString s => amount (utf8 s) | LNumeric _ => 0 end.
Definition field_load (f : field) : N := 1 + match f with FIdentifier id => amount id | _ => 0 end.
Definition node_load (n : node) : N :=
  1 + match n with
      | NDirective _ id args => amount id + sums (map literal_load args)
      | NLabel _ id => amount id
      | NInstruction _ m fs => amount m + sums (map field_load fs)
      end.
Definition node_loads (p : list node) : N := sums (map node_load p).

Lemma literals_load : forall ts args rest, literals ts args rest -> sums (map literal_load args) + loads rest <= loads ts.
Proof.
  assert (H : forall t a, literal_token t a -> literal_load a <= load t) by (intros t a [s l|n l]; unfold literal_load, load; lia).
  induction 1 as [l rest|t a rest T|t a l ts args rest T L IH]; cbn [map sums]; rewrite ?loads_cons.
  - lia.
  - apply H in T. lia.
  - apply H in T. lia.
Qed.

Lemma operand_load : forall id, field_load (operand id) <= 1 + amount id.
Proof.
  intros id. unfold operand. destruct (assoc id (special_operands ++ register_operands)) as [f|] eqn:E; [|reflexivity].
  assert (X : forallb (fun x : str * field => field_load (snd x) <=? 1) (special_operands ++ register_operands) = true) by (vm_compute; reflexivity).
  revert E X. induction (special_operands ++ register_operands) as [|[k v] l IH]; [discriminate|]. cbn [assoc forallb snd].
  destruct (list_eq_dec N.eq_dec id k); intros E X; apply andb_true_iff in X; destruct X as [X Y]; [inversion E; subst; lia | auto].
Qed.

Lemma fields_load : forall ts fs rest, fields ts fs rest -> sums (map field_load fs) + loads rest <= loads ts.
Proof.
  assert (H : forall t a, field_token t a -> field_load a <= load t).
  { intros t a [n l|id l]; [unfold field_load, load; lia | apply operand_load]. }
  induction 1 as [l rest|c l rest|t a rest T|t a l ts args rest T L IH]; cbn [map sums]; rewrite ?loads_cons.
  - lia.
  - lia.
  - apply H in T. lia.
  - apply H in T. lia.
Qed.

Lemma program_load : forall ts p, program ts p -> node_loads p <= loads ts.
Proof.
  induction 1 as [|l ts ns P IH|c l ts ns P IH|l0 id l ts args rest ns L P IH|id l l1 ts ns P IH|id l ts args rest ns L P IH];
    rewrite ?loads_cons; unfold load; [reflexivity | lia | lia | | |];
    unfold node_loads; cbn [map sums]; fold (node_loads ns); unfold node_load.
  - apply literals_load in L. lia.
  - lia.
  - apply fields_load in L. lia.
Qed.

Lemma db_cost : forall args bytes, snd (db_bytes_w bytes args) <= 1 + 5 * sums (map literal_load args).
Proof.
  induction args as [|[s|v] args IH]; intros bytes; cbn [db_bytes_w map sums].
  - cbn [steps snd]. lia.
  - unfold literal_load at 1. cbn [afterwards steps].
    specialize (IH (bytes ++ utf8 s)). destruct (db_bytes_w (bytes ++ utf8 s) args) as [r n]. cbn [snd] in *. lia.
  - unfold literal_load at 1. destruct (255 <? v); [cbn [steps snd]; lia|]. cbn [afterwards steps].
    specialize (IH (bytes ++ [N.land v 255])). destruct (db_bytes_w (bytes ++ [N.land v 255]) args) as [r n]. cbn [snd] in *. lia.
Qed.

(** The bytes of a directive come from its arguments. *)
Lemma db_size : forall args bytes r, fst (db_bytes_w bytes args) = Done (Ok r) -> amount r <= amount bytes + sums (map literal_load args).
Proof.
  induction args as [|[s|v] args IH]; intros bytes r; cbn [db_bytes_w map sums].
  - cbn [steps fst]. intros E. inversion E; subst. lia.
  - unfold literal_load at 1. rewrite fst_afterwards. cbn [steps fst bind]. intros E. apply IH in E. rewrite amount_app in E. lia.
  - unfold literal_load at 1. destruct (255 <? v); [discriminate|]. rewrite fst_afterwards. cbn [steps fst bind]. intros E. apply IH in E.
    rewrite amount_app in E. change (amount [N.land v 255]) with 1 in E. lia.
Qed.

Lemma directive_cost : forall id args,
  snd (directive_from_w id args) <= 15 + 3 * amount id + 5 * sums (map literal_load args) /\
  forall d, directive_from id args = Ok d -> directive_size d <= sums (map literal_load args).
Proof.
  intros id args. split.
  - unfold directive_from_w. cbn [afterwards steps]. destruct (str_eqb (to_lowercase id) name_org); [cbn [steps snd]; lia|].
    destruct (str_eqb (to_lowercase id) name_db).
    + destruct args as [|a args]; [cbn [steps snd]; lia|]. unfold try_w. pose proof (db_cost (a :: args) []) as C.
      destruct (db_bytes_w [] (a :: args)) as [[[b|e]|w] n]; cbn [afterwards steps snd] in *; lia.
    + destruct (str_eqb (to_lowercase id) name_equ); cbn [steps snd]; lia.
  - intros d E. pose proof (directive_from_same id args) as D. rewrite E in D. unfold directive_from_w in D. rewrite fst_afterwards in D. cbn [steps fst bind] in D.
    destruct (str_eqb (to_lowercase id) name_org).
    { cbn [steps fst] in D. unfold one_numeric in D. destruct args as [|[s|v] [|b args]]; try discriminate D; destruct (v <=? 4095); inversion D; subst; cbn [directive_size]; lia. }
    destruct (str_eqb (to_lowercase id) name_db).
    + destruct args as [|a args]; [discriminate D|]. unfold try_w in D. rewrite fst_afterwards in D. pose proof (db_size (a :: args) []) as C.
      destruct (fst (db_bytes_w [] (a :: args))) as [[b|e]|w]; cbn [bind steps fst] in D; try discriminate D.
      specialize (C b eq_refl). inversion D; subst. cbn [directive_size]. unfold amount in C at 2. cbn [length] in C. unfold amount in C. lia.
    + destruct (str_eqb (to_lowercase id) name_equ); cbn [steps fst] in D; [|discriminate D].
      unfold one_numeric in D. destruct args as [|[s|v] [|b args]]; try discriminate D; destruct (v <=? 4095); inversion D; subst; cbn [directive_size]; lia.
Qed.

Lemma peek_cost : forall l, snd (peek_constant_w l) <= match l with NDirective _ _ _ as n :: _ => 17 * node_load n | _ => 1 end.
Proof.
  intros [|[l id args|l id|l m fs] rest]; cbn [peek_constant_w steps snd]; try lia. destruct (directive_cost id args) as [C _].
  destruct (directive_from_w id args) as [[r|w] n]; cbn [afterwards steps snd] in *; unfold node_load; lia.
Qed.

Lemma insert_cost : forall labels l id v, snd (insert_w labels l id v) <= 3 + 2 * amount id.
Proof. intros. unfold insert_w. cbn [afterwards steps]. destruct (contains_key labels id); cbn [steps snd]; lia. Qed.

Lemma define_cost : forall p labels a, snd (define_labels_loop_w labels a p) + snd (peek_constant_w p) <= 3 + 60 * node_loads p.
Proof.
  assert (H : forall n p, (length p <= n)%nat -> forall labels a, snd (define_labels_loop_w labels a p) + snd (peek_constant_w p) <= 3 + 60 * node_loads p);
    [|intros; eapply H; reflexivity].
  induction n as [|n IH]; intros [|[l id args|l id|l m fs] p] L labels a; cbn [length] in L; try lia;
    try (cbn [define_labels_loop_w peek_constant_w steps snd]; unfold node_loads; cbn [map sums]; lia); apply le_S_n in L;
    unfold node_loads; cbn [map sums]; fold (node_loads p).
  - pose proof (peek_cost (NDirective l id args :: p)) as P. cbn [define_labels_loop_w]. destruct (directive_cost id args) as [C D].
    pose proof (directive_from_same id args) as Sm. destruct (directive_from_w id args) as [r k]. cbn [fst snd] in *. subst r.
    cbn [afterwards]. unfold try_w. cbn [steps afterwards]. unfold node_load in *. destruct (directive_from id args) as [d|e]; cbn [map_err]; [|cbn [snd steps]; lia].
    specialize (D d eq_refl). cbn [afterwards]. destruct (u12_failable_into (directive_size d)) as [sz|]; cbn [ok_or]; unfold clone_work; [|cbn [snd steps]; lia].
    destruct (u12_checked_add a sz) as [ad|]; cbn [ok_or]; [|cbn [snd steps]; lia].
    destruct d as [o|b|c].
    + specialize (IH p L labels o). destruct (define_labels_loop_w labels o p) as [r k']. cbn [snd] in *. lia.
    + specialize (IH p L labels ad). destruct (define_labels_loop_w labels ad p) as [r k']. cbn [snd] in *. lia.
    + cbn [steps snd]. lia.
  - cbn [define_labels_loop_w]. cbn [afterwards steps]. pose proof (peek_cost p) as P.
    assert (IHp := IH p L). destruct (peek_constant_w p) as [[c|w] k] eqn:E; cbn [afterwards snd] in *; cbn [peek_constant_w steps snd]; unfold node_load at 1.
    2:{ specialize (IHp labels a). lia. }
    assert (K : snd (try+ labels := insert_w labels l id a in define_labels_loop_w labels a p) + k <= 10 + 2 * amount id + 60 * node_loads p).
    { unfold try_w. pose proof (insert_cost labels l id a) as I. destruct (insert_w labels l id a) as [[[lb|e]|w] k']; cbn [afterwards steps snd] in *.
      - specialize (IHp lb a). destruct (define_labels_loop_w lb a p) as [r k2]. cbn [snd] in *. lia.
      - specialize (IHp labels a). lia.
      - specialize (IHp labels a). lia. }
    destruct p as [|nd p]; [destruct (try+ labels := insert_w labels l id a in define_labels_loop_w labels a []) as [r k2]; cbn [snd] in *; lia|].
    destruct c as [c|].
    + cbn [length] in L. assert (L' : (length p <= n)%nat) by lia. pose proof (insert_cost labels l id c) as I.
      assert (k <= 17 * node_load nd) by (destruct nd; [exact P | unfold node_load; lia | unfold node_load; lia]).
      unfold try_w. unfold node_loads. cbn [map sums]. fold (node_loads p).
      destruct (insert_w labels l id c) as [[[lb|e]|w] k']; cbn [afterwards steps snd] in *; [|lia|lia].
      specialize (IH p L' lb a). destruct (define_labels_loop_w lb a p) as [r k2]. cbn [snd] in *. lia.
    + destruct (try+ labels := insert_w labels l id a in define_labels_loop_w labels a (nd :: p)) as [r k2]; cbn [snd] in *; lia.
  - cbn [define_labels_loop_w peek_constant_w]. unfold try_w. cbn [steps afterwards]. unfold node_load at 1.
    destruct (u12_checked_add a bytes_per_instruction) as [ad|]; cbn [ok_or snd steps]; [|lia].
    specialize (IH p L labels ad). destruct (define_labels_loop_w labels ad p) as [r k']. cbn [snd] in *. lia.
Qed.

Lemma sum_app : forall a b, sums (a ++ b) = sums a + sums b.
Proof. induction a as [|x a IH]; intros b; [reflexivity|]. cbn [app sums]. rewrite IH. lia. Qed.

Lemma field_text : forall f, field_ok f -> amount (field_fmt f) <= 30 * field_load f.
Proof.
  intros f Hf. unfold field_load. destruct f as [v|r| | | | | |id| |]; cbn [field_fmt]; try (vm_compute; discriminate).
  - rewrite amount_app. cbn [field_ok] in Hf. assert (X : (length (fmt_hex false v) <= 3)%nat) by (apply fmt_hex_length; [lia | change (16 ^ N.of_nat 3) with 4096; lia]).
    change (amount (u "literal:$")) with 9. unfold amount. lia.
  - rewrite amount_app. cbn [field_ok] in Hf. assert (X : (length (fmt_hex false r) <= 3)%nat) by (apply fmt_hex_length; [lia | change (16 ^ N.of_nat 3) with 4096; lia]).
    change (amount (u "register:")) with 9. unfold amount. lia.
  - rewrite amount_app. change (amount (u "identifier:")) with 11. lia.
Qed.

Lemma join_text : forall fs, Forall field_ok fs -> amount (join (u ", ") (map field_fmt fs)) <= 32 * sums (map field_load fs).
Proof.
  intros fs H. induction H as [|f fs Hf Hfs IH]; [cbn; lia|]. pose proof (field_text f Hf). cbn [map sums]. destruct fs as [|g fs].
  - cbn [map join sums]. lia.
  - change (join (u ", ") (field_fmt f :: map field_fmt (g :: fs))) with (field_fmt f ++ u ", " ++ join (u ", ") (map field_fmt (g :: fs))).
    rewrite !amount_app. change (amount (u ", ")) with 2. unfold field_load at 1. unfold field_load in H at 1. lia.
Qed.

Lemma instruction_cost : forall m fs labels, Forall field_ok fs ->
  snd (instruction_from_w m fs labels) <= 50 + 3 * amount m + 36 * sums (map field_load fs).
Proof.
  intros m fs labels H. unfold instruction_from_w, steps. cbn [snd].
  assert (W : sums (map field_work fs) <= 4 * sums (map field_load fs)).
  { clear H. induction fs as [|f fs IH]; [reflexivity|]. cbn [map sums]. assert (field_work f <= 4 * field_load f) by (destruct f; cbn [field_work]; unfold field_load; lia). lia. }
  pose proof (join_text fs H) as J. unfold instruction_from.
  match goal with |- context [rbind ?x _] => destruct x as [[o|]|e] eqn:E end; cbn [rbind ok_or]; cbv beta iota.
  - lia.
  - destruct fs as [|f fs]; lia.
  - assert (X : forall m' d, e <> NoMatchingFormat m' d).
    { intros m' d ->. revert E. destruct fs as [|f [|g [|h [|k fs]]]]; try discriminate; [apply opcode_1_kind | apply opcode_2_kind | apply opcode_3_kind]. }
    destruct e; try lia. exfalso. eapply X. reflexivity.
Qed.

Lemma append_cost : forall r bytes, snd (append_asserted_w r bytes) = 8 + amount bytes.
Proof. reflexivity. Qed.

Lemma into_vec_two : forall o bytes, instruction_into_vec o = Done bytes -> amount bytes = 2.
Proof. intros o bytes. unfold instruction_into_vec. destruct (as_instruction o) as [w|c]; [|discriminate]. cbn [bind]. intros E. inversion E. reflexivity. Qed.

Lemma emit_cost : forall p, Forall node_ok p -> forall labels rs cur, snd (emit_loop_w labels rs cur p) <= 4 + 120 * node_loads p.
Proof.
  intros p H. induction H as [|nd p Hn Hp IH]; intros labels rs cur; [cbn [emit_loop_w steps snd]; lia|].
  unfold node_loads. cbn [map sums]. fold (node_loads p). destruct nd as [l id args|l id|l m fs]; unfold node_load; cbn [emit_loop_w].
  - destruct (directive_cost id args) as [C D]. pose proof (directive_from_same id args) as Sm.
    destruct (directive_from_w id args) as [r k]. cbn [fst snd] in *. subst r. cbn [afterwards].
    destruct (directive_from id args) as [d|e]; [|cbn [steps snd]; lia]. specialize (D d eq_refl).
    assert (X : amount (directive_into_vec d) = directive_size d) by (destruct d; reflexivity).
    assert (G : snd (let+ current := append_asserted_w cur (directive_into_vec d) in emit_loop_w labels rs current p) <= 12 + sums (map literal_load args) + 120 * node_loads p).
    { unfold append_asserted_w, steps. destruct (append_asserted cur (directive_into_vec d)) as [c|w]; cbn [afterwards snd]; [|lia].
      specialize (IH labels rs c). destruct (emit_loop_w labels rs c p) as [r k']. cbn [snd] in *. lia. }
    destruct d as [o|b|c].
    + cbn [afterwards steps]. specialize (IH labels (push_range rs cur) (range_new o)).
      destruct (emit_loop_w labels (push_range rs cur) (range_new o) p) as [r k']. cbn [snd] in *. lia.
    + destruct (let+ current := append_asserted_w cur (directive_into_vec (Db b)) in emit_loop_w labels rs current p) as [r k']. cbn [snd] in *. lia.
    + destruct (let+ current := append_asserted_w cur (directive_into_vec (Equ c)) in emit_loop_w labels rs current p) as [r k']. cbn [snd] in *. lia.
  - cbn [afterwards steps]. specialize (IH labels rs cur). destruct (emit_loop_w labels rs cur p) as [r k']. cbn [snd] in *. lia.
  - destruct Hn as [_ Hf]. pose proof (instruction_cost m fs labels Hf) as C. unfold instruction_from_w, steps in *. cbn [afterwards snd] in *.
    destruct (instruction_from m fs labels) as [o|e]; [|cbn [snd]; destruct e as [| | |m' [d|]]; cbn [snd] in *; lia].
    unfold instruction_into_vec_w, steps. destruct (instruction_into_vec o) as [b|w] eqn:V; cbn [afterwards snd]; [|lia].
    apply into_vec_two in V. unfold append_asserted_w, steps. destruct (append_asserted cur b) as [c|w]; cbn [afterwards snd]; [|lia].
    specialize (IH labels rs c). destruct (emit_loop_w labels rs c p) as [r k']. cbn [snd] in *. lia.
Qed.

Theorem assemble_cost : forall p, Forall node_ok p -> snd (assemble_w p) <= 8 + 180 * node_loads p.
Proof.
  intros p H. unfold assemble_w, try_w. pose proof (define_cost p [] 0) as D.
  destruct (define_labels_loop_w [] 0 p) as [[[lb|e]|w] k]; cbn [afterwards steps snd] in *; [|lia|lia].
  pose proof (emit_cost p H lb [] (range_new 0)) as E. destruct (emit_loop_w lb [] (range_new 0) p) as [r k']. cbn [snd] in *. lia.
Qed.

(** ** Comparing blocks takes a number of steps for each pair *)

Lemma compare_cost : forall rest lhs, 8 * amount rest <= snd (compare_w lhs rest) /\ snd (compare_w lhs rest) <= 1 + 9 * amount rest.
Proof.
  induction rest as [|r rest IH]; intros lhs; [cbn; lia|]. cbn [compare_w]. rewrite amount_cons. cbn [afterwards steps].
  specialize (IH lhs). pose proof (compare_same rest lhs) as Sm. destruct (compare_w lhs rest) as [x k]. cbn [fst snd] in *. subst x. cbn [afterwards].
  destruct (intersects lhs r); cbn [steps snd]; lia.
Qed.

Lemma overlapping_cost : forall rs,
  4 * amount rs * (amount rs - 1) <= snd (find_overlapping_ranges_w rs) /\ snd (find_overlapping_ranges_w rs) <= 1 + 5 * amount rs * amount rs.
Proof.
  induction rs as [|r rs IH]; [cbn; lia|]. cbn [find_overlapping_ranges_w]. rewrite amount_cons. pose proof (compare_cost rs r) as C.
  pose proof (compare_same rs r) as Sm. destruct (compare_w r rs) as [x k]. cbn [fst snd] in *. subst x. cbn [afterwards].
  pose proof (overlapping_same rs) as Sm. destruct (find_overlapping_ranges_w rs) as [x k']. cbn [fst snd] in *. subst x. cbn [afterwards steps snd].
  replace (1 + amount rs - 1) with (amount rs) by lia. split.
  - destruct (N.eq_dec (amount rs) 0) as [->|]; [lia|]. assert (exists q, amount rs = 1 + q) as [q Q] by (exists (amount rs - 1); lia). rewrite Q in *.
    replace (1 + q - 1) with q in IH by lia. nia.
  - nia.
Qed.

Lemma report_cost : forall e l, snd (overlap_report_w e l) <= 1 + 10 * amount l.
Proof.
  induction l as [|[a b] l IH]; [cbn; lia|]. cbn [overlap_report_w]. rewrite amount_cons. unfold steps at 1.
  destruct (range_fmt a) as [sa|w]; cbn [afterwards snd]; [|lia]. unfold steps at 1. destruct (range_fmt b) as [sb|w]; cbn [afterwards snd]; [|lia].
  destruct (overlap_report_w e l) as [[r|w] k]; cbn [afterwards steps snd] in *; lia.
Qed.

(** ** Writing takes a number of steps for each byte *)

Lemma records_cost : forall cs a, snd (data_records_w a cs) <= 1 + sums (map (fun c => 8 + amount c) cs).
Proof.
  induction cs as [|c cs IH]; intros a; cbn [data_records_w map sums steps snd]; [lia|]. unfold steps at 1.
  destruct (a + amount c <? 65536); cbn [afterwards snd]; [|lia]. specialize (IH (a + amount c)).
  destruct (data_records_w (a + amount c) cs) as [[r|w] k]; cbn [afterwards steps snd] in *; lia.
Qed.

Lemma records_amount : forall cs a r, data_records a cs = Done r -> amount r = amount cs.
Proof.
  induction cs as [|c cs IH]; intros a r; cbn [data_records].
  - intros E. inversion E. reflexivity.
  - destruct (a + N.of_nat (length c) <? 65536); [|discriminate]. destruct (data_records (a + N.of_nat (length c)) cs) as [r'|w] eqn:E; [|discriminate].
    cbn [bind]. intros X. inversion X; subst. rewrite !amount_cons. f_equal. eapply IH. exact E.
Qed.

Lemma chunks_sum : forall l, sums (map (fun c => 8 + amount c) (chunks 16 l)) <= 9 * amount l /\ amount (chunks 16 l) <= amount l.
Proof.
  assert (H : forall n l, (length l <= n)%nat -> sums (map (fun c => 8 + amount c) (chunks 16 l)) <= 9 * amount l /\ amount (chunks 16 l) <= amount l);
    [|intros; eapply H; reflexivity].
  induction n as [|n IH]; intros [|b l] L; cbn [length] in L; try lia; try (vm_compute; split; discriminate).
  rewrite chunks_step by discriminate. cbn [map sums]. rewrite (amount_cons _ (firstn 16 (b :: l))).
  assert (X : amount (b :: l) = amount (firstn 16 (b :: l)) + amount (skipn 16 (b :: l))) by (rewrite <- amount_app, firstn_skipn; reflexivity).
  assert (Y : 1 <= amount (firstn 16 (b :: l))) by (cbn [firstn]; rewrite amount_cons; lia).
  assert (Z : (length (skipn 16 (b :: l)) <= n)%nat) by (rewrite skipn_length; cbn [length]; lia).
  destruct (IH _ Z) as [I J]. lia.
Qed.

Lemma range_records_cost : forall rs, snd (range_records_w rs) <= 1 + 5 * amount rs + 10 * bytes_in rs /\
  forall records, range_records rs = Done records -> amount records <= bytes_in rs.
Proof.
  induction rs as [|r rs [IH IHr]].
  - split; [cbn; lia|]. cbn [range_records]. intros x E. inversion E. reflexivity.
  - cbn [range_records_w range_records bytes_in]. rewrite amount_cons. destruct (chunks_sum (dr_data r)) as [C D]. fold (amount (dr_data r)).
    pose proof (records_cost (chunks 16 (dr_data r)) (fst (address_range r))) as R.
    pose proof (records_same (chunks 16 (dr_data r)) (fst (address_range r))) as Sm.
    pose proof (records_amount (chunks 16 (dr_data r)) (fst (address_range r))) as A.
    destruct (data_records_w (fst (address_range r)) (chunks 16 (dr_data r))) as [x k]. cbn [fst snd] in *. rewrite <- Sm in *.
    destruct x as [a|w]; cbn [afterwards bind steps snd]; [|split; [lia | discriminate]]. specialize (A a eq_refl).
    pose proof (range_records_same rs) as Sm'. destruct (range_records_w rs) as [x k']. cbn [fst snd] in *. rewrite <- Sm' in *.
    destruct x as [b|w]; cbn [afterwards bind steps snd]; [|split; [lia | discriminate]]. specialize (IHr b eq_refl).
    split; [lia|]. intros records E. inversion E; subst. rewrite amount_app. lia.
Qed.

Lemma ihex_cost : forall rs, Forall writable rs -> find_overlapping_ranges rs = [] ->
  snd (ihex_representation_w rs) <= 40 + 5 * amount rs * amount rs + 5 * amount rs + 40 * bytes_in rs.
Proof.
  intros rs W O. destruct (ihex_loads rs W O) as (text & I & _). pose proof (ihex_length rs text W I) as Ln. pose proof (records_bytes rs) as Rb.
  revert I. unfold ihex_representation, ihex_representation_w. destruct (overlapping_cost rs) as [_ C]. pose proof (overlapping_same rs) as Sm.
  destruct (find_overlapping_ranges_w rs) as [x k]. cbn [fst snd] in *. subst x. rewrite O. cbn [length Nat.eqb assert_ bind afterwards steps].
  destruct (range_records_cost rs) as [R A]. pose proof (range_records_same rs) as Sm. destruct (range_records_w rs) as [x k']. cbn [fst snd] in *. rewrite <- Sm in *.
  destruct x as [records|w]; cbn [afterwards bind snd]; [|discriminate]. specialize (A records eq_refl). intros I.
  destruct (create_object_file (records ++ [REndOfFile])) as [s|]; cbn [unwrap bind] in I; [|discriminate I]. injection I as <-.
  rewrite app_length in Ln. cbn [length] in Ln. cbn [unwrap afterwards snd]. unfold amount in *. lia.
Qed.

(** ** The whole text *)

Lemma loads_weights : forall ts, loads ts <= weights ts + amount ts.
Proof.
  induction ts as [|t ts IH]; [reflexivity|]. rewrite loads_cons, amount_cons. cbn [weights].
  enough (load t <= weight t + 1) by lia. destruct t; unfold load, amount; cbn [weight]; lia.
Qed.

Theorem text_cost : forall e file s, Forall scalar s -> exists r,
  snd (assemble_text_w e file s) <= 150 + 620 * amount (utf8 s) + 10 * r * r /\ r <= amount (utf8 s) /\
  (r <> 0 -> exists ts p rs, scan file s = Done ts /\ parse ts = Done (Ok p) /\ assemble p = Done (Ok rs) /\ r = amount rs).
Proof.
  intros e file s Sc. destruct (scan_total file s) as (ts & Es). pose proof (proj1 (scan_lexes _ _ _) Es) as Lx.
  pose proof (scan_cost file s) as Cs. pose proof (parse_cost ts) as Cp. pose proof (utf8_long s) as U.
  pose proof (lexes_weight _ _ _ _ Lx) as Wt. pose proof (lexes_count _ _ _ _ Lx) as Ct. pose proof (loads_weights ts) as Lw.
  assert (Ls : loads ts <= 2 * amount (utf8 s)) by (unfold amount in *; lia). assert (Us : amount s <= amount (utf8 s)) by exact U. clear Lw Wt Ct U.
  unfold assemble_text_w. pose proof (scan_same file s) as Sm. rewrite Es in Sm. destruct (scan_w file s) as [x k1]. cbn [fst snd] in *. subst x. cbn [afterwards].
  pose proof (parse_same_w ts) as Sm. destruct (parse_w ts) as [x k2]. cbn [fst snd] in *. subst x.
  destruct (parse ts) as [[p|m]|w] eqn:Ep; cbn [afterwards].
  2:{ exists 0. split; [|split; [lia | intros X; contradiction X; reflexivity]]. unfold steps at 1.
      destruct (parse_error_fmt m) as [t|w]; cbn [afterwards steps snd]; lia. }
  2:{ exists 0. split; [|split; [lia | intros X; contradiction X; reflexivity]]. cbn [snd]. lia. }
  pose proof (parsed_node_ok _ _ _ _ Es Ep) as F. pose proof (proj1 (parse_program _ _) Ep) as Pg. pose proof (program_load _ _ Pg) as Pl.
  pose proof (assemble_cost p F) as Ca. pose proof (assemble_same p) as Sm. destruct (assemble_w p) as [x k3]. cbn [fst snd] in *. subst x.
  destruct (assemble p) as [[rs|m]|w] eqn:Ea; cbn [afterwards].
  2:{ exists 0. split; [|split; [lia | intros X; contradiction X; reflexivity]]. cbn [steps snd]. lia. }
  2:{ exists 0. split; [|split; [lia | intros X; contradiction X; reflexivity]]. cbn [snd]. lia. }
  pose proof Ea as Ea'. apply (assemble_ok _ _ F) in Ea'. destruct Ea' as [W O].
  assert (Nb : amount rs <= bytes_in rs) by (apply nonempty_count; destruct (memory_image p rs W O) as (_ & _ & _ & Ne); exact Ne).
  assert (Bb : bytes_in rs <= amount (utf8 s)).
  { pose proof (output_bulk p rs W O). apply program_weight in Pg. apply lexes_weight in Lx. unfold amount. lia. }
  exists (amount rs). split; [|split; [lia | intros _; exists ts, p, rs; auto]].
  pose proof (overlapping_cost rs) as [_ Co]. pose proof (overlapping_same rs) as Sm. destruct (find_overlapping_ranges_w rs) as [x k4]. cbn [fst snd] in *. subst x. cbn [afterwards].
  destruct (Nat.ltb 0 (length (find_overlapping_ranges rs))) eqn:Lt.
  - pose proof (report_cost e (find_overlapping_ranges rs)) as R. pose proof (overlaps_count rs) as Oc.
    assert (Pr : 10 * amount (find_overlapping_ranges rs) <= 5 * amount rs * amount rs) by (unfold amount; nia). clear Oc.
    destruct (overlap_report_w e (find_overlapping_ranges rs)) as [[t|w] k5]; cbn [afterwards steps snd] in *; lia.
  - assert (N0 : find_overlapping_ranges rs = []) by (destruct (find_overlapping_ranges rs); [reflexivity | discriminate Lt]).
    pose proof (program_scalar ts p Pg (lexes_scalar _ _ _ _ Lx Sc)) as Fs.
    pose proof (ihex_cost rs (output_writable p rs F Fs W O) N0) as Ci.
    destruct (ihex_representation_w rs) as [[t|w] k5]; cbn [afterwards steps snd] in *; lia.
Qed.

(** ** What the searches look at *)

Lemma take_while_all : forall p (s : str), take_while p s = s <-> forallb p s = true.
Proof.
  induction s as [|c s IH]; [split; reflexivity|]. cbn [take_while forallb]. destruct (p c); cbn [andb]; [|split; discriminate].
  rewrite <- IH. split; [intros X; inversion X as [Y]; rewrite Y; exact Y | intros ->; reflexivity].
Qed.

Lemma take_while_firstn : forall p (s : str) k, (k <= length s)%nat -> (forallb p (firstn k s) = true <-> (k <= length (take_while p s))%nat).
Proof.
  induction s as [|c s IH]; intros [|k] L; cbn [length firstn forallb take_while] in *; try (split; [lia | reflexivity]).
  destruct (p c); cbn [andb length]; [|split; [discriminate | lia]]. rewrite IH by lia. lia.
Qed.

Lemma take_max_firstn : forall p n (s : str) k, (k <= length s)%nat ->
  (forallb p (firstn k s) = true /\ (k <= n)%nat <-> (k <= length (take_while_max n p s))%nat).
Proof.
  induction n as [|n IH]; intros s k L.
  - cbn [take_while_max length]. split; [lia|]. intros H. destruct k; [split; reflexivity | lia].
  - destruct s as [|c s]; [cbn [length take_while_max] in *; destruct k; [cbn; split; [lia | split; [reflexivity | lia]] | lia]|]. destruct k as [|k]; cbn [length firstn forallb take_while_max] in *; [split; [lia | split; [reflexivity | lia]]|].
    destruct (p c); cbn [andb length]; [|split; [intros [X _]; discriminate X | lia]]. specialize (IH s k ltac:(lia)). split.
    + intros [A B]. apply le_n_S, IH. split; [exact A | lia].
    + intros H. apply le_S_n, IH in H. destruct H. split; [assumption | lia].
Qed.

Lemma answer_all : forall o (m : str), answer o = Some ([], m) <-> o = Some m.
Proof. intros [x|] m; cbn; [|split; discriminate]. split; intros X; inversion X; reflexivity. Qed.

Lemma viable_answer : forall pattern find, (forall s, regex_find pattern s = answer (find s)) ->
  forall p, viable pattern p <-> exists t, find (p ++ t) = Some (p ++ t).
Proof. intros pattern find H p. unfold viable. split; intros (t & E); exists t; [apply answer_all; rewrite <- H; exact E | rewrite H; apply answer_all; exact E]. Qed.

Lemma forallb_ends : forall (p : char -> bool) a b, forallb p (a ++ b) = true -> forallb p a = true.
Proof. intros p a b H. rewrite forallb_app in H. apply andb_true_iff in H. apply H. Qed.

Lemma class_looks : forall pattern p c, (forall s, regex_find pattern s = answer (non_empty (take_while p s))) -> p c = true ->
  looks pattern (fun s => 1 + amount (take_while p s)).
Proof.
  intros pattern p c H Hc s k L. rewrite (viable_answer _ _ H). assert (X := take_while_firstn p s k L). unfold amount. split.
  - intros (t & E). assert (Y : take_while p (firstn k s ++ t) = firstn k s ++ t) by (destruct (take_while p (firstn k s ++ t)); inversion E; reflexivity).
    apply take_while_all, forallb_ends in Y. apply X in Y. lia.
  - intros Lk. exists [c]. assert (Y : forallb p (firstn k s) = true) by (apply X; lia).
    assert (Z : take_while p (firstn k s ++ [c]) = firstn k s ++ [c]) by (apply take_while_all; rewrite forallb_app, Y; cbn; rewrite Hc; reflexivity).
    rewrite Z. destruct (firstn k s ++ [c]) eqn:E; [destruct (firstn k s); discriminate E | reflexivity].
Qed.

Lemma whitespace_looks : looks "^[^\S\n]+" look_whitespace.
Proof. apply (class_looks _ _ 32 whitespace_found). reflexivity. Qed.

Lemma decimal_looks : looks "^[0-9]{1,}" look_decimal.
Proof. apply (class_looks _ _ 48 decimal_found). reflexivity. Qed.

Lemma binary_looks : looks "^%[01\.]+" look_bin.
Proof.
  intros [|c s] k L; rewrite (viable_answer _ _ binary_found); cbn [length] in L.
  - assert (k = 0)%nat by lia. subst k. cbn [firstn app look_bin]. split; [lia|]. intros _. exists (u "%0"). reflexivity.
  - destruct k as [|k]; [cbn [firstn app]; split; [intros _; cbn [look_bin]; destruct (c =? c_ "%"); lia | intros _; exists (u "%0"); reflexivity]|].
    cbn [firstn app look_bin find_bin_literal]. destruct (c =? c_ "%"); [|split; [intros (t & E); discriminate E | lia]].
    assert (X := take_while_firstn is_bin_digit s k ltac:(lia)). unfold amount. split.
    + intros (t & E). assert (Y : take_while is_bin_digit (firstn k s ++ t) = firstn k s ++ t) by (destruct (take_while is_bin_digit (firstn k s ++ t)); inversion E; reflexivity).
      apply take_while_all, forallb_ends in Y. apply X in Y. lia.
    + intros Lk. exists [48]. assert (Y : forallb is_bin_digit (firstn k s) = true) by (apply X; lia).
      assert (Z : take_while is_bin_digit (firstn k s ++ [48]) = firstn k s ++ [48]) by (apply take_while_all; rewrite forallb_app, Y; reflexivity).
      rewrite Z. destruct (firstn k s ++ [48]) eqn:E; [destruct (firstn k s); discriminate E | reflexivity].
Qed.

Lemma identifier_looks : looks "^[_a-zA-Z][_a-zA-Z0-9]{0,}" look_identifier.
Proof.
  intros [|c s] k L; rewrite (viable_answer _ _ identifier_found); cbn [length] in L.
  - assert (k = 0)%nat by lia. subst k. cbn [firstn app look_identifier]. split; [lia|]. intros _. exists (u "a"). reflexivity.
  - destruct k as [|k]; [cbn [firstn app]; split; [intros _; cbn [look_identifier]; destruct (is_id_start c); lia | intros _; exists (u "a"); reflexivity]|].
    cbn [firstn app look_identifier find_identifier]. destruct (is_id_start c); [|split; [intros (t & E); discriminate E | lia]].
    assert (X := take_while_firstn is_id_char s k ltac:(lia)). unfold amount. split.
    + intros (t & E). assert (Y : take_while is_id_char (firstn k s ++ t) = firstn k s ++ t) by (inversion E as [E']; rewrite E'; exact E').
      apply take_while_all, forallb_ends in Y. apply X in Y. lia.
    + intros Lk. exists []. rewrite app_nil_r. assert (Y : forallb is_id_char (firstn k s) = true) by (apply X; lia).
      apply take_while_all in Y. rewrite Y. reflexivity.
Qed.

Lemma take_max_all : forall p n (s : str), take_while_max n p s = s -> forallb p s = true /\ (length s <= n)%nat.
Proof.
  induction n as [|n IH]; intros s E; [destruct s; [split; [reflexivity | cbn; lia] | discriminate E]|].
  destruct s as [|c s]; [split; [reflexivity | cbn; lia]|]. cbn [take_while_max] in E. cbn [forallb length]. destruct (p c); [|discriminate E].
  inversion E as [E']. rewrite E'. apply IH in E'. cbn [andb]. destruct E'. split; [assumption | lia].
Qed.

Lemma take_max_back : forall p n (s : str), forallb p s = true -> (length s <= n)%nat -> take_while_max n p s = s.
Proof.
  induction n as [|n IH]; intros [|c s] F L; cbn [length] in L; try reflexivity; [lia|]. cbn [forallb take_while_max] in *.
  apply andb_true_iff in F. destruct F as [-> F]. rewrite IH by first [exact F | lia]. reflexivity.
Qed.

Lemma hex_looks : looks "^[\$\#][0-9a-fA-F]{1,3}" look_hex.
Proof.
  intros [|c s] k L; rewrite (viable_answer _ _ hex_found); cbn [length] in L.
  - assert (k = 0)%nat by lia. subst k. cbn [firstn app look_hex]. split; [lia|]. intros _. exists (u "$0"). reflexivity.
  - destruct k as [|k]; [cbn [firstn app]; split; [intros _; cbn [look_hex]; destruct ((c =? c_ "$") || (c =? c_ "#")); lia | intros _; exists (u "$0"); reflexivity]|].
    cbn [firstn app look_hex find_hex_literal]. destruct ((c =? c_ "$") || (c =? c_ "#")); [|split; [intros (t & E); discriminate E | lia]].
    assert (X := take_max_firstn is_hex_digit 3 s k ltac:(lia)). unfold amount. assert (Lf : length (firstn k s) = k) by (rewrite firstn_length; lia). split.
    + intros (t & E). assert (Y : take_while_max 3 is_hex_digit (firstn k s ++ t) = firstn k s ++ t) by (destruct (take_while_max 3 is_hex_digit (firstn k s ++ t)); inversion E; reflexivity).
      apply take_max_all in Y. destruct Y as [Y Z]. apply forallb_ends in Y. rewrite app_length, Lf in Z. assert (k <= length (take_while_max 3 is_hex_digit s))%nat by (apply X; split; [exact Y | lia]). lia.
    + intros Lk. assert (Y : forallb is_hex_digit (firstn k s) = true /\ (k <= 3)%nat) by (apply X; lia). destruct Y as [Y Z].
      destruct k as [|k].
      * exists [48]. reflexivity.
      * exists []. rewrite app_nil_r. rewrite (take_max_back _ _ _ Y) by lia. destruct (firstn (S k) s); [cbn in Lf; lia | reflexivity].
Qed.

Lemma string_body_looks : forall n s k, (length s <= n)%nat -> (k <= length s)%nat ->
  ((exists t, find_string_body (firstn k s ++ t) = Some (firstn k s ++ t)) <-> N.of_nat k <= look_string_body s).
Proof.
  induction n as [|n IH]; intros s k Ls Lk.
  - destruct s; [|cbn in Ls; lia]. cbn [length] in Lk. assert (k = 0)%nat by lia. subst k. split; [cbn; lia|]. intros _. exists [34]. reflexivity.
  - destruct k as [|k]; [split; [lia|]; intros _; exists [34]; reflexivity|]. destruct s as [|c s]; [cbn in Lk; lia|]. cbn [length] in *.
    cbn [firstn app find_string_body look_string_body]. destruct (c =? 34).
    { split.
      - intros (t & E). inversion E as [E']. destruct (firstn k s) eqn:F; [|discriminate E'].
        destruct k; [lia|]. destruct s; [cbn in Lk; lia | discriminate F].
      - intros X. assert (k = 0)%nat by lia. subst k. exists []. reflexivity. }
    destruct (c =? 92) eqn:B.
    + destruct s as [|d s].
      * cbn [length] in Lk. assert (k = 0)%nat by lia. subst k. split; [lia|]. intros _. exists [34; 34]. reflexivity.
      * destruct k as [|k].
        { split; [destruct (d =? newline); lia|]. intros _. exists [34; 34]. reflexivity. }
        cbn [firstn app length] in *. destruct (d =? newline); [split; [intros (t & E); discriminate E | lia]|].
        specialize (IH s k ltac:(lia) ltac:(lia)). assert (X : N.of_nat (S (S k)) <= 2 + look_string_body s <-> N.of_nat k <= look_string_body s) by lia.
        rewrite X, <- IH. split; intros (t & E); exists t.
        -- destruct (find_string_body (firstn k s ++ t)); inversion E. reflexivity.
        -- rewrite E. reflexivity.
    + specialize (IH s k ltac:(lia) ltac:(lia)). assert (X : N.of_nat (S k) <= 1 + look_string_body s <-> N.of_nat k <= look_string_body s) by lia.
      rewrite X, <- IH. split; intros (t & E); exists t.
      * destruct (find_string_body (firstn k s ++ t)); inversion E. reflexivity.
      * rewrite E. reflexivity.
Qed.

Lemma string_looks : looks "^""(?:[^""\\]|\\.)*""" look_string.
Proof.
  intros [|c s] k L; rewrite (viable_answer _ _ string_found); cbn [length] in L.
  - assert (k = 0)%nat by lia. subst k. cbn [firstn app look_string]. split; [lia|]. intros _. exists [34; 34]. reflexivity.
  - destruct k as [|k]; [cbn [firstn app]; split; [intros _; cbn [look_string]; destruct (c =? 34); lia | intros _; exists [34; 34]; reflexivity]|].
    cbn [firstn app look_string find_string_literal]. destruct (c =? 34); [|split; [intros (t & E); discriminate E | lia]].
    pose proof (string_body_looks (length s) s k (le_n _) ltac:(lia)) as X. assert (Y : N.of_nat (S k) < 2 + look_string_body s <-> N.of_nat k <= look_string_body s) by lia.
    rewrite Y, <- X. split; intros (t & E); exists t.
    + destruct (find_string_body (firstn k s ++ t)); inversion E. reflexivity.
    + rewrite E. reflexivity.
Qed.
