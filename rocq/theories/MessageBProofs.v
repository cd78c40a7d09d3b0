(** * MessageBProofs: messages as bytes. *)

From Verif Require Import Base BaseFacts Text U12 Location Token Scanner ScannerB Parser Directive Opcode Instruction DataRange Assembler AssemblerB IHex Main MessageB
  SpecLex SpecErase SpecWrite SpecOpcode SpecRefusal SpecDiag LexTheorems ParseProofs EmitProofs PipelineProofs FmtProofs SpecUtf8 UtfProofs SpecPlace PlaceProofs MainProofs
  DiagProofs SpecBytes BytesProofs ByteToolProofs.
Open Scope N_scope.

Notation asc := (Forall (fun c => c < 128)).

(** ** ASCII texts *)

Lemma u_ascii s : forallb (fun c => c <? 128) (u s) = true -> asc (u s).
Proof. intros H. apply Forall_forall. intros c I. rewrite forallb_forall in H. specialize (H c I). lia. Qed.

Lemma dec_ascii n : asc (fmt_dec n).
Proof.
  apply Forall_forall. intros c I. pose proof (fmt_dec_digits n) as H. rewrite forallb_forall in H. specialize (H c I).
  revert H. apply PipelineProofs.among_ascii. reflexivity.
Qed.

Lemma hex_ascii up n : asc (fmt_hex up n).
Proof.
  apply Forall_forall. intros c I. pose proof (fmt_hex_digits up n) as H. rewrite forallb_forall in H. specialize (H c I).
  revert H. apply PipelineProofs.among_ascii. reflexivity.
Qed.

Lemma pad_ascii c n s : c < 128 -> asc s -> asc (pad_left c n s).
Proof. intros H F. unfold pad_left. apply Forall_app. split; [|exact F]. apply Forall_forall. intros x I. apply repeat_spec in I. lia. Qed.

Lemma join_ascii sep l : asc sep -> Forall (fun s => asc s) l -> asc (join sep l).
Proof.
  intros A. induction 1 as [|x l H F IH]; [constructor|]. destruct l as [|y l]; [exact H|].
  change (join sep (x :: y :: l)) with (x ++ sep ++ join sep (y :: l)). apply Forall_app. split; [exact H|]. apply Forall_app. split; assumption.
Qed.

Ltac asc_parts := repeat first [assumption | apply dec_ascii | apply hex_ascii | apply pad_ascii; [reflexivity|] | apply u_ascii; reflexivity | apply Forall_app; split].

Lemma field_ascii f : writable_field f -> asc (field_fmt f).
Proof. destruct f; cbn [writable_field field_fmt]; intros H; asc_parts. destruct H as [H _]. exact (name_ascii _ H). Qed.

(** The message after the place. *)
Definition after_place (e : semantic_error) : str :=
  match e with
  | DirectiveInvalid l reason => u ": error: " ++ directive_error_fmt reason
  | DirectiveTooLarge l d => u ": error: Directive (" ++ directive_fmt d ++ u ") size " ++ fmt_dec (directive_size d) ++ u " exceeds 4096 bytes."
  | DirectiveWouldOverflow l d => u ": error: Directive (" ++ directive_fmt d ++ u ") would cause the 12-bit address counter to overflow."
  | RedefinitionOfLabel l label => u ": error: Attempted re-definition of label '" ++ label ++ u "'."
  | InstructionWouldOverflow l => u ": error: " ++ semantic_error_description e ++ u "."
  | AssemblyFailed l reason => u ": error: " ++ instruction_error_fmt reason
  | ConstantWithoutLabel l => u ": error: " ++ semantic_error_description e ++ u "."
  end.

Definition place (e : semantic_error) : loc :=
  match e with
  | DirectiveInvalid l _ | DirectiveTooLarge l _ | DirectiveWouldOverflow l _ | RedefinitionOfLabel l _ | InstructionWouldOverflow l
  | AssemblyFailed l _ | ConstantWithoutLabel l => l
  end.

Lemma semantic_parts e : semantic_error_fmt e = loc_fmt (place e) ++ after_place e.
Proof. destruct e; reflexivity. Qed.

Lemma parts_via g e : place (semantic_error_via g e) = g (place e) /\ after_place (semantic_error_via g e) = after_place e.
Proof. destruct e; split; reflexivity. Qed.

Lemma after_bare e : after_place (bare_error e) = after_place e.
Proof. destruct e; reflexivity. Qed.

Lemma low_ascii low : In low ["org"; "equ"]%string -> asc (u low).
Proof. intros [<-|[<-|[]]]; apply u_ascii; reflexivity. Qed.

Lemma after_ascii e : diagnostic e -> asc (after_place e).
Proof.
  destruct 1 as [r D | bytes _ _ | bytes _ _ | | id N | | r D]; cbn [after_place directive_fmt directive_size semantic_error_description]; asc_parts.
  - destruct D as [id N _ _ _ | low n I _ | low I | | v _]; cbn [directive_error_fmt]; asc_parts; try apply low_ascii; try assumption. exact (name_ascii _ N).
  - exact (name_ascii _ N).
  - destruct D as [id N _ | v _ | v _ | m fields N F _]; cbn [instruction_error_fmt]; asc_parts; [exact (name_ascii _ N)|].
    unfold listed. destruct fields as [|f fs]; cbn [instruction_error_fmt]; asc_parts; try exact (name_ascii _ N).
    apply join_ascii; [apply u_ascii; reflexivity|]. apply Forall_map. eapply Forall_impl; [|exact F]. apply field_ascii.
Qed.

(** ** Places *)

Definition loc_bytes (l : loc) : loc := mk_loc (utf8 (l_file l)) (l_line l) (l_location l) (l_length l).

Lemma utf8_app a b : utf8 (a ++ b) = utf8 a ++ utf8 b.
Proof. apply flat_map_app. Qed.

Lemma loc_utf8 l : loc_fmt (loc_bytes l) = utf8 (loc_fmt l).
Proof.
  destruct l as [f a b c]. unfold loc_fmt, loc_bytes. cbn [l_file l_line l_location l_length].
  destruct (c =? 1); rewrite !utf8_app, !(utf8_ascii (fmt_dec _)) by apply dec_ascii; reflexivity.
Qed.

Lemma semantic_utf8 file s p e : Forall scalar s -> stands_for file s p -> assemble p = Done (Err e) ->
  semantic_error_fmt (semantic_error_via loc_bytes e) = utf8 (semantic_error_fmt e).
Proof.
  intros F H A. pose proof (after_ascii _ (semantic_sound _ _ _ _ F H A)) as K. rewrite after_bare in K.
  rewrite !semantic_parts. destruct (parts_via loc_bytes e) as [-> ->]. rewrite utf8_app, (utf8_ascii (after_place e) K), loc_utf8. reflexivity.
Qed.

(** ** Errors of syntax *)

Definition token_whole (t : token) : token := token_bytes (token_via loc_bytes t).
Definition syntax_error_whole (e : parse_error) : parse_error :=
  match e with
  | UnexpectedEndOfFile expected => UnexpectedEndOfFile expected
  | UnexpectedToken expected t => UnexpectedToken expected (token_whole t)
  end.

Lemma scan_error_utf8 e : scan_error_fmt_b (error_bytes e) = utf8 (scan_error_fmt e).
Proof.
  destruct e; cbn [scan_error_fmt_b error_bytes scan_error_fmt scan_error_description]; try reflexivity; rewrite !utf8_app; try reflexivity.
Qed.

Lemma token_utf8 t : token_fmt_b (token_whole t) = utf8 (token_fmt t).
Proof.
  destruct t; unfold token_whole; cbn [token_via token_bytes token_fmt_b token_fmt]; try reflexivity; rewrite ?utf8_app; try reflexivity.
  - rewrite (utf8_ascii (fmt_dec _)), (utf8_ascii (fmt_hex _ _)) by (apply dec_ascii || apply hex_ascii). reflexivity.
  - apply scan_error_utf8.
Qed.

Lemma place_whole t : token_location (token_whole t) = loc_bytes (token_location t).
Proof. destruct t; reflexivity. Qed.

Lemma syntax_utf8 e : syntax_diagnostic (bare_syntax e) -> parse_error_fmt_b (syntax_error_whole e) = run_map utf8 (parse_error_fmt e).
Proof.
  intros D.
  assert (X : match e with UnexpectedEndOfFile x | UnexpectedToken x _ => asc (join (u ", ") x) end).
  { destruct e as [x|x t]; cbn [bare_syntax] in D.
    - assert (I : exists a, In (x, a) places) by (inversion D as [|? a I]; subst; exists a; right; exact I). clear D. destruct I as (a & I).
      cbn [places In] in I. destruct I as [I|[I|[I|[I|[]]]]]; apply (f_equal fst) in I; cbn [fst] in I; subst x; cbn [join]; asc_parts.
    - assert (I : exists a, In (x, a) places) by (inversion D as [? a ? I|]; subst; exists a; exact I). clear D. destruct I as (a & I).
      cbn [places In] in I. destruct I as [I|[I|[I|[I|[]]]]]; apply (f_equal fst) in I; cbn [fst] in I; subst x; cbn [join]; asc_parts. }
  clear D. destruct e as [x|x t].
  - destruct x as [|y [|z x]]; cbn [syntax_error_whole parse_error_fmt_b parse_error_fmt run_map]; try reflexivity;
      [change (asc y) in X|]; rewrite !utf8_app, (utf8_ascii _ X); reflexivity.
  - assert (G : forall y, asc y ->
      loc_fmt (token_location (token_whole t)) ++ u ": error: Unexpected token found: " ++ token_fmt_b (token_whole t) ++ u ", expecting " ++ y ++ u "." =
      utf8 (loc_fmt (token_location t) ++ u ": error: Unexpected token found: " ++ token_fmt t ++ u ", expecting " ++ y ++ u ".") /\
      loc_fmt (token_location (token_whole t)) ++ u ": error: Unexpected token found: " ++ token_fmt_b (token_whole t) ++ u ", expecting one of: " ++ y ++ u "." =
      utf8 (loc_fmt (token_location t) ++ u ": error: Unexpected token found: " ++ token_fmt t ++ u ", expecting one of: " ++ y ++ u ".")).
    { intros y Y. rewrite place_whole, loc_utf8, token_utf8, !utf8_app, (utf8_ascii y Y). split; reflexivity. }
    destruct (G _ X) as [G1 G2]. clear G.
    destruct t; try (destruct x as [|y [|z x]]; [reflexivity | |];
      cbn [syntax_error_whole]; unfold token_whole in *; cbn [token_via token_bytes] in *; cbn [parse_error_fmt_b parse_error_fmt run_map];
      f_equal; assumption).
    destruct x as [|y [|z x]]; [reflexivity | |];
      cbn [syntax_error_whole]; unfold token_whole in *; cbn [token_via token_bytes] in *; cbn [parse_error_fmt_b parse_error_fmt run_map];
      [change (asc y) in X|]; f_equal; rewrite !utf8_app, (utf8_ascii _ X), !loc_utf8, scan_error_utf8; reflexivity.
Qed.

(** ** The whole *)

Lemma program_utf8 e reason reason' : reason' = utf8 reason -> program_error (env_bytes e) reason' = utf8 (program_error e reason).
Proof. intros ->. unfold program_error, env_bytes. cbn [e_program]. rewrite !utf8_app. reflexivity. Qed.

Lemma range_ascii r s : range_fmt r = Done s -> asc s.
Proof.
  unfold range_fmt. destruct (address_range r) as [a b]. destruct (1 <=? b); [|discriminate].
  intros H. match type of H with Done ?x = _ => assert (E : x = s) by congruence end. rewrite <- E. asc_parts.
Qed.

Lemma overlap_utf8 e l : overlap_report (env_bytes e) l = run_map utf8 (overlap_report e l).
Proof.
  induction l as [|[a b] l IH]; [reflexivity|]. cbn [overlap_report].
  destruct (range_fmt a) as [sa|] eqn:A; [|reflexivity]. destruct (range_fmt b) as [sb|] eqn:B; [|reflexivity]. cbn [bind].
  rewrite IH. destruct (overlap_report e l) as [rest|]; [|reflexivity]. cbn [run_map bind]. apply range_ascii in A, B.
  rewrite !utf8_app. f_equal. f_equal; [|f_equal]; apply program_utf8; rewrite !utf8_app, ?(utf8_ascii sa A), ?(utf8_ascii sb B); reflexivity.
Qed.

Lemma scan_whole path s ts : Forall scalar s -> scan path s = Done ts -> scan_b (utf8 path) (utf8 s) = Done (map token_whole ts).
Proof.
  intros F E. apply scan_lexes in E.
  assert (M : map (token_via (further (utf8 path) 0)) ts = map (token_via loc_bytes) ts).
  { assert (K : Forall (fun t => l_file (token_location t) = path) ts).
    { clear F. induction E as [|before c s ts B L IH|before s k m rest t ts L T _ IH|before s k m rest e L Bd|before c s B N];
        repeat constructor; try assumption. destruct T; reflexivity. }
    clear E F. induction K as [|t ts H _ IH]; [reflexivity|]. cbn [map]. rewrite IH. f_equal.
    destruct t as [? l|l|? l|l|? l|? l|l|l|? l]; cbn [token_location token_via] in *; unfold further, loc_bytes; rewrite N.add_0_r, H; reflexivity. }
  pose proof (lexes_further _ _ _ _ E (utf8 path) 0 [] idle_none) as L. cbn [app] in L. rewrite M in L. apply scan_lexes in L.
  rewrite (scan_bytes _ _ _ F L), map_map. reflexivity.
Qed.

Lemma plain_via g t : plain t -> plain (token_via g t).
Proof. destruct t; exact (fun H => H). Qed.

Theorem text_bytes e path s : Forall scalar s -> assemble_text_b (env_bytes e) (utf8 path) (utf8 s) =
  match assemble_text e path s with
  | Done (Ok text) => Done (Ok (utf8 text))
  | Done (Err message) => Done (Err (utf8 message))
  | Crash why => Crash why
  end.
Proof.
  intros F. unfold assemble_text_b, assemble_text. destruct (scan_total path s) as (ts & E). rewrite E, (scan_whole path s ts F E). cbn [bind].
  pose proof (scan_plain _ _ _ E) as Pl.
  assert (M : map token_whole ts = map raw (map (token_via loc_bytes) ts)).
  { rewrite <- (map_raw (map (token_via loc_bytes) ts)); [rewrite map_map; reflexivity|]. apply Forall_map. eapply Forall_impl; [|exact Pl].
    intros t. apply plain_via. }
  rewrite M, parse_raw, parse_via. destruct (parse_total ts) as ([p|err] & P); rewrite P; cbn [outcome_via bind].
  2:{ assert (X : syntax_error_raw (syntax_error_via loc_bytes err) = syntax_error_whole err).
      { destruct err as [x|x t]; [reflexivity|]. cbn [syntax_error_via syntax_error_raw syntax_error_whole]. unfold token_whole. f_equal. symmetry.
        apply raw_bytes, plain_via. destruct (parse_error_token _ _ _ P) as (b & a & Et & _). subst ts. apply Forall_app in Pl. destruct Pl as [_ Pl].
        inversion Pl; assumption. }
      rewrite X, (syntax_utf8 err (syntax_sound _ _ _ _ F E P)). destruct (parse_error_fmt err) as [m|]; [|reflexivity].
      cbn [run_map bind]. rewrite utf8_app. reflexivity. }
  rewrite assemble_same_b, assemble_via. pose proof P as P'. apply parse_program in P'. pose proof E as L. apply scan_lexes in L.
  pose proof (program_node_ok ts p P' (lexes_token_ok _ _ _ _ L)) as O.
  assert (St : stands_for path s p) by (exists ts; auto).
  destruct (assemble_spec p O) as [(rs & A & W & Ou)|(err & A & _)]; rewrite A; cbn [outcome_via bind].
  2:{ rewrite (semantic_utf8 _ _ _ _ F St A), utf8_app. reflexivity. }
  destruct (Nat.ltb_spec 0 (length (find_overlapping_ranges rs))) as [G|G].
  - rewrite overlap_utf8. destruct (overlap_report e (find_overlapping_ranges rs)) as [m|]; [|reflexivity]. cbn [run_map bind].
    rewrite !utf8_app. do 2 f_equal. f_equal; [|f_equal]; apply program_utf8; reflexivity.
  - destruct (ihex_representation rs) as [text|] eqn:I; [|reflexivity]. cbn [bind]. do 2 f_equal. symmetry.
    apply (ihex_ascii rs text); [|destruct (find_overlapping_ranges rs); [reflexivity | cbn in G; lia] | exact I].
    eapply output_writable; try eassumption. exact (program_scalar ts p P' (lexes_scalar _ _ _ _ L F)).
Qed.
