(** * ByteToolProofs: the rest of the tool on texts as bytes. *)

From Verif Require Import Base BaseFacts Text U12 Location Token Scanner ScannerB Parser Directive Opcode Instruction DataRange Assembler AssemblerB
  SpecLex LexTheorems ParseProofs EmitProofs PipelineProofs SpecUtf8 UtfProofs SpecPlace SpecBytes BytesProofs.
Open Scope N_scope.

(** ** Every lexeme but comments and strings is ASCII *)

Definition ascii (s : str) : Prop := Forall (fun c => c < 128) s.

Lemma ascii_utf8 s : ascii s -> utf8 s = s.
Proof. induction 1 as [|c s H _ IH]; [reflexivity|]. cbn [utf8 flat_map]. rewrite (char_ascii c H). fold (utf8 s). rewrite IH. reflexivity. Qed.

Fixpoint ascii_re (r : re) : Prop :=
  match r with
  | Chr p => forall c, p c = true -> c < 128
  | Eps => True
  | Cat a b | Alt a b => ascii_re a /\ ascii_re b
  | Star a => ascii_re a
  end.

Lemma ascii_match r m : rmatch r m -> ascii_re r -> ascii m.
Proof.
  unfold ascii. induction 1; cbn [ascii_re]; intros A; auto; try (apply Forall_app; split); try tauto; intuition.
Qed.

Lemma among_ascii s : forallb (fun c => c <? 128) (u s) = true -> forall c, among s c = true -> c < 128.
Proof.
  intros A c H. apply existsb_exists in H. destruct H as (d & I & E). apply N.eqb_eq in E. subst d.
  rewrite forallb_forall in A. specialize (A c I). lia.
Qed.

Lemma ascii_kind k : k <> KComment -> k <> KString -> ascii_re (pattern k).
Proof.
  intros A B. destruct k; try congruence; cbn [pattern ascii_re Plus Opt lit]; repeat split; trivial;
    intros c H; try (apply N.eqb_eq in H; subst c; reflexivity).
  all: try (revert c H; apply among_ascii; reflexivity).
  - apply orb_prop in H. destruct H as [H|H]; revert c H; apply among_ascii; reflexivity.
  - apply orb_prop in H. destruct H as [H|H]; [apply orb_prop in H; destruct H as [H|H]|]; revert c H; apply among_ascii; reflexivity.
Qed.

(** The token with only its comment or string turned into bytes. *)
Definition raw (t : token) : token :=
  match t with
  | SingleLineComment s l => SingleLineComment (utf8 s) l
  | StringLiteral s l => StringLiteral (utf8 s) l
  | t => t
  end.

(** The texts of the token that are names and numerals. *)
Definition plain (t : token) : Prop :=
  match t with
  | Identifier s _ => ascii s
  | ErrorToken (DecimalLiteralOutOfRange s) _ | ErrorToken (BinaryLiteralOutOfRange s) _ => ascii s
  | _ => True
  end.

Lemma raw_bytes t : plain t -> token_bytes t = raw t.
Proof. destruct t; try reflexivity; cbn [plain token_bytes raw]; [intros H; rewrite (ascii_utf8 _ H); reflexivity|].
  match goal with |- context [error_bytes ?r] => destruct r end; cbn [plain error_bytes]; intros H; try reflexivity; rewrite (ascii_utf8 _ H); reflexivity. Qed.

Lemma lexes_plain file before s ts : lexes file before s ts -> Forall plain ts.
Proof.
  induction 1 as [|before c s ts B L IH|before s k m rest t ts L T _ IH|before s k m rest e L Bd|before c s B N]; [constructor|exact IH| | |].
  - constructor; [|exact IH]. pose proof L as (_ & R & _).
    destruct T; cbn [plain]; trivial; apply (ascii_match _ _ R); apply ascii_kind; discriminate.
  - constructor; [|constructor]. pose proof L as (_ & R & _).
    destruct Bd; cbn [plain]; (assert (A : ascii_re (pattern KBin)) by (apply ascii_kind; discriminate));
      (assert (A' : ascii_re (pattern KDec)) by (apply ascii_kind; discriminate)).
    + apply (ascii_match _ _ R) in A. inversion A; assumption.
    + exact (ascii_match _ _ R A').
  - constructor; [|constructor]. cbn [plain]. unfold no_lexeme_error.
    repeat match goal with |- context [if ?b then _ else _] => destruct b end; exact I.
Qed.

Lemma scan_plain file s ts : scan file s = Done ts -> Forall plain ts.
Proof. intros E. apply scan_lexes in E. exact (lexes_plain _ _ _ _ E). Qed.

Lemma map_raw ts : Forall plain ts -> map token_bytes ts = map raw ts.
Proof. induction 1 as [|t ts H _ IH]; [reflexivity|]. cbn [map]. rewrite (raw_bytes t H), IH. reflexivity. Qed.

(** ** The parser *)

Definition syntax_error_raw (e : parse_error) : parse_error :=
  match e with
  | UnexpectedEndOfFile expected => UnexpectedEndOfFile expected
  | UnexpectedToken expected t => UnexpectedToken expected (raw t)
  end.

Definition parser_raw (p : parser) : parser :=
  mk_parser (map raw (p_scanner p)) (option_map raw (p_current p)) (option_map raw (p_next p)).

Definition presult_raw {A} (h : A -> A) (r : presult A) : presult A :=
  outcome_via syntax_error_raw (fun x => (h (fst x), parser_raw (snd x))) r.

Lemma new_raw : forall ts, parser_new (map raw ts) = parser_raw (parser_new ts).
Proof. destruct ts as [|t [|t' ts]]; reflexivity. Qed.

Lemma consume_raw : forall p,
  consume_token (parser_raw p) = (option_map raw (fst (consume_token p)), parser_raw (snd (consume_token p))).
Proof. intros [[|t ts] c n]; reflexivity. Qed.

Lemma identifier_raw : forall p, parse_identifier (parser_raw p) = presult_raw (fun x => x) (parse_identifier p).
Proof.
  intros p. unfold parse_identifier. rewrite consume_raw. destruct (consume_token p) as [[t|] p']; [|reflexivity].
  destruct t; reflexivity.
Qed.

Lemma literal_raw : forall p, parse_literal (parser_raw p) = presult_raw literal_bytes (parse_literal p).
Proof.
  intros p. unfold parse_literal. rewrite consume_raw. cbn [parser_raw p_current].
  destruct (p_current p) as [t|]; [|reflexivity]. destruct t; reflexivity.
Qed.

Lemma field_raw : forall p, parse_field (parser_raw p) = presult_raw (fun x => x) (parse_field p).
Proof.
  intros p. unfold parse_field. rewrite consume_raw. cbn [parser_raw p_current].
  destruct (p_current p) as [t|]; [|reflexivity]. destruct t; try reflexivity.
  cbn [option_map raw]. destruct (identifier_field id); reflexivity.
Qed.

Lemma literals_raw : forall fuel p acc,
  parse_literal_list fuel (parser_raw p) (map literal_bytes acc) = presult_raw (map literal_bytes) (parse_literal_list fuel p acc).
Proof.
  induction fuel as [|n IH]; intros p acc; [reflexivity|]. cbn [parse_literal_list].
  assert (X : (try* (lit, p) := parse_literal (parser_raw p) in
      let acc := map literal_bytes acc ++ [lit] in
      match p_current p with
      | Some (Comma _) => parse_literal_list n (snd (consume_token p)) acc
      | _ => Done (Ok (acc, p)) end) = presult_raw (map literal_bytes)
      (try* (lit, p) := parse_literal p in
      let acc := acc ++ [lit] in
      match p_current p with
      | Some (Comma _) => parse_literal_list n (snd (consume_token p)) acc
      | _ => Done (Ok (acc, p)) end)).
  { rewrite literal_raw. destruct (parse_literal p) as [[[lit q]|e]|why]; [|reflexivity|reflexivity].
    unfold presult_raw. cbn [outcome_via try_ fst snd].
    change (map literal_bytes acc ++ [literal_bytes lit]) with (map literal_bytes acc ++ map literal_bytes [lit]). rewrite <- map_app.
    change (p_current (parser_raw q)) with (option_map raw (p_current q)).
    destruct (p_current q) as [t|] eqn:C; [|reflexivity]. destruct t; try reflexivity.
    cbn [option_map raw]. rewrite consume_raw. cbn [snd]. apply IH. }
  change (p_current (parser_raw p)) with (option_map raw (p_current p)).
  destruct (p_current p) as [t|]; [|exact X]. destruct t; try exact X; reflexivity.
Qed.

Lemma fields_raw : forall fuel p acc,
  parse_field_list fuel (parser_raw p) acc = presult_raw (fun x => x) (parse_field_list fuel p acc).
Proof.
  induction fuel as [|n IH]; intros p acc; [reflexivity|]. cbn [parse_field_list].
  assert (X : (try* (lit, p) := parse_field (parser_raw p) in
      let acc := acc ++ [lit] in
      match p_current p with
      | Some (Comma _) => parse_field_list n (snd (consume_token p)) acc
      | _ => Done (Ok (acc, p)) end) = presult_raw (fun x => x)
      (try* (lit, p) := parse_field p in
      let acc := acc ++ [lit] in
      match p_current p with
      | Some (Comma _) => parse_field_list n (snd (consume_token p)) acc
      | _ => Done (Ok (acc, p)) end)).
  { rewrite field_raw. destruct (parse_field p) as [[[lit q]|e]|why]; [|reflexivity|reflexivity].
    unfold presult_raw. cbn [outcome_via try_ fst snd].
    change (p_current (parser_raw q)) with (option_map raw (p_current q)).
    destruct (p_current q) as [t|] eqn:C; [|reflexivity]. destruct t; try reflexivity.
    cbn [option_map raw]. rewrite consume_raw. cbn [snd]. apply IH. }
  change (p_current (parser_raw p)) with (option_map raw (p_current p)).
  destruct (p_current p) as [t|]; [|exact X]. destruct t; try exact X; reflexivity.
Qed.

Lemma statement_raw : forall fuel p,
  parse_statement fuel (parser_raw p) = presult_raw node_bytes (parse_statement fuel p).
Proof.
  intros fuel p.
  assert (D : parse_directive fuel (parser_raw p) = presult_raw node_bytes (parse_directive fuel p)).
  { unfold parse_directive. rewrite consume_raw. destruct (consume_token p) as [[t|] q]; [|reflexivity].
    cbn [fst snd option_map]. destruct t; try reflexivity. cbn [raw]. rewrite identifier_raw.
    destruct (parse_identifier q) as [[[[id lo] q']|e]|why]; [|reflexivity|reflexivity].
    unfold presult_raw. cbn [outcome_via try_ fst snd]. change (@nil literal) with (map literal_bytes []) at 1. rewrite literals_raw.
    destruct (parse_literal_list fuel q' []) as [[[lits q'']|e]|why]; reflexivity. }
  assert (L : parse_label (parser_raw p) = presult_raw node_bytes (parse_label p)).
  { unfold parse_label. rewrite identifier_raw.
    destruct (parse_identifier p) as [[[[id lo] q']|e]|why]; [|reflexivity|reflexivity].
    unfold presult_raw. cbn [outcome_via try_ fst snd]. rewrite consume_raw.
    destruct (consume_token q') as [[t|] q]; [|reflexivity]. destruct t; reflexivity. }
  assert (I : parse_instruction fuel (parser_raw p) = presult_raw node_bytes (parse_instruction fuel p)).
  { unfold parse_instruction. rewrite identifier_raw.
    destruct (parse_identifier p) as [[[[id lo] q']|e]|why]; [|reflexivity|reflexivity].
    unfold presult_raw. cbn [outcome_via try_ fst snd]. rewrite fields_raw.
    destruct (parse_field_list fuel q' []) as [[[lits q'']|e]|why]; reflexivity. }
  unfold parse_statement.
  change (p_current (parser_raw p)) with (option_map raw (p_current p)).
  change (p_next (parser_raw p)) with (option_map raw (p_next p)).
  destruct (p_current p) as [t|]; [|reflexivity].
  destruct t; try reflexivity; cbn [option_map raw]; [exact D|].
  destruct (p_next p) as [t'|]; [|exact I]. destruct t'; try exact I. exact L.
Qed.

Lemma statements_raw : forall fuel p acc,
  parse_statement_list fuel (parser_raw p) (map node_bytes acc) =
  outcome_via syntax_error_raw (map node_bytes) (parse_statement_list fuel p acc).
Proof.
  induction fuel as [|n IH]; intros p acc; [reflexivity|]. cbn [parse_statement_list].
  assert (X : (try* (nd, p) := parse_statement (S n) (parser_raw p) in parse_statement_list n p (map node_bytes acc ++ [nd])) =
     outcome_via syntax_error_raw (map node_bytes)
       (try* (nd, p) := parse_statement (S n) p in parse_statement_list n p (acc ++ [nd]))).
  { rewrite statement_raw. destruct (parse_statement (S n) p) as [[[nd q]|e]|why]; [|reflexivity|reflexivity].
    unfold presult_raw. cbn [outcome_via try_ fst snd].
    change (map node_bytes acc ++ [node_bytes nd]) with (map node_bytes acc ++ map node_bytes [nd]). rewrite <- map_app. apply IH. }
  change (p_current (parser_raw p)) with (option_map raw (p_current p)).
  destruct (p_current p) as [t|]; [|reflexivity].
  destruct t; try exact X; cbn [option_map raw]; rewrite consume_raw; cbn [snd]; apply IH.
Qed.

Lemma parse_raw : forall ts, parse (map raw ts) = outcome_via syntax_error_raw (map node_bytes) (parse ts).
Proof. intros ts. unfold parse. rewrite map_length, new_raw. change (@nil node) with (map node_bytes []) at 1. apply statements_raw. Qed.

(** ** The assembler *)

Lemma db_same : forall args acc, db_bytes_b acc (map literal_bytes args) = db_bytes acc args.
Proof.
  induction args as [|[s|n] args IH]; intros acc; [reflexivity| |]; cbn [map literal_bytes db_bytes_b db_bytes]; [apply IH|].
  destruct (255 <? n); [reflexivity | apply IH].
Qed.

Lemma numeric_same name make args : one_numeric name make (map literal_bytes args) = one_numeric name make args.
Proof. unfold one_numeric. rewrite map_length. destruct args as [|[s|n] [|y args]]; reflexivity. Qed.

Lemma directive_same id args : directive_from_b id (map literal_bytes args) = directive_from id args.
Proof.
  unfold directive_from_b, directive_from. rewrite !numeric_same, db_same. destruct args as [|x args]; reflexivity.
Qed.

Lemma peek_same p : peek_constant_b (map node_bytes p) = peek_constant p.
Proof. destruct p as [|[l id args|l id|l m f] p]; try reflexivity. cbn [map node_bytes peek_constant_b peek_constant]. rewrite directive_same. reflexivity. Qed.

Lemma labels_same : forall n p labels at_, (length p <= n)%nat -> define_labels_loop_b labels at_ (map node_bytes p) = define_labels_loop labels at_ p.
Proof.
  induction n as [|n IH]; intros [|nd p] labels at_ H; cbn [length] in H; try reflexivity; try lia.
  assert (K : forall q labels at_, (length q <= n)%nat -> define_labels_loop_b labels at_ (map node_bytes q) = define_labels_loop labels at_ q)
    by (intros; apply IH; assumption).
  destruct nd as [l id args|l id|l m f]; cbn [map node_bytes define_labels_loop_b define_labels_loop].
  - rewrite directive_same. destruct (directive_from id args) as [d|e]; [|reflexivity]. cbn [map_err rbind].
    destruct (u12_failable_into (directive_size d)) as [sz|]; [|reflexivity]. cbn [ok_or rbind].
    destruct (u12_checked_add at_ sz) as [ad|]; [|reflexivity]. cbn [ok_or rbind]. destruct d; try reflexivity; apply K; lia.
  - pose proof (peek_same p) as P. destruct p as [|nd' p]; cbn [map] in *.
    + destruct (contains_key labels id); [reflexivity|]. apply (K []). cbn. lia.
    + rewrite P. cbn [length] in H. destruct (peek_constant (nd' :: p)).
      * destruct (contains_key labels id); [reflexivity|]. apply K. lia.
      * destruct (contains_key labels id); [reflexivity|]. apply (K (nd' :: p)). cbn [length]. lia.
  - destruct (u12_checked_add at_ bytes_per_instruction) as [ad|]; [|reflexivity]. cbn [ok_or rbind]. apply K; lia.
Qed.

Lemma emit_same : forall p labels ranges current,
  emit_loop_b labels ranges current (map node_bytes p) = emit_loop labels ranges current p.
Proof.
  induction p as [|nd p IH]; intros labels ranges current; [reflexivity|].
  destruct nd as [l id args|l id|l m f]; cbn [map node_bytes emit_loop_b emit_loop].
  - rewrite directive_same. destruct (directive_from id args) as [d|e]; [|reflexivity]. destruct d; try apply IH;
    match goal with |- context [append_asserted ?a ?b] => destruct (append_asserted a b) end; try reflexivity; apply IH.
  - apply IH.
  - destruct (instruction_from m f labels) as [o|e]; [|reflexivity].
    destruct (instruction_into_vec o) as [b|w]; [|reflexivity]. cbn [bind].
    destruct (append_asserted current b); [|reflexivity]. cbn [bind]. apply IH.
Qed.

Lemma assemble_same_b p : assemble_b (map node_bytes p) = assemble p.
Proof.
  unfold assemble_b, assemble, define_labels_b, define_labels. rewrite (labels_same (length p)) by lia.
  destruct (define_labels_loop [] 0 p); [|reflexivity]. apply emit_same.
Qed.

(** ** The whole *)


Lemma error_plain ts e : Forall plain ts -> parse ts = Done (Err e) -> syntax_error_raw e = syntax_error_bytes e.
Proof.
  intros F P. destruct e as [expected|expected t]; [reflexivity|].
  destruct (parse_error_token _ _ _ P) as (b & a & E & _). subst ts. apply Forall_app in F. destruct F as [_ F]. inversion F as [|x l H _]; subst.
  cbn [syntax_error_raw syntax_error_bytes]. rewrite (raw_bytes _ H). reflexivity.
Qed.

Theorem bytes_make file s : Forall scalar s -> exists r, makes file s r /\ assemble_bytes file (utf8 s) = Done (outcome_bytes r).
Proof.
  intros Sc. destruct (scan_total file s) as (ts & E). pose proof (scan_plain _ _ _ E) as Pl.
  assert (B : assemble_bytes file (utf8 s) = bind (parse (map token_bytes ts)) (fun parsed => match parsed with Err m => Done (Err m)
      | Ok l => let* a := assemble_b l in Done (Ok a) end)) by (unfold assemble_bytes; rewrite (scan_bytes file s ts Sc E); reflexivity).
  rewrite (map_raw ts Pl), parse_raw in B. destruct (parse_total ts) as ([p|e] & P); rewrite P in B; cbn [outcome_via bind] in B.
  - rewrite assemble_same_b in B. pose proof E as L. apply scan_lexes in L. pose proof P as P'. apply parse_program in P'.
    pose proof (program_node_ok ts p P' (lexes_token_ok _ _ _ _ L)) as F.
    destruct (assemble_spec p F) as [(rs & A & _)|(e & A & _)]; rewrite A in B; cbn [bind] in B;
      eexists; (split; [eapply makes_rest; eassumption|exact B]).
  - exists (Err e). split; [eapply makes_syntax; eassumption|]. rewrite (error_plain ts e Pl P) in B. exact B.
Qed.

(** ** Strings are in the file as they are *)

Lemma lexes_string file before s ts : lexes file before s ts -> forall b l, In (StringLiteral b l) ts ->
  exists x y, s = x ++ QUOTE :: b ++ QUOTE :: y.
Proof.
  induction 1 as [|before c s ts B L IH|before s k m rest t ts L T _ IH|before s k m rest e L Bd|before c s B N]; intros b l I.
  - destruct I.
  - destruct (IH b l I) as (x & y & ->). exists (c :: x), y. reflexivity.
  - pose proof L as (-> & _ & _). destruct I as [->|I].
    + inversion T; subst. exists [], rest. cbn [app]. rewrite <- app_assoc. reflexivity.
    + destruct (IH b l I) as (x & y & ->). exists (m ++ x), y. rewrite <- app_assoc. reflexivity.
  - destruct I as [I|[]]. discriminate I.
  - destruct I as [I|[]]. discriminate I.
Qed.
