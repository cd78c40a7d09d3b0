(** * WriteProofs: what is written can be read back (C14). *)

From Verif Require Import Base Text U12 Location Token Scanner Parser Directive Assembler Main
  SpecLex SpecGrammar SpecErase SpecWrite
  BaseFacts LexProofs ScanProofs LexTheorems ParseProofs LexAppend GrammarLines TextProofs.
Open Scope N_scope.

(** ** Spelling tokens *)

(** Before [b], the text [a] is the tokens [ts], wherever it stands. *)
Definition spells (b a : str) (ts : list token) : Prop :=
  forall file before, exists ts', cut file b before a ts' /\ map bare ts' = ts.

Lemma cut_app : forall file b2 before a ts, cut file b2 before a ts -> forall a2 b ts2, b2 = a2 ++ b ->
  cut file b (before ++ a) a2 ts2 -> cut file b before (a ++ a2) (ts ++ ts2).
Proof.
  induction 1 as [before | before c a ts B _ IH | before k m a t ts R C T _ IH]; intros a2 b ts2 -> H.
  - rewrite app_nil_r in H. exact H.
  - cbn [app]. constructor; [exact B|]. apply IH; [reflexivity|]. rewrite <- app_assoc. exact H.
  - rewrite <- app_assoc. cbn [app]. eapply cut_token; [exact R | rewrite <- app_assoc; exact C | exact T|].
    apply IH; [reflexivity|]. rewrite <- app_assoc. exact H.
Qed.

Lemma spells_app : forall b a ts a2 ts2, spells (a2 ++ b) a ts -> spells b a2 ts2 -> spells b (a ++ a2) (ts ++ ts2).
Proof.
  intros b a ts a2 ts2 H H2 file before. destruct (H file before) as (t1 & C1 & <-).
  destruct (H2 file (before ++ a)) as (t2 & C2 & <-). exists (t1 ++ t2). split; [|apply map_app].
  eapply cut_app; [exact C1 | reflexivity | exact C2].
Qed.

Lemma spells_nil : forall b, spells b [] [].
Proof. intros b file before. exists []. split; [constructor | reflexivity]. Qed.

Lemma spells_blank : forall b c, blank c = true -> spells b [c] [].
Proof. intros b c B file before. exists []. split; [constructor; [exact B | constructor] | reflexivity]. Qed.

Lemma spells_token : forall b k m t0, rmatch (pattern k) m -> starts (extends k m) b = false ->
  (forall file before, exists t, token_of file before k m t /\ bare t = t0) -> spells b m [t0].
Proof.
  intros b k m t0 R C T file before. destruct (T file before) as (t & Ht & <-). exists [t].
  split; [|reflexivity]. rewrite <- (app_nil_r m). eapply cut_token; [exact R | exact C | exact Ht | constructor].
Qed.

(** What may follow a word. *)
Definition closes (b : str) : Prop :=
  starts (fun c => among letters c || among decimal_digits c || among "_" c) b = false.

Lemma spells_name : forall b id, name id -> closes b -> spells b id [Identifier id nowhere].
Proof.
  intros b id [R|R] C.
  - eapply spells_token; [exact R | destruct b; [reflexivity | exact C] |].
    intros file before. eexists. split; [constructor | reflexivity].
  - eapply spells_token; [exact R | destruct b; reflexivity |].
    intros file before. eexists. split; [constructor | reflexivity].
Qed.

Lemma hex_digit_facts : forallb (fun d => among hexadecimal_digits (hex_digit d) && (digit (hex_digit d) =? d))
  (map N.of_nat (seq 0 16)) = true.
Proof. vm_compute. reflexivity. Qed.

Lemma hex_digit_fact : forall d, d < 16 ->
  among hexadecimal_digits (hex_digit d) = true /\ digit (hex_digit d) = d.
Proof.
  intros d H. pose proof hex_digit_facts as F. rewrite forallb_forall in F.
  specialize (F d). rewrite andb_true_iff, N.eqb_eq in F. apply F.
  rewrite <- (N2Nat.id d). apply in_map. apply in_seq. lia.
Qed.

Lemma spells_number : forall b v, v <= 4095 -> spells b (write_number v) [NumericLiteral v nowhere].
Proof.
  intros b v L. unfold write_number.
  destruct (hex_digit_fact (v / 256)) as [A1 V1]; [lia|].
  destruct (hex_digit_fact (v / 16 mod 16)) as [A2 V2]; [lia|].
  destruct (hex_digit_fact (v mod 16)) as [A3 V3]; [lia|].
  assert (P : positional 16 [hex_digit (v / 256); hex_digit (v / 16 mod 16); hex_digit (v mod 16)] = v).
  { cbn [positional length]. rewrite V1, V2, V3.
    change (16 ^ N.of_nat 2) with 256. change (16 ^ N.of_nat 1) with 16. change (16 ^ N.of_nat 0) with 1. lia. }
  apply (spells_token _ KHex).
  - cbn [pattern]. change [c_ "$"; hex_digit (v / 256); hex_digit (v / 16 mod 16); hex_digit (v mod 16)]
      with ([c_ "$"] ++ [hex_digit (v / 256); hex_digit (v / 16 mod 16); hex_digit (v mod 16)]).
    constructor; [constructor; reflexivity|]. apply rmatch_hex_digits. cbn [forallb length].
    rewrite A1, A2, A3. split; [reflexivity | lia].
  - destruct b; reflexivity.
  - intros file before. eexists. split; [apply t_hex|]. cbn [bare]. rewrite P. reflexivity.
Qed.

Lemma spells_string : forall b s, quotable s -> spells b (QUOTE :: s ++ [QUOTE]) [StringLiteral s nowhere].
Proof.
  intros b s Q. eapply (spells_token _ KString); [exact Q | destruct b; reflexivity|].
  intros file before. eexists. split; [constructor | reflexivity].
Qed.

Lemma spells_mark : forall b k c t0, (forall m x, extends k m x = false) -> pattern k = lit c ->
  (forall file before, exists t, token_of file before k [c] t /\ bare t = t0) -> spells b [c] [t0].
Proof.
  intros b k c t0 E P T. eapply spells_token; [rewrite P; apply rmatch_lit; reflexivity | | exact T].
  destruct b; [reflexivity | apply E].
Qed.

Ltac mark k := eapply (spells_mark _ k); [reflexivity | reflexivity | intros; eexists; split; [constructor | reflexivity]].

Lemma spells_newline : forall b, spells b [LF] [Newline nowhere].
Proof. intros b. mark KNewline. Qed.
Lemma spells_dot : forall b, spells b (u ".") [DirectiveMarker nowhere].
Proof. intros b. change (u ".") with [c_ "."]. mark KDot. Qed.
Lemma spells_colon : forall b, spells b (u ":") [LabelMarker nowhere].
Proof. intros b. change (u ":") with [c_ ":"]. mark KColon. Qed.
Lemma spells_comma : forall b, spells b (u ", ") [Comma nowhere].
Proof.
  intros b. change (u ", ") with ([c_ ","] ++ [c_ " "]). change [Comma nowhere] with ([Comma nowhere] ++ []).
  apply spells_app; [mark KComma | apply spells_blank; reflexivity].
Qed.

(** ** Statements *)

Definition literal_tokens (a : literal) : token :=
  match a with LNumeric v => NumericLiteral v nowhere | LString s => StringLiteral s nowhere end.

Definition field_tokens (f : field) : token :=
  match f with
  | FNumeric v => NumericLiteral v nowhere
  | _ => Identifier (write_field f) nowhere
  end.

Fixpoint commas (l : list token) : list token :=
  match l with
  | [] => []
  | [a] => [a]
  | a :: r => a :: Comma nowhere :: commas r
  end.

Definition node_tokens (n : node) : list token :=
  match n with
  | NDirective _ id args =>
      DirectiveMarker nowhere :: Identifier id nowhere :: commas (map literal_tokens args) ++ [Newline nowhere]
  | NLabel _ id => [Identifier id nowhere; LabelMarker nowhere; Newline nowhere]
  | NInstruction _ m fields =>
      Identifier m nowhere :: commas (map field_tokens fields) ++ [Newline nowhere]
  end.

Lemma spells_separated : forall (A : Type) (w : A -> str) (t : A -> token) (ok : A -> Prop) l b,
  (forall a b, ok a -> closes b -> spells b (w a) [t a]) -> Forall ok l -> closes b ->
  spells b (separated (map w l)) (commas (map t l)).
Proof.
  intros A w t ok l b H F C. induction F as [|a l Ha F IH]; [apply spells_nil|].
  destruct l as [|a' l]; [cbn [map separated commas]; apply H; assumption|].
  change (separated (map w (a :: a' :: l))) with (w a ++ u ", " ++ separated (map w (a' :: l))).
  change (commas (map t (a :: a' :: l))) with ([t a] ++ [Comma nowhere] ++ commas (map t (a' :: l))).
  apply spells_app; [apply H; [exact Ha | reflexivity]|].
  apply spells_app; [apply spells_comma | exact IH].
Qed.

Lemma names_ok : forallb (fun s => match find KIdentifier s with Some m => str_eqb m s | None => false end)
  (map u ["dt"; "st"; "i"; "k"; "b"; "f"]%string ++ map (fun d => [c_ "v"; hex_digit d]) (map N.of_nat (seq 0 16))) = true.
Proof. vm_compute. reflexivity. Qed.

Lemma name_ok : forall s,
  In s (map u ["dt"; "st"; "i"; "k"; "b"; "f"]%string ++ map (fun d => [c_ "v"; hex_digit d]) (map N.of_nat (seq 0 16))) ->
  name s.
Proof.
  intros s I. pose proof names_ok as F. rewrite forallb_forall in F. specialize (F s I). cbv beta in F.
  destruct (find KIdentifier s) as [m|] eqn:E; [|discriminate]. apply str_eqb_eq in F. subst m.
  destruct (find_lexeme _ _ _ E) as (r & _ & _ & R & _). left. exact R.
Qed.

Lemma register_name : forall r, r <= 15 -> name [c_ "v"; hex_digit r].
Proof.
  intros r L. apply name_ok. apply in_or_app. right. apply (in_map (fun d => [c_ "v"; hex_digit d])).
  rewrite <- (N2Nat.id r). apply in_map, in_seq. lia.
Qed.

Lemma indirect_name : name (u "[i]").
Proof.
  right. cbn [pattern]. change (u "[i]") with ([c_ "["] ++ [c_ "i"] ++ [c_ "]"]).
  constructor; [apply rmatch_lit; reflexivity|]. constructor; [constructor; reflexivity | apply rmatch_lit; reflexivity].
Qed.

Lemma spells_field : forall f b, writable_field f -> closes b -> spells b (write_field f) [field_tokens f].
Proof.
  intros f b W C. destruct f; cbn [writable_field field_tokens write_field] in *;
    try (apply spells_name; [|exact C]).
  1: apply spells_number; exact W.
  all: try apply W; try (apply register_name; exact W); try apply indirect_name;
    apply name_ok; apply in_or_app; left; cbn [map In]; tauto.
Qed.

Lemma spells_literal : forall a b, writable_literal a -> closes b -> spells b (write_literal a) [literal_tokens a].
Proof.
  intros [s|v] b W C; cbn [writable_literal write_literal literal_tokens] in *;
    [apply spells_string; exact W | apply spells_number; exact W].
Qed.

Lemma spells_node : forall n b, writable_node n -> spells b (write_node n) (node_tokens n).
Proof.
  intros [l id args|l id|l m fields] b W; cbn [writable_node write_node node_tokens] in *.
  - destruct W as [N F]. apply (spells_app _ _ [_]); [apply spells_dot|].
    apply (spells_app _ _ [_]); [apply spells_name; [exact N | reflexivity]|].
    apply (spells_app _ _ []); [apply spells_blank; reflexivity|].
    apply spells_app; [|apply spells_newline].
    eapply spells_separated; [apply spells_literal | exact F | reflexivity].
  - apply (spells_app _ _ [_]); [apply spells_name; [exact W | reflexivity]|].
    apply (spells_app _ _ [_]); [apply spells_colon | apply spells_newline].
  - destruct W as [N F]. apply (spells_app _ _ [_]); [apply spells_name; [exact N | reflexivity]|].
    apply (spells_app _ _ []); [apply spells_blank; reflexivity|].
    apply spells_app; [|apply spells_newline].
    eapply spells_separated; [apply spells_field | exact F | reflexivity].
Qed.

Lemma spells_write : forall p, Forall writable_node p -> spells [] (write p) (flat_map node_tokens p).
Proof.
  intros p F. unfold write. induction F as [|n p W F IH]; [apply spells_nil|].
  cbn [flat_map]. apply spells_app; [apply spells_node; exact W | exact IH].
Qed.

(** ** The grammar *)

Lemma commas_literals : forall args rest, literals (commas (map literal_tokens args) ++ Newline nowhere :: rest) args
  (Newline nowhere :: rest).
Proof.
  induction args as [|a args IH]; intros rest; [constructor|].
  assert (T : literal_token (literal_tokens a) a) by (destruct a; constructor).
  destruct args as [|a' args]; [apply ls_one; exact T|].
  change (commas (map literal_tokens (a :: a' :: args)))
    with (literal_tokens a :: Comma nowhere :: commas (map literal_tokens (a' :: args))).
  cbn [app]. apply ls_more; [exact T | apply IH].
Qed.

Lemma register_operand_facts :
  forallb (fun d => match operand [c_ "v"; hex_digit d] with FRegister r => r =? d | _ => false end) (map N.of_nat (seq 0 16)) = true.
Proof. vm_compute. reflexivity. Qed.

Lemma field_written : forall f, writable_field f -> field_token (field_tokens f) f.
Proof.
  intros f W. destruct f; cbn [field_tokens writable_field write_field] in *.
  - replace (FNumeric n) with (FNumeric (n mod 4096)) by (f_equal; lia). constructor.
  - assert (E : operand [c_ "v"; hex_digit r] = FRegister r).
    { pose proof register_operand_facts as F. rewrite forallb_forall in F. specialize (F r).
      assert (I : In r (map N.of_nat (seq 0 16))) by (rewrite <- (N2Nat.id r); apply in_map, in_seq; lia).
      specialize (F I). destruct (operand [c_ "v"; hex_digit r]); try discriminate. f_equal. lia. }
    rewrite <- E. constructor.
  - exact (ft_name (u "dt") nowhere).
  - exact (ft_name (u "st") nowhere).
  - exact (ft_name (u "k") nowhere).
  - exact (ft_name (u "i") nowhere).
  - exact (ft_name (u "[i]") nowhere).
  - rewrite <- (proj2 W). constructor.
  - exact (ft_name (u "b") nowhere).
  - exact (ft_name (u "f") nowhere).
Qed.

Lemma commas_fields : forall args rest, Forall writable_field args ->
  fields (commas (map field_tokens args) ++ Newline nowhere :: rest) args (Newline nowhere :: rest).
Proof.
  induction args as [|a args IH]; intros rest F; [constructor|]. inversion F as [|? ? W F']; subst.
  pose proof (field_written a W) as T.
  destruct args as [|a' args]; [apply fs_one; exact T|].
  change (commas (map field_tokens (a :: a' :: args)))
    with (field_tokens a :: Comma nowhere :: commas (map field_tokens (a' :: args))).
  cbn [app]. apply fs_more; [exact T | apply IH; exact F'].
Qed.

Lemma node_program : forall n, writable_node n -> program (node_tokens n) [bare_node n].
Proof.
  intros [l id args|l id|l m fields] W; cbn [node_tokens bare_node writable_node] in *.
  - eapply pr_directive; [apply commas_literals | apply pr_newline; constructor].
  - apply pr_label, pr_newline. constructor.
  - eapply pr_instruction; [apply commas_fields; apply W | apply pr_newline; constructor].
Qed.

Lemma write_program : forall p, Forall writable_node p -> program (flat_map node_tokens p) (map bare_node p).
Proof.
  intros p F. induction F as [|n p W F IH]; [constructor|]. cbn [flat_map map].
  change (bare_node n :: map bare_node p) with ([bare_node n] ++ map bare_node p).
  apply program_app; [apply node_program; exact W | exact IH].
Qed.

Lemma bare_bare : forall t, bare (bare t) = bare t.
Proof. intros []; reflexivity. Qed.
Lemma bare_node_idem : forall n, bare_node (bare_node n) = bare_node n.
Proof. intros []; reflexivity. Qed.

(** What is written can be read back. *)
Theorem write_read : forall file p, Forall writable_node p ->
  exists p', stands_for file (write p) p' /\ same_program p p'.
Proof.
  intros file p F. destruct (spells_write p F file []) as (ts & C & E).
  pose proof (cut_lexes _ _ _ _ _ C [] (lex_end file _)) as L. rewrite !app_nil_r in L.
  destruct (program_same _ _ (write_program p F) ts) as (p' & P & S).
  - unfold same_tokens. rewrite E. rewrite <- E, map_map. apply map_ext. apply bare_bare.
  - exists p'. split; [exists ts; auto|]. unfold same_program in *. rewrite <- S, map_map.
    apply map_ext. intros n. symmetry. apply bare_node_idem.
Qed.

(** ** Everything that is read can be written *)

Definition token_writable (t : token) : Prop :=
  match t with
  | Identifier id _ => name id
  | StringLiteral s _ => quotable s
  | NumericLiteral v _ => v <= 4095
  | _ => True
  end.

Lemma lexes_writable : forall file before s ts, lexes file before s ts -> Forall token_writable ts.
Proof.
  intros file before s ts H.
  pose proof (lexes_number _ _ _ _ H) as V.
  induction H as [before | before c s ts Hb H IH | before s k m rest t ts L T H IH
                  | before s k m rest e L B | before c s Hb St].
  - constructor.
  - apply IH. intros v l I. destruct (lexes_number _ _ _ _ H v l I) as (X & Y). split; assumption.
  - constructor.
    + pose proof L as (_ & R & _). destruct T; cbn [token_writable]; try exact I.
      * exact R.
      * apply (V _ _ (or_introl eq_refl)).
      * apply (V _ _ (or_introl eq_refl)).
      * assumption.
      * left. exact R.
      * right. exact R.
    + apply IH. intros v l I. apply (lexes_number _ _ _ _ H v l I).
  - repeat constructor.
  - repeat constructor.
Qed.

Lemma literals_writable : forall ts args rest, literals ts args rest -> Forall token_writable ts ->
  Forall writable_literal args /\ Forall token_writable rest.
Proof.
  assert (G : forall t a, literal_token t a -> token_writable t -> writable_literal a).
  { intros t a H. destruct H; cbn; auto. }
  induction 1 as [l rest|t a rest H|t a l ts args rest H _ IH]; intros F.
  - auto.
  - inversion F; subst. split; [constructor; [eapply G; eassumption | constructor] | assumption].
  - inversion F as [|? ? Ht F1]; subst. inversion F1; subst. destruct IH as [A B]; [assumption|].
    split; [constructor; [eapply G; eassumption | exact A] | exact B].
Qed.

Lemma operand_range : forallb (fun x => match snd x with FRegister r => r <=? 15 | FNumeric _ | FIdentifier _ => false | _ => true end)
  (special_operands ++ register_operands) = true.
Proof. vm_compute. reflexivity. Qed.

Lemma operand_writable : forall id, name id -> writable_field (operand id).
Proof.
  intros id N. unfold operand. destruct (assoc id (special_operands ++ register_operands)) as [f|] eqn:E.
  - assert (I : In (id, f) (special_operands ++ register_operands)).
    { revert E. generalize (special_operands ++ register_operands). induction l as [|[k a] l IH]; [discriminate|].
      cbn [assoc]. destruct (list_eq_dec N.eq_dec id k) as [->|]; intros E; [injection E as ->; left; reflexivity|].
      right. auto. }
    pose proof operand_range as F. rewrite forallb_forall in F. specialize (F _ I). cbn [snd] in F.
    destruct f; cbn [writable_field]; try exact Logic.I; try discriminate. lia.
  - cbn [writable_field]. split; [exact N|]. unfold operand. rewrite E. reflexivity.
Qed.

Lemma fields_writable : forall ts args rest, fields ts args rest -> Forall token_writable ts ->
  Forall writable_field args /\ Forall token_writable rest.
Proof.
  assert (G : forall t a, field_token t a -> token_writable t -> writable_field a).
  { intros t a H. destruct H; cbn [token_writable]; intros W; [cbn [writable_field]; lia | apply operand_writable; exact W]. }
  induction 1 as [l rest|c l rest|t a rest H|t a l ts args rest H _ IH]; intros F.
  - auto.
  - auto.
  - inversion F; subst. split; [constructor; [eapply G; eassumption | constructor] | assumption].
  - inversion F as [|? ? Ht F1]; subst. inversion F1; subst. destruct IH as [A B]; [assumption|].
    split; [constructor; [eapply G; eassumption | exact A] | exact B].
Qed.

Lemma program_writable : forall ts p, program ts p -> Forall token_writable ts -> Forall writable_node p.
Proof.
  induction 1 as [|l ts ns H IH|c l ts ns H IH|l0 id l ts args rest ns L H IH|id l l1 ts ns H IH
                  |id l ts args rest ns L H IH]; intros F.
  - constructor.
  - inversion F; auto.
  - inversion F; auto.
  - inversion F as [|? ? _ F1]; subst. inversion F1 as [|? ? A F2]; subst.
    destruct (literals_writable _ _ _ L F2) as [B F3]. constructor; [split; assumption | auto].
  - inversion F as [|? ? A F1]; subst. inversion F1; subst. constructor; [exact A | auto].
  - inversion F as [|? ? A F1]; subst. destruct (fields_writable _ _ _ L F1) as [B F2].
    constructor; [split; assumption | auto].
Qed.

Theorem read_writable : forall file s p, stands_for file s p -> Forall writable_node p.
Proof. intros file s p (ts & L & P). eapply program_writable; [exact P | eapply lexes_writable; exact L]. Qed.

(** A text can be replaced by what is written for its program. *)
Theorem write_normal : forall file s p, stands_for file s p -> same_text file s (write p).
Proof.
  intros file s p H. destruct (write_read file p (read_writable _ _ _ H)) as (p' & H' & E).
  assert (D : forall s q q', stands_for file s q -> stands_for file s q' -> q = q').
  { intros s0 q q' (ts & L & P) (ts' & L' & P'). rewrite (lexes_det _ _ _ _ L' _ L) in P'.
    apply parse_program in P, P'. congruence. }
  split; intros q Q.
  - rewrite (D _ _ _ Q H). exists p'. auto.
  - rewrite (D _ _ _ Q H'). exists p. split; [exact H | unfold same_program in *; congruence].
Qed.
