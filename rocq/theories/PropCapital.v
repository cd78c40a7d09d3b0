(** * PropCapital: property C94, with instances. *)

From Verif Require Import Base Text U12 Location Token Scanner Parser Directive Opcode Instruction DataRange Assembler IHex Main
  SpecLex SpecGrammar SpecOpcode SpecErase SpecCode SpecUtf8 SpecPlace SpecBlank SpecMeta SpecCapital
  SpecRefusal SpecKind SpecRename
  BaseFacts LexProofs ScanProofs LexTheorems LexAppend ParseProofs KindProofs CaseProofs OperandProofs TextProofs TextCode MainProofs
  MetaProofs BlankProofs CapitalProofs PropInstr PropMeta PropOutput PropText PropRewrite PropRename.
Open Scope string_scope.
Open Scope list_scope.
Open Scope N_scope.

(** ** C94: the case of the letters of a text. *)

(** The tokens are the same, at the same places, spelled with the letters of their text. *)
Theorem C94_tokens : forall (R : char -> char -> Prop) file s s' ts, (forall c c', R c c' -> upper c = upper c') ->
  Forall2 R s s' -> scan file s = Done ts ->
  exists ts', scan file s' = Done ts' /\ Forall2 (respelled R) ts ts'.
Proof.
  intros R file s s' ts H F Sc. apply scan_lexes in Sc.
  destruct (lexes_spelled R H _ _ _ _ Sc [] s' (Forall2_nil _) F) as (ts' & L & T).
  exists ts'. split; [apply scan_lexes; exact L | exact T].
Qed.
Print Assumptions C94_tokens.

(** The statements are the same, with names spelled with the letters of their text. *)
Theorem C94_program : forall (R : char -> char -> Prop) file s s' ts ts' p, (forall c c', R c c' -> upper c = upper c') ->
  Forall2 R s s' -> scan file s = Done ts -> scan file s' = Done ts' ->
  strings ts = strings ts' -> no_mixed_names ts -> no_mixed_names ts' ->
  parsed file s p -> exists p', parsed file s' p' /\ Forall2 (respelled_node R) p p'.
Proof.
  intros R file s s' ts ts' p H F Sc Sc' St N N' (ts1 & S1 & P). rewrite Sc in S1. injection S1 as <-.
  destruct (C94_tokens R file s s' ts H F Sc) as (ts2 & S2 & T). rewrite Sc' in S2. injection S2 as <-.
  apply parse_program in P.
  destruct (program_spelled R H ts p P ts' (strings_kept R ts ts' T St) N N') as (p' & P' & Q).
  exists p'. split; [|exact Q]. exists ts'. split; [exact Sc' | apply parse_program; exact P'].
Qed.
Print Assumptions C94_program.

(** If the labels are renamed, and those which were apart remain so, the HEX text is the same. *)
Theorem C94_output : forall e f file s s' ts ts' p p' text, same_but_case s s' ->
  scan file s = Done ts -> scan file s' = Done ts' ->
  strings ts = strings ts' -> no_mixed_names ts -> no_mixed_names ts' ->
  parsed file s p -> parsed file s' p' -> label_mentions p' = map f (label_mentions p) -> keeps_apart f p ->
  (assemble_text e file s = Done (Ok text) <-> assemble_text e file s' = Done (Ok text)).
Proof.
  intros e f file s s' ts ts' p p' text C Sc Sc' St N N' P P' Na K.
  destruct (C94_program (fun c c' => upper c = upper c') file s s' ts ts' p (fun _ _ E => E) (case_spelled _ _ C) Sc Sc' St N N' P)
    as (p2 & (ts2 & S2 & P2) & Q).
  pose proof P' as (ts3 & S3 & P3). rewrite S2 in S3. injection S3 as <-. rewrite P2 in P3. injection P3 as <-.
  pose proof (C24_case _ _ (respelled_renamed _ (fun _ _ E => E) f p p2 Q Na)) as R.
  apply (changed_output e _ _ _ _ p p2 p2 text P P' eq_refl). intros rs.
  rewrite <- (assemble_renamed f p rs K). split; intros A; rewrite A in R; inversion R as [r r' T E1 E2 | c E1 E2]; subst;
    inversion T; subst; congruence.
Qed.
Print Assumptions C94_output.

(** If the labels are written the same, nothing more is asked. *)
Corollary C94_labels_kept : forall e file s s' ts ts' p p' text, same_but_case s s' ->
  scan file s = Done ts -> scan file s' = Done ts' ->
  strings ts = strings ts' -> no_mixed_names ts -> no_mixed_names ts' ->
  parsed file s p -> parsed file s' p' -> label_mentions p' = label_mentions p ->
  (assemble_text e file s = Done (Ok text) <-> assemble_text e file s' = Done (Ok text)).
Proof.
  intros e file s s' ts ts' p p' text C Sc Sc' St N N' P P' Na.
  apply (C94_output e (fun x => x) file s s' ts ts' p p' text C Sc Sc' St N N' P P'); [rewrite map_id; exact Na|].
  intros x y _ _ E. exact E.
Qed.
Print Assumptions C94_labels_kept.

Lemma no_quote_no_strings : forall file s ts, ~ In QUOTE s -> scan file s = Done ts -> strings ts = [].
Proof.
  intros file s x Nq Sx. destruct (strings x) as [|b r] eqn:E; [reflexivity|]. exfalso. apply Nq.
  assert (I : In b (strings x)) by (rewrite E; left; reflexivity).
  unfold strings in I. apply in_flat_map in I. destruct I as (tk & It & Ib).
  destruct tk as [| | | |b' l| | | |]; try contradiction Ib.
  apply In_nth_error in It. destruct It as (i & It).
  destruct (scan_location _ _ _ _ _ Sx It) as (before & m & after & -> & _ & _ & _ & T).
  specialize (T eq_refl). inversion T; subst m. apply in_or_app. right. apply in_or_app. left. left. reflexivity.
Qed.

Lemma accepted_parsed : forall e file s text, assemble_text e file s = Done (Ok text) -> exists p, parsed file s p.
Proof.
  intros e file s text A. unfold assemble_text in A. destruct (scan_total file s) as (ts & S). rewrite S in A. cbn [bind] in A.
  destruct (parse ts) as [[p|err]|c] eqn:P; cbn [bind] in A; [exists p, ts; split; assumption | destruct (parse_error_fmt err); discriminate A | discriminate A].
Qed.

(** All letters of the text are changed by a function [g]. *)
Theorem C94_recased : forall e g file s ts ts' text, (forall c, upper (g c) = upper c) ->
  scan file s = Done ts -> scan file (map g s) = Done ts' ->
  strings ts = strings ts' -> no_mixed_names ts -> no_mixed_names ts' ->
  (forall p, parsed file s p -> keeps_apart (map g) p) ->
  (assemble_text e file s = Done (Ok text) <-> assemble_text e file (map g s) = Done (Ok text)).
Proof.
  intros e g file s ts ts' text G Sc Sc' St N N' K.
  assert (H : forall c c', c' = g c -> upper c = upper c') by (intros c c' ->; symmetry; apply G).
  assert (F : Forall2 (fun c c' => c' = g c) s (map g s)) by (clear; induction s; constructor; auto).
  assert (C : same_but_case s (map g s)) by exact (spelled_case _ H _ _ F).
  assert (M : forall x y, Forall2 (fun c c' => c' = g c) x y -> y = map g x).
  { clear. induction 1 as [|c c' x y -> _ IH]; [reflexivity | cbn [map]; rewrite IH; reflexivity]. }
  assert (MM : forall x y, Forall2 (Forall2 (fun c c' => c' = g c)) x y -> y = map (map g) x).
  { clear - M. induction 1 as [|c c' x y E _ IH]; [reflexivity | cbn [map]; rewrite IH, (M _ _ E); reflexivity]. }
  assert (Main : forall p, parsed file s p ->
    (assemble_text e file s = Done (Ok text) <-> assemble_text e file (map g s) = Done (Ok text))).
  { intros p P.
    destruct (C94_program _ file s (map g s) ts ts' p H F Sc Sc' St N N' P) as (p' & P' & Q).
    apply (C94_output e (map g) file s (map g s) ts ts' p p' text C Sc Sc' St N N' P P'); [|exact (K p P)].
    apply MM. apply respelled_names. exact Q. }
  split; intros A.
  - destruct (accepted_parsed _ _ _ _ A) as (p & P). apply (Main p P). exact A.
  - destruct (accepted_parsed _ _ _ _ A) as (p' & P').
    destruct (C94_program (fun c c' => upper c = upper c') file (map g s) s ts' ts p' (fun _ _ E => E)
                (case_spelled _ _ (sbc_sym _ _ C)) Sc' Sc (eq_sym St) N' N P') as (p & P & _).
    apply (Main p P). exact A.
Qed.
Print Assumptions C94_recased.

Lemma no_quote_map : forall g s, (forall c, upper (g c) = upper c) -> ~ In QUOTE s -> ~ In QUOTE (map g s).
Proof.
  intros g s G N I. apply N. apply in_map_iff in I. destruct I as (c & E & I).
  assert (Q : QUOTE = c) by (apply not_letter; [rewrite <- E; apply G | vm_compute; reflexivity]). rewrite Q. exact I.
Qed.

Lemma one_case : forall (g : char -> char) file s ts, (forall c, upper (g c) = upper c) ->
  scan file (map g s) = Done ts -> (forall id l, In (Identifier id l) ts -> exists x, id = map g x).
Proof.
  intros g file s ts' G Sc' id l I. destruct (scan_total file s) as (ts & Sc).
  assert (H : forall c c', c' = g c -> upper c = upper c') by (intros c c' ->; symmetry; apply G).
  assert (F : Forall2 (fun c c' => c' = g c) s (map g s)) by (clear; induction s; constructor; auto).
  destruct (C94_tokens _ file s (map g s) ts H F Sc) as (ts2 & S2 & T). rewrite Sc' in S2. injection S2 as <-.
  clear - T I. induction T as [|t t' ts ts' [t1 E | m m' l1 M | b b' l1 M | m m' l1 M] _ IH]; [destruct I| | | |];
    (destruct I as [I|I]; [|exact (IH I)]); try discriminate I.
  - subst t1. discriminate E.
  - injection I as <- <-. exists m. clear - M. induction M as [|c c' x y -> _ IH]; [reflexivity | cbn [map]; rewrite IH; reflexivity].
Qed.

Lemma upper_upper : forall c, upper (upper c) = upper c.
Proof. intros c. unfold upper. destruct ((97 <=? c) && (c <=? 122)) eqn:E; [|rewrite E; reflexivity].
  apply andb_prop in E. destruct E as [A B]. apply N.leb_le in A, B.
  replace (97 <=? c - 32) with false by (symmetry; apply N.leb_gt; lia). reflexivity.
Qed.

Lemma upper_lower : forall c, upper (lower c) = upper c.
Proof.
  intros c. unfold upper, lower. destruct ((65 <=? c) && (c <=? 90)) eqn:E; [|reflexivity].
  apply andb_prop in E. destruct E as [A B]. apply N.leb_le in A, B.
  replace ((97 <=? c + 32) && (c + 32 <=? 122)) with true by (symmetry; apply andb_true_intro; split; apply N.leb_le; lia).
  replace ((97 <=? c) && (c <=? 122)) with false by (symmetry; apply andb_false_iff; left; apply N.leb_gt; lia). lia.
Qed.

Lemma upper_not_mixed : forall x, ~ In (map upper x) mixed.
Proof.
  intros x I. assert (E : map upper (map upper x) = map upper x) by (rewrite map_map; apply map_ext; apply upper_upper).
  assert (K : forallb (fun m => negb (str_eqb (map upper m) m)) mixed = true) by (vm_compute; reflexivity).
  rewrite forallb_forall in K. specialize (K _ I). rewrite E in K. rewrite str_eqb_refl in K. discriminate K.
Qed.

Lemma lower_lower : forall c, lower (lower c) = lower c.
Proof. intros c. unfold lower. destruct ((65 <=? c) && (c <=? 90)) eqn:E; [|rewrite E; reflexivity].
  apply andb_prop in E. destruct E as [A B]. apply N.leb_le in A, B.
  replace (c + 32 <=? 90) with false by (symmetry; apply N.leb_gt; lia). rewrite andb_false_r. reflexivity.
Qed.

Lemma lower_not_mixed : forall x, ~ In (map lower x) mixed.
Proof.
  intros x I. assert (E : map lower (map lower x) = map lower x) by (rewrite map_map; apply map_ext; apply lower_lower).
  assert (K : forallb (fun m => negb (str_eqb (map lower m) m)) mixed = true) by (vm_compute; reflexivity).
  rewrite forallb_forall in K. specialize (K _ I). rewrite E in K. rewrite str_eqb_refl in K. discriminate K.
Qed.

(** A text without strings, and the same in capitals. *)
Theorem C94_capitals : forall e file s ts text, ~ In QUOTE s -> scan file s = Done ts -> no_mixed_names ts ->
  (forall p, parsed file s p -> keeps_apart (map upper) p) ->
  (assemble_text e file s = Done (Ok text) <-> assemble_text e file (map upper s) = Done (Ok text)).
Proof.
  intros e file s ts text Q Sc N K. destruct (scan_total file (map upper s)) as (ts' & Sc').
  apply (C94_recased e upper file s ts ts' text upper_upper Sc Sc'); [|exact N| |exact K].
  - rewrite (no_quote_no_strings _ _ _ Q Sc), (no_quote_no_strings _ _ _ (no_quote_map upper s upper_upper Q) Sc'). reflexivity.
  - intros id l I. destruct (one_case upper file s ts' upper_upper Sc' id l I) as (x & ->). apply upper_not_mixed.
Qed.
Print Assumptions C94_capitals.

(** And in small letters. *)
Theorem C94_small : forall e file s ts text, ~ In QUOTE s -> scan file s = Done ts -> no_mixed_names ts ->
  (forall p, parsed file s p -> keeps_apart (map lower) p) ->
  (assemble_text e file s = Done (Ok text) <-> assemble_text e file (map lower s) = Done (Ok text)).
Proof.
  intros e file s ts text Q Sc N K. destruct (scan_total file (map lower s)) as (ts' & Sc').
  apply (C94_recased e lower file s ts ts' text upper_lower Sc Sc'); [|exact N| |exact K].
  - rewrite (no_quote_no_strings _ _ _ Q Sc), (no_quote_no_strings _ _ _ (no_quote_map lower s upper_lower Q) Sc'). reflexivity.
  - intros id l I. destruct (one_case lower file s ts' upper_lower Sc' id l I) as (x & ->). apply lower_not_mixed.
Qed.
Print Assumptions C94_small.

(** ** Refused texts *)

Lemma respelled_sort : forall R ts ts', Forall2 (respelled R) ts ts' -> Forall2 same_sort ts ts'.
Proof.
  intros R ts ts' F. induction F as [|t t' ts ts' T _ IH]; [constructor|]. constructor; [|exact IH].
  destruct T as [t E | m m' l M | b b' l M | m m' l M]; [destruct t; try discriminate E|..]; constructor.
Qed.

Lemma sbc_refl : forall s, same_but_case s s.
Proof. intros s. reflexivity. Qed.

Ltac by_parts := repeat first [apply sbc_refl | assumption | apply sbc_app].

Lemma token_fmt_case : forall t t', respelled (fun c c' => upper c = upper c') t t' ->
  same_but_case (token_fmt t) (token_fmt t') /\ token_location t = token_location t'.
Proof.
  intros t t' [t0 E | m m' l M | b b' l M | m m' l M]; try (split; [apply sbc_refl | reflexivity]);
    (split; [|reflexivity]); apply (spelled_case _ (fun _ _ E => E)) in M; cbn [token_fmt]; by_parts.
Qed.

Lemma parse_error_case : forall r r' e m, Forall2 (respelled (fun c c' => upper c = upper c')) r r' ->
  parse_error_fmt (syntax_error (hd_error r) e) = Done m ->
  exists m', parse_error_fmt (syntax_error (hd_error r') e) = Done m' /\ same_but_case m m'.
Proof.
  intros r r' e m [|t t' a b T _] H; cbn [hd_error syntax_error] in *; [exists m; split; [exact H | apply sbc_refl]|].
  destruct (token_fmt_case _ _ T) as [F L].
  destruct T as [t0 E | x x' l M | x x' l M | x x' l M]; [exists m; split; [exact H | apply sbc_refl]|..];
    cbn [parse_error_fmt] in *; cbv zeta in *; cbn [token_location] in *;
    destruct e as [|e1 [|e2 e]]; try discriminate H; apply (f_equal (fun o => match o with Done v => v | Crash _ => [] end)) in H;
    cbv beta iota in H; subst m; (eexists; split; [reflexivity | by_parts]).
Qed.

Lemma field_fmt_case : forall f, (forall x, same_but_case x (f x)) -> forall x, same_but_case (field_fmt x) (field_fmt (rename_field f x)).
Proof. intros f F x. destruct x; try apply sbc_refl. cbn [rename_field field_fmt]. apply sbc_app; [apply sbc_refl | apply F]. Qed.

Lemma join_case : forall sep l l', Forall2 same_but_case l l' -> same_but_case (join sep l) (join sep l').
Proof.
  intros sep l l' H. induction H as [|x x' l l' X F IH]; [apply sbc_refl|]. destruct F as [|y y' l l' Y F]; [exact X|].
  cbn [join] in *. by_parts.
Qed.

Lemma semantic_error_case : forall f p e e1 e2, (forall x, same_but_case x (f x)) -> error_renamed f p e e1 -> same_error e1 e2 ->
  same_but_case (semantic_error_fmt e) (semantic_error_fmt e2).
Proof.
  intros f p e e1 e2 F R S0.
  assert (A : same_but_case (semantic_error_fmt e) (semantic_error_fmt e1)).
  { destruct R as [l x | l x | l m fs I | | | | | | |]; try apply sbc_refl; cbn [semantic_error_fmt instruction_error_fmt].
    - pose proof (F x). by_parts.
    - pose proof (F x). by_parts.
    - destruct fs as [|f1 fs]; [apply sbc_refl|]. cbn [listed map]. cbn [instruction_error_fmt].
      assert (J : same_but_case (join (u ", ") (field_fmt f1 :: map field_fmt fs))
                    (join (u ", ") (field_fmt (rename_field f f1) :: map field_fmt (map (rename_field f) fs)))).
      { apply join_case. constructor; [apply field_fmt_case; exact F|]. clear I S0. induction fs as [|g fs IH]; [constructor|].
        cbn [map]. constructor; [apply field_fmt_case; exact F | exact IH]. }
      by_parts. }
  assert (B : same_but_case (semantic_error_fmt e1) (semantic_error_fmt e2)).
  { destruct S0 as [e0 | l id id' N | l m m' d N]; [apply sbc_refl|..]; cbn [semantic_error_fmt directive_error_fmt instruction_error_fmt].
    - change (same_but_case id id') in N. by_parts.
    - change (same_but_case m m') in N. destruct d; by_parts. }
  unfold same_but_case in *. congruence.
Qed.

(** A text which is refused is refused in the same way, with the letters of the other in the message. *)
Theorem C94_refused : forall e f file s s' ts ts' message, same_but_case s s' ->
  scan file s = Done ts -> scan file s' = Done ts' ->
  strings ts = strings ts' -> no_mixed_names ts -> no_mixed_names ts' ->
  (forall x, same_but_case x (f x)) ->
  (forall p p', parsed file s p -> parsed file s' p' -> label_mentions p' = map f (label_mentions p) /\ keeps_apart f p) ->
  assemble_text e file s = Done (Err message) ->
  exists message', assemble_text e file s' = Done (Err message') /\ same_but_case message message'.
Proof.
  intros e f file s s' ts ts' message C Sc Sc' St N N' Ff K A.
  destruct (C94_tokens (fun c c' => upper c = upper c') file s s' ts (fun _ _ E => E) (case_spelled _ _ C) Sc) as (ts2 & S2 & T).
  rewrite Sc' in S2. injection S2 as <-.
  unfold assemble_text in A |- *. rewrite Sc in A. rewrite Sc'. cbn [bind] in *.
  destruct (parse ts) as [[p|err]|c] eqn:P; cbn [bind] in A; [| |discriminate A].
  - assert (Pp : parsed file s p) by (exists ts; split; assumption).
    destruct (C94_program (fun c c' => upper c = upper c') file s s' ts ts' p (fun _ _ E => E) (case_spelled _ _ C) Sc Sc' St N N' Pp)
      as (p' & Pp' & Q).
    destruct (K p p' Pp Pp') as [Na Ka]. pose proof Pp' as (ts3 & S3 & P3). rewrite Sc' in S3. injection S3 as <-.
    rewrite P3. cbn [bind].
    pose proof (C24_case _ _ (respelled_renamed _ (fun _ _ E => E) f p p' Q Na)) as R.
    destruct (assemble p) as [[rs|err]|c] eqn:Ap; cbn [bind] in A; [| |discriminate A].
    + apply (assemble_renamed f p rs Ka) in Ap. rewrite Ap in R. inversion R as [r r' T1 E1 E2|]; subst. inversion T1; subst.
      cbn [bind]. exists message. split; [exact A | apply sbc_refl].
    + destruct (C68_error f p err Ka Ap) as (e1 & A1 & Re). rewrite A1 in R. inversion R as [r r' T1 E1 E2|]; subst.
      inversion T1 as [|x e2 Se]; subst. cbn [bind]. apply (f_equal (fun o => match o with Done (Err v) => v | _ => [] end)) in A.
      cbv beta iota in A. subst message. eexists. split; [reflexivity|].
      apply sbc_app; [exact (semantic_error_case f p err e1 e2 Ff Re Se) | apply sbc_refl].
  - destruct (refused_sort ts err P ts' (respelled_sort _ _ _ T)) as (b & r & b' & r' & x & E1 & E2 & Fb & Fr & -> & _ & P').
    rewrite P'. cbn [bind].
    assert (Tr : Forall2 (respelled (fun c c' => upper c = upper c')) r r').
    { rewrite E1, E2 in T. apply Forall2_app_inv_l in T. destruct T as (b2 & r2 & Tb & Tr & E).
      assert (Lb : length b' = length b2) by (clear - Fb Tb; revert b2 Tb; induction Fb; intros b2 Tb; inversion Tb; subst; cbn [length]; auto).
      destruct (app_same_length _ _ _ _ _ Lb E) as [_ ->]. exact Tr. }
    destruct (parse_error_fmt (syntax_error (hd_error r) x)) as [m|c] eqn:Pm; cbn [bind] in A; [|discriminate A].
    destruct (parse_error_case _ _ _ _ Tr Pm) as (m' & Pm' & Cm). rewrite Pm'. cbn [bind].
    apply (f_equal (fun o => match o with Done (Err v) => v | _ => [] end)) in A.
    cbv beta iota in A. subst message. eexists. split; [reflexivity|]. apply sbc_app; [exact Cm | apply sbc_refl].
Qed.
Print Assumptions C94_refused.

Corollary C94_capitals_refused : forall e file s ts message, ~ In QUOTE s -> scan file s = Done ts -> no_mixed_names ts ->
  (forall p, parsed file s p -> keeps_apart (map upper) p) -> assemble_text e file s = Done (Err message) ->
  exists message', assemble_text e file (map upper s) = Done (Err message') /\ same_but_case message message'.
Proof.
  intros e file s ts message Q Sc N K A. destruct (scan_total file (map upper s)) as (ts' & Sc').
  assert (H : forall c c', c' = upper c -> upper c = upper c') by (intros c c' ->; symmetry; apply upper_upper).
  assert (F : Forall2 (fun c c' => c' = upper c) s (map upper s)) by (clear; induction s; constructor; auto).
  assert (St : strings ts = strings ts').
  { rewrite (no_quote_no_strings _ _ _ Q Sc), (no_quote_no_strings _ _ _ (no_quote_map upper s upper_upper Q) Sc'). reflexivity. }
  assert (N' : no_mixed_names ts').
  { intros id l I. destruct (one_case upper file s ts' upper_upper Sc' id l I) as (x & ->). apply upper_not_mixed. }
  apply (C94_refused e (map upper) file s (map upper s) ts ts' message (spelled_case _ H _ _ F) Sc Sc' St N N'); [| |exact A].
  - intros x. unfold same_but_case. rewrite map_map. symmetry. apply map_ext. apply upper_upper.
  - intros p p' P P'. split; [|exact (K p P)].
    destruct (C94_program _ file s (map upper s) ts ts' p H F Sc Sc' St N N' P) as (p2 & (t2 & S2 & P2) & Q2).
    destruct P' as (t3 & S3 & P3). rewrite S2 in S3. injection S3 as <-. rewrite P2 in P3. injection P3 as <-.
    apply respelled_names in Q2. clear - Q2.
    induction Q2 as [|x y xs ys X _ IH]; [reflexivity|]. cbn [map]. rewrite IH. f_equal. clear - X.
    induction X as [|c c' x y -> _ IH]; [reflexivity | cbn [map]; rewrite IH; reflexivity].
Qed.
Print Assumptions C94_capitals_refused.

(** A program, and the same in capitals. *)
Definition in_small : str := lines [".org $2ab"; "go: ld v0, k ; wait"; "ld dt, v0"; "jp Go1"; "Go1: jp go"].

Definition labels_apart (g : char -> char) (file s : str) : bool :=
  match scan file s with
  | Done ts =>
      match parse ts with
      | Done (Ok p) =>
          forallb (fun x => forallb (fun y => negb (str_eqb (map g x) (map g y)) || str_eqb x y) (label_mentions p)) (label_mentions p)
      | _ => true
      end
  | _ => false
  end.

Definition free_of_mixed (file s : str) : bool :=
  match scan file s with
  | Done ts => forallb (fun t => match t with Identifier id _ => negb (existsb (str_eqb id) mixed) | _ => true end) ts
  | _ => false
  end.

Lemma names_mentioned : forall p x, mentioned p x -> In x (label_mentions p).
Proof.
  intros p x (n & I & M). unfold label_mentions. apply in_flat_map. exists n. split; [exact I|].
  destruct n as [l id args | l id | l m fs]; cbn [mentions] in M; [destruct M | left; exact M |].
  apply in_flat_map. exists (FIdentifier x). split; [exact M | left; reflexivity].
Qed.

Lemma labels_apart_ok : forall g file s, labels_apart g file s = true -> forall p, parsed file s p -> keeps_apart (map g) p.
Proof.
  intros g file s H p (ts & Sc & P) x y X Y E. unfold labels_apart in H. rewrite Sc, P in H.
  rewrite forallb_forall in H. specialize (H x (names_mentioned _ _ X)). rewrite forallb_forall in H.
  specialize (H y (names_mentioned _ _ Y)). rewrite E, str_eqb_refl in H. apply str_eqb_eq. exact H.
Qed.

Lemma free_of_mixed_ok : forall file s, free_of_mixed file s = true -> exists ts, scan file s = Done ts /\ no_mixed_names ts.
Proof.
  intros file s H. unfold free_of_mixed in H. destruct (scan file s) as [ts|] eqn:E; [|discriminate H].
  exists ts. split; [reflexivity|]. intros id l I M. rewrite forallb_forall in H. specialize (H _ I). cbn beta iota in H.
  apply negb_true_iff in H. assert (X : existsb (str_eqb id) mixed = true); [|congruence].
  apply existsb_exists. exists id. split; [exact M | apply str_eqb_refl].
Qed.

Example C94_instance :
  ~ In QUOTE in_small /\ (exists ts, scan (u "in.s") in_small = Done ts /\ no_mixed_names ts) /\
  (forall p, parsed (u "in.s") in_small p -> keeps_apart (map upper) p) /\
  map upper in_small = lines [".ORG $2AB"; "GO: LD V0, K ; WAIT"; "LD DT, V0"; "JP GO1"; "GO1: JP GO"] /\
  assemble_text sample_env (u "in.s") (map upper in_small) = assemble_text sample_env (u "in.s") in_small /\
  assemble_text sample_env (u "in.s") in_small = Done (Ok (lines [":0802AB00F00AF01512B112ABCC"; ":00000001FF"])).
Proof.
  split; [assert (K : existsb (N.eqb QUOTE) in_small = false) by (vm_compute; reflexivity);
          intros I; assert (X : existsb (N.eqb QUOTE) in_small = true); [|congruence];
          apply existsb_exists; exists QUOTE; split; [exact I | reflexivity]|].
  split; [apply free_of_mixed_ok; vm_compute; reflexivity|].
  split; [apply labels_apart_ok; vm_compute; reflexivity|].
  split; [vm_compute; reflexivity|]. split; vm_compute; reflexivity.
Qed.

(** The conditions are needed: labels which capitals confound, a mixed name, a string. *)
Example C94_needed :
  (exists text, assemble_text sample_env (u "in.s") (lines [".org $200"; "go: jp go"; "Go: jp Go"]) = Done (Ok text)) /\
  (exists message, assemble_text sample_env (u "in.s") (map upper (lines [".org $200"; "go: jp go"; "Go: jp Go"])) = Done (Err message)) /\
  (exists message, assemble_text sample_env (u "in.s") (lines [".org $200"; "ld v0, Dt"]) = Done (Err message)) /\
  (exists text, assemble_text sample_env (u "in.s") (map upper (lines [".org $200"; "ld v0, Dt"])) = Done (Ok text)) /\
  (exists text text', let s := u ".org $200" ++ [LF] ++ u ".db " ++ [QUOTE] ++ u "a" ++ [QUOTE] ++ [LF] in
    assemble_text sample_env (u "in.s") s = Done (Ok text) /\
    assemble_text sample_env (u "in.s") (map upper s) = Done (Ok text') /\ text <> text').
Proof.
  split; [eexists; vm_compute; reflexivity|]. split; [eexists; vm_compute; reflexivity|].
  split; [eexists; vm_compute; reflexivity|]. split; [eexists; vm_compute; reflexivity|].
  exists (lines [":01020000619C"; ":00000001FF"]), (lines [":0102000041BC"; ":00000001FF"]).
  cbv zeta. split; [vm_compute; reflexivity|]. split; [vm_compute; reflexivity|]. vm_compute. discriminate.
Qed.

(** A refused text: the name in the message is in capitals as well. *)
Example C94_refused_instance :
  let s := lines [".org $200"; "jp elsewhere"] in
  free_of_mixed (u "in.s") s = true /\ labels_apart upper (u "in.s") s = true /\
  assemble_text sample_env (u "in.s") s = Done (Err (lines ["in.s:2:1-2: error: Unable to resolve label elsewhere."])) /\
  assemble_text sample_env (u "in.s") (map upper s) = Done (Err (lines ["in.s:2:1-2: error: Unable to resolve label ELSEWHERE."])).
Proof. cbv zeta. split; [vm_compute; reflexivity|]. split; [vm_compute; reflexivity|]. split; vm_compute; reflexivity. Qed.
