(** * RenameProofs: the errors of a program whose labels are renamed *)

From Verif Require Import Base Text U12 Location Parser Directive Opcode Instruction DataRange Assembler
  SpecRefusal BaseFacts SpecMeta MetaProofs SpecRename.
Open Scope N_scope.

(** Errors of one instruction, apart from that of an unknown format. *)
Inductive reason_renamed (f : str -> str) : instruction_error -> instruction_error -> Prop :=
| reason_unknown : forall x, reason_renamed f (UnableToResolveLabel x) (UnableToResolveLabel (f x))
| reason_byte : forall v, reason_renamed f (ExpectingEightBitValue v) (ExpectingEightBitValue v)
| reason_nibble : forall v, reason_renamed f (ExpectingFourBitValue v) (ExpectingFourBitValue v).

Definition results_renamed {A : Type} (f : str -> str) (r r' : result instruction_error A) : Prop :=
  match r, r' with
  | Ok a, Ok b => a = b
  | Err e, Err e' => reason_renamed f e e'
  | _, _ => False
  end.

(** A field and its renamed form name the same thing. *)
Definition kept (f : str -> str) (labels labels' : label_map) (x : field) : Prop :=
  match x with FIdentifier a => label_get labels' (f a) = label_get labels a | _ => True end.

Ltac kept_cases :=
  repeat match goal with
  | |- context[if str_eqb ?m ?s then _ else _] => destruct (str_eqb m s)
  end;
  repeat match goal with
  | H : kept _ _ _ ?x |- _ => destruct x; cbn [kept rename_field] in *
  end;
  unfold resolve_label, to_8_bit, to_4_bit;
  repeat match goal with
  | G : label_get _ (_ _) = label_get _ _ |- _ => rewrite G; clear G
  end;
  repeat match goal with
  | |- context[match ?n with 0 => _ | N.pos _ => _ end] => destruct n
  | |- context[ok_or ?x] => destruct x; cbn [ok_or rbind]
  | |- context[u8_failable_from_u12 ?x] => destruct (u8_failable_from_u12 x); cbn [rbind]
  | |- context[if ?c then _ else _] => destruct c; cbn [rbind]
  end; cbn [results_renamed rbind]; try constructor; try reflexivity.

Lemma opcode_1_renamed : forall f m a b x, kept f a b x ->
  results_renamed f (opcode_1 m x a) (opcode_1 m (rename_field f x) b).
Proof. intros f m a b x H. unfold opcode_1. kept_cases. Qed.

Lemma opcode_2_renamed : forall f m a b x y, kept f a b x -> kept f a b y ->
  results_renamed f (opcode_2 m x y a) (opcode_2 m (rename_field f x) (rename_field f y) b).
Proof. intros f m a b x y H K. unfold opcode_2. kept_cases. Qed.

Lemma opcode_3_renamed : forall f m a b x y z, kept f a b x -> kept f a b y -> kept f a b z ->
  results_renamed f (opcode_3 m x y z a) (opcode_3 m (rename_field f x) (rename_field f y) (rename_field f z) b).
Proof. intros f m a b x y z H K J. unfold opcode_3. kept_cases. Qed.

(** Either the same opcode, or errors which correspond. *)
Lemma instruction_renamed : forall f m a b fields, Forall (kept f a b) fields ->
  match instruction_from m fields a, instruction_from m (map (rename_field f) fields) b with
  | Ok o, Ok o' => o = o'
  | Err e, Err e' => reason_renamed f e e' \/
      e = NoMatchingFormat m (listed fields) /\ e' = NoMatchingFormat m (listed (map (rename_field f) fields))
  | _, _ => False
  end.
Proof.
  intros f m a b fields H. unfold instruction_from. fold (listed fields).
  fold (listed (map (rename_field f) fields)).
  assert (R : forall (r r' : result instruction_error (option opcode)), results_renamed f r r' ->
    match rbind r (fun o => ok_or o (NoMatchingFormat m (listed fields))),
          rbind r' (fun o => ok_or o (NoMatchingFormat m (listed (map (rename_field f) fields)))) with
    | Ok o, Ok o' => o = o'
    | Err e, Err e' => reason_renamed f e e' \/
        e = NoMatchingFormat m (listed fields) /\ e' = NoMatchingFormat m (listed (map (rename_field f) fields))
    | _, _ => False
    end).
  { intros [o|e] [o'|e'] E; cbn [results_renamed] in E; try contradiction; cbn [rbind].
    - subst. destruct o'; cbn [ok_or]; [reflexivity | right; split; reflexivity].
    - left. exact E. }
  destruct fields as [|x fields]; [apply R; reflexivity|]. inversion H as [|? ? Hx H1]; subst.
  destruct fields as [|y fields]; [apply R, opcode_1_renamed, Hx|]. inversion H1 as [|? ? Hy H2]; subst.
  destruct fields as [|z fields]; [apply R, opcode_2_renamed; assumption|]. inversion H2 as [|? ? Hz H3]; subst.
  destruct fields as [|? fields]; [apply R, opcode_3_renamed; assumption|].
  apply R. reflexivity.
Qed.

Lemma error_renamed_more : forall f p q e e', (forall n, In n p -> In n q) ->
  error_renamed f p e e' -> error_renamed f q e e'.
Proof. intros f p q e e' S H. destruct H; constructor. apply S. assumption. Qed.

(** The first pass. *)
Lemma define_errors_renamed : forall f used k p labels a, (length p <= k)%nat -> apart f used ->
  (forall n x, In n p -> mentions n x -> used x) -> keys_used used labels ->
  match define_labels_loop labels a p, define_labels_loop (rename_labels f labels) a (map (rename f) p) with
  | Ok m, Ok m' => m' = rename_labels f m /\ keys_used used m
  | Err e, Err e' => error_renamed f p e e'
  | _, _ => False
  end.
Proof.
  intros f used k p labels a L A. revert p labels a L.
  induction k as [|k IH]; intros p labels a L U K; (destruct p as [|x p]; [split; [reflexivity | exact K]|]);
    [cbn [length] in L; lia|].
  assert (U' : forall n x, In n p -> mentions n x -> used x) by (intros ? ? I; apply U; right; exact I).
  assert (G : forall q labels a, (forall n, In n q -> In n p) -> (length q <= k)%nat -> keys_used used labels ->
    match define_labels_loop labels a q, define_labels_loop (rename_labels f labels) a (map (rename f) q) with
    | Ok m, Ok m' => m' = rename_labels f m /\ keys_used used m
    | Err e, Err e' => error_renamed f (x :: p) e e'
    | _, _ => False
    end).
  { intros q labels' a' S L' K'. specialize (IH q labels' a' L').
    assert (Uq : forall n x, In n q -> mentions n x -> used x) by (intros n y I; apply U', S, I).
    specialize (IH Uq K').
    destruct (define_labels_loop labels' a' q), (define_labels_loop (rename_labels f labels') a' (map (rename f) q));
      try exact IH.
    eapply error_renamed_more; [|exact IH]. intros n I. right. apply S, I. }
  clear IH. cbn [length] in L.
  destruct x as [l id args|l id|l m fields]; cbn [map rename].
  - cbn [define_labels_loop].
    destruct (directive_from id args) as [d|e]; cbn [map_err rbind]; [|constructor].
    destruct (u12_failable_into (directive_size d)) as [s|]; cbn [ok_or rbind]; [|constructor].
    destruct (u12_checked_add a s) as [b|]; cbn [ok_or rbind]; [|constructor].
    destruct d; try constructor; apply G; auto; lia.
  - rewrite !define_label_peek, peek_renamed.
    assert (I : used id) by (apply (U (NLabel l id)); [left; reflexivity | reflexivity]).
    rewrite (contains_renamed f used) by assumption.
    destruct (contains_key labels id); [constructor|].
    destruct (peek_constant p) as [c|].
    + replace (tl (map (rename f) p)) with (map (rename f) (tl p)) by (destruct p; reflexivity).
      apply (G (tl p) ((id, c) :: labels) a).
      * intros n J. destruct p; [contradiction | right; exact J].
      * destruct p; cbn [tl length] in *; lia.
      * constructor; [exact I | exact K].
    + apply (G p ((id, a) :: labels) a); [auto | lia | constructor; [exact I | exact K]].
  - cbn [define_labels_loop].
    destruct (u12_checked_add a bytes_per_instruction) as [b|]; cbn [ok_or rbind]; [|constructor].
    apply G; auto. lia.
Qed.

(** Outcomes which correspond. *)
Definition outcome_renamed (f : str -> str) (p : list node)
  (r r' : run (result semantic_error (list data_range))) : Prop :=
  match r, r' with
  | Done (Ok rs), Done (Ok rs') => rs' = rs
  | Done (Err e), Done (Err e') => error_renamed f p e e'
  | Crash c, Crash c' => c' = c
  | _, _ => False
  end.

(** The second pass. *)
Lemma emit_errors_renamed : forall f used labels p ranges current, apart f used -> keys_used used labels ->
  (forall n x, In n p -> mentions n x -> used x) ->
  outcome_renamed f p (emit_loop labels ranges current p)
                      (emit_loop (rename_labels f labels) ranges current (map (rename f) p)).
Proof.
  intros f used labels p ranges current A K. revert ranges current.
  induction p as [|x p IH]; intros ranges current U; [reflexivity|].
  assert (U' : forall n x, In n p -> mentions n x -> used x) by (intros ? ? I; apply U; right; exact I).
  assert (G : forall ranges current, outcome_renamed f (x :: p) (emit_loop labels ranges current p)
    (emit_loop (rename_labels f labels) ranges current (map (rename f) p))).
  { intros r c. specialize (IH r c U').
    destruct (emit_loop labels r c p) as [[?|?]|?],
      (emit_loop (rename_labels f labels) r c (map (rename f) p)) as [[?|?]|?]; try exact IH.
    eapply error_renamed_more; [|exact IH]. intros n I. right. exact I. }
  clear IH. destruct x as [l id args|l id|l m fs]; cbn [map rename emit_loop].
  - destruct (directive_from id args) as [d|e]; [|reflexivity].
    destruct d; try apply G;
      match goal with |- outcome_renamed _ _ (bind ?x _) _ => destruct x as [r|c]; cbn [bind] end;
      try apply G; reflexivity.
  - apply G.
  - assert (F : Forall (kept f labels (rename_labels f labels)) fs).
    { apply Forall_forall. intros y I. destruct y; cbn [kept]; auto.
      apply (get_renamed f used); [exact A | | exact K].
      apply (U (NInstruction l m fs)); [left; reflexivity | exact I]. }
    pose proof (instruction_renamed f m labels (rename_labels f labels) fs F) as E.
    destruct (instruction_from m fs labels) as [o|e],
      (instruction_from m (map (rename_field f) fs) (rename_labels f labels)) as [o'|e']; try contradiction.
    + subst o'. destruct (instruction_into_vec o) as [b|c]; cbn [bind]; [|reflexivity].
      destruct (append_asserted current b) as [r|c]; cbn [bind]; [apply G | reflexivity].
    + destruct E as [E|[-> ->]]; cbn [outcome_renamed].
      * destruct E; constructor.
      * constructor. left. reflexivity.
Qed.

Theorem outcome_of_renamed : forall f p, keeps_apart f p ->
  outcome_renamed f p (assemble p) (assemble (map (rename f) p)).
Proof.
  intros f p A. unfold assemble, define_labels.
  assert (U : forall n x, In n p -> mentions n x -> mentioned p x) by (intros n x I M; exists n; auto).
  pose proof (define_errors_renamed f (mentioned p) (length p) p [] 0 (le_n _) A U (Forall_nil _)) as E.
  cbn [rename_labels map] in E.
  destruct (define_labels_loop [] 0 p) as [m|e];
    destruct (define_labels_loop [] 0 (map (rename f) p)) as [m'|e']; try contradiction.
  - destruct E as [-> K]. unfold emit_data_ranges. eapply emit_errors_renamed; [exact A | exact K | exact U].
  - exact E.
Qed.
