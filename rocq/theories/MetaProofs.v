(** * MetaProofs: changes to a program which leave its data ranges unchanged *)

From Coq Require Import Permutation.
From Verif Require Import Base Text U12 Location Parser Directive Opcode Instruction DataRange Assembler
  SpecLex SpecOpcode SpecRefusal SpecLayout BaseFacts OpcodeProofs InstructionProofs InstructionTheorems
  LayoutProofs EmitProofs SpecMeta.
Open Scope N_scope.

(** ** Facts about the two passes *)

Lemma define_label_peek : forall labels a l id rest,
  define_labels_loop labels a (NLabel l id :: rest) =
  if contains_key labels id then Err (RedefinitionOfLabel l id)
  else match peek_constant rest with
       | Some c => define_labels_loop ((id, c) :: labels) a (tl rest)
       | None => define_labels_loop ((id, a) :: labels) a rest
       end.
Proof.
  intros labels a l id rest. destruct rest as [|n rest]; [reflexivity|].
  cbn [define_labels_loop tl]. destruct (peek_constant (n :: rest)); reflexivity.
Qed.

Lemma label_get_cons : forall k v m x, label_get ((k, v) :: m) x = if str_eqb k x then Some v else label_get m x.
Proof. reflexivity. Qed.

Lemma contains_ext : forall m m' x, label_get m' x = label_get m x -> contains_key m' x = contains_key m x.
Proof. intros m m' x E. unfold contains_key. rewrite E. reflexivity. Qed.

(** ** An outcome, but for the error *)

Definition ok_part {E A : Type} (r : result E A) : option A :=
  match r with Ok a => Some a | Err _ => None end.

Definition ok_run {E A : Type} (r : run (result E A)) : run (option A) :=
  match r with Done x => Done (ok_part x) | Crash c => Crash c end.

Lemma ok_run_iff : forall (E A : Type) (r r' : run (result E A)), ok_run r = ok_run r' ->
  forall a, r = Done (Ok a) <-> r' = Done (Ok a).
Proof.
  intros E A r r' H a. destruct r as [[x|e]|c], r' as [[x'|e']|c']; cbn in H; try discriminate;
    try (injection H as ->); split; congruence.
Qed.

(** ** Renaming *)

Definition apart (f : str -> str) (used : str -> Prop) : Prop :=
  forall x y, used x -> used y -> f x = f y -> x = y.

Definition rename_labels (f : str -> str) (m : label_map) : label_map := map (fun kv => (f (fst kv), snd kv)) m.

Definition keys_used (used : str -> Prop) (m : label_map) : Prop := Forall (fun kv => used (fst kv)) m.

Lemma get_renamed : forall f used m x, apart f used -> used x -> keys_used used m ->
  label_get (rename_labels f m) (f x) = label_get m x.
Proof.
  intros f used m x A U F. induction F as [|[k v] m K F IH]; [reflexivity|].
  cbn [rename_labels map fst snd]. rewrite !label_get_cons. cbn [fst] in K.
  fold (rename_labels f m). rewrite IH.
  destruct (str_eqb k x) eqn:E.
  - apply str_eqb_eq in E. subst. rewrite (proj2 (str_eqb_eq _ _) eq_refl). reflexivity.
  - replace (str_eqb (f k) (f x)) with false; [reflexivity|]. symmetry. apply not_true_is_false.
    intros H. apply str_eqb_eq in H. apply A in H; auto. subst.
    rewrite (proj2 (str_eqb_eq _ _) eq_refl) in E. discriminate.
Qed.

(** Fields which name the same thing in two tables. *)
Definition alike (labels labels' : label_map) (x y : field) : Prop :=
  match x, y with
  | FIdentifier a, FIdentifier b => label_get labels a = label_get labels' b
  | FIdentifier _, _ | _, FIdentifier _ => False
  | _, _ => x = y
  end.

Ltac alike_cases :=
  repeat match goal with
  | H : alike _ _ ?x ?y |- _ => destruct x, y; cbn [alike] in H; try contradiction; try discriminate H;
      try (injection H as H; subst)
  end;
  unfold resolve_label;
  repeat match goal with G : label_get _ _ = label_get _ _ |- _ => rewrite <- G; clear G end;
  repeat match goal with
  | |- context[ok_or (label_get ?m ?x)] => destruct (label_get m x); cbn [ok_or rbind]
  end;
  repeat match goal with
  | |- ok_part (if ?c then _ else _) = _ => destruct c
  end; try reflexivity.

Lemma opcode_1_alike : forall m a b x y, alike a b x y -> ok_part (opcode_1 m x a) = ok_part (opcode_1 m y b).
Proof. intros m a b x y H. unfold opcode_1. alike_cases. Qed.

Lemma opcode_2_alike : forall m a b x y x' y', alike a b x y -> alike a b x' y' ->
  ok_part (opcode_2 m x x' a) = ok_part (opcode_2 m y y' b).
Proof. intros m a b x y x' y' H K. unfold opcode_2. alike_cases. Qed.

Lemma opcode_3_alike : forall m a b x y x' y' x'' y'', alike a b x y -> alike a b x' y' -> alike a b x'' y'' ->
  ok_part (opcode_3 m x x' x'' a) = ok_part (opcode_3 m y y' y'' b).
Proof. intros m a b x y x' y' x'' y'' H K J. unfold opcode_3. alike_cases. Qed.

Lemma instruction_alike : forall m a b xs ys, Forall2 (alike a b) xs ys ->
  ok_part (instruction_from m xs a) = ok_part (instruction_from m ys b).
Proof.
  intros m a b xs ys H. unfold instruction_from.
  assert (R : forall (r r' : result instruction_error (option opcode)) e e', ok_part r = ok_part r' ->
    ok_part (rbind r (fun o => ok_or o e)) = ok_part (rbind r' (fun o => ok_or o e'))).
  { intros [o|?] [o'|?] err err' E; try discriminate; [|reflexivity]. injection E as <-. destruct o; reflexivity. }
  destruct H as [|x y ? ? Hx H]; [apply R; reflexivity|].
  destruct H as [|x' y' ? ? Hx' H]; [apply R, opcode_1_alike, Hx|].
  destruct H as [|x'' y'' ? ? Hx'' H]; [apply R, opcode_2_alike; assumption|].
  destruct H as [|? ? ? ? ? H]; [apply R, opcode_3_alike; assumption|].
  apply R. reflexivity.
Qed.

Lemma rename_alike : forall f used m fields, apart f used -> keys_used used m ->
  (forall x, In (FIdentifier x) fields -> used x) ->
  Forall2 (alike (rename_labels f m) m) (map (rename_field f) fields) fields.
Proof.
  intros f used m fields A F. induction fields as [|x fields IH]; intros U; constructor.
  - destruct x; cbn; auto. eapply get_renamed; [exact A | apply U; left; reflexivity | exact F].
  - apply IH. intros y I. apply U. right. exact I.
Qed.

Lemma peek_renamed : forall f p, peek_constant (map (rename f) p) = peek_constant p.
Proof. intros f [|[] p]; reflexivity. Qed.

Lemma contains_renamed : forall f used m x, apart f used -> used x -> keys_used used m ->
  contains_key (rename_labels f m) (f x) = contains_key m x.
Proof. intros f used m x A U F. unfold contains_key. rewrite (get_renamed f used) by assumption. reflexivity. Qed.

Lemma define_renamed : forall f used p labels a, apart f used -> (forall n x, In n p -> mentions n x -> used x) ->
  keys_used used labels ->
  ok_part (define_labels_loop (rename_labels f labels) a (map (rename f) p)) =
    option_map (rename_labels f) (ok_part (define_labels_loop labels a p)) /\
  (forall m, define_labels_loop labels a p = Ok m -> keys_used used m).
Proof.
  intros f used p labels a A. revert labels a.
  assert (G : forall n p, (length p <= n)%nat -> forall labels a,
    (forall n x, In n p -> mentions n x -> used x) -> keys_used used labels ->
    ok_part (define_labels_loop (rename_labels f labels) a (map (rename f) p)) =
      option_map (rename_labels f) (ok_part (define_labels_loop labels a p)) /\
    (forall m, define_labels_loop labels a p = Ok m -> keys_used used m)).
  2: { intros labels a. apply (G (length p)). lia. }
  clear p. induction n as [|n IH]; intros [|x p] L labels a U K; cbn [length] in L; try lia;
    try (split; [reflexivity | intros m E; injection E as <-; exact K]).
  assert (U' : forall n x, In n p -> mentions n x -> used x) by (intros ? ? I; apply U; right; exact I).
  destruct x as [l id args|l id|l m fs]; cbn [map rename].
  - cbn [define_labels_loop].
    destruct (directive_from id args) as [d|e]; cbn [map_err rbind]; [|split; [reflexivity | discriminate]].
    destruct (u12_failable_into (directive_size d)) as [s|]; cbn [ok_or rbind]; [|split; [reflexivity | discriminate]].
    destruct (u12_checked_add a s) as [b|]; cbn [ok_or rbind]; [|split; [reflexivity | discriminate]].
    destruct d; [apply IH; auto; lia | apply IH; auto; lia | split; [reflexivity | discriminate]].
  - rewrite !define_label_peek, peek_renamed.
    assert (I : used id) by (apply (U (NLabel l id)); [left; reflexivity | reflexivity]).
    rewrite (contains_renamed f used) by assumption.
    destruct (contains_key labels id); [split; [reflexivity | discriminate]|].
    destruct (peek_constant p) as [c|].
    + replace (tl (map (rename f) p)) with (map (rename f) (tl p)) by (destruct p; reflexivity).
      apply (IH (tl p) ltac:(destruct p; cbn [tl length] in *; lia) ((id, c) :: labels) a).
      * intros y z J. apply U'. destruct p; [contradiction | right; exact J].
      * constructor; [exact I | exact K].
    + apply (IH p ltac:(lia) ((id, a) :: labels) a); [exact U' | constructor; [exact I | exact K]].
  - cbn [define_labels_loop].
    destruct (u12_checked_add a bytes_per_instruction) as [b|]; cbn [ok_or rbind]; [|split; [reflexivity | discriminate]].
    apply IH; auto. lia.
Qed.

Lemma emit_renamed : forall f used labels p ranges current, apart f used -> keys_used used labels ->
  (forall n x, In n p -> mentions n x -> used x) ->
  ok_run (emit_loop (rename_labels f labels) ranges current (map (rename f) p)) =
  ok_run (emit_loop labels ranges current p).
Proof.
  intros f used labels p ranges current A K. revert ranges current.
  induction p as [|x p IH]; intros ranges current U; [reflexivity|].
  assert (U' : forall n x, In n p -> mentions n x -> used x) by (intros ? ? I; apply U; right; exact I).
  destruct x as [l id args|l id|l m fs]; cbn [map rename emit_loop].
  - destruct (directive_from id args) as [d|e]; [|reflexivity].
    destruct d; try (apply IH; exact U');
      match goal with |- ok_run (bind ?x _) = _ => destruct x as [r|c]; cbn [bind] end;
      try (apply IH; exact U'); reflexivity.
  - apply IH; exact U'.
  - assert (E : ok_part (instruction_from m (map (rename_field f) fs) (rename_labels f labels)) =
                ok_part (instruction_from m fs labels)).
    { apply instruction_alike. eapply rename_alike; [exact A | exact K |].
      intros y I. apply (U (NInstruction l m fs)); [left; reflexivity | exact I]. }
    destruct (instruction_from m (map (rename_field f) fs) (rename_labels f labels)) as [o|e],
      (instruction_from m fs labels) as [o'|e']; try discriminate; [|reflexivity].
    injection E as <-.
    destruct (instruction_into_vec o) as [b|c]; cbn [bind]; [|reflexivity].
    destruct (append_asserted current b) as [r|c]; cbn [bind]; [apply IH; exact U' | reflexivity].
Qed.

Theorem assemble_renamed : forall f p rs, keeps_apart f p ->
  (assemble (map (rename f) p) = Done (Ok rs) <-> assemble p = Done (Ok rs)).
Proof.
  intros f p rs A. revert rs. apply ok_run_iff. unfold assemble, define_labels.
  assert (U : forall n x, In n p -> mentions n x -> mentioned p x) by (intros n x I M; exists n; auto).
  destruct (define_renamed f (mentioned p) p [] 0 A U (Forall_nil _)) as [E K].
  cbn [rename_labels map] in E.
  destruct (define_labels_loop [] 0 p) as [m|e] eqn:D;
    destruct (define_labels_loop [] 0 (map (rename f) p)) as [m'|e'];
    cbn [ok_part option_map] in E; try discriminate; [|reflexivity].
  injection E as ->. eapply emit_renamed; [exact A | apply K; reflexivity | exact U].
Qed.

(** ** A label nobody uses *)

(** Tables which agree but on [id]. *)
Definition agree (id : str) (m m' : label_map) : Prop := forall x, x <> id -> label_get m' x = label_get m x.

Lemma agree_cons : forall id k v m m', agree id m m' -> agree id ((k, v) :: m) ((k, v) :: m').
Proof. intros id k v m m' A x N. rewrite !label_get_cons, (A x N). reflexivity. Qed.

Lemma define_agree : forall id p a m m', (forall n, In n p -> ~ mentions n id) -> agree id m m' ->
  match define_labels_loop m a p, define_labels_loop m' a p with
  | Ok r, Ok r' => agree id r r'
  | Err e, Err e' => e = e'
  | _, _ => False
  end.
Proof.
  intros id p a m m'. revert a m m'.
  assert (G : forall n p, (length p <= n)%nat -> forall a m m', (forall n, In n p -> ~ mentions n id) -> agree id m m' ->
    match define_labels_loop m a p, define_labels_loop m' a p with
    | Ok r, Ok r' => agree id r r'
    | Err e, Err e' => e = e'
    | _, _ => False
    end).
  2: { intros a m m'. apply (G (length p)). lia. }
  clear p. induction n as [|n IH]; intros [|x p] L a m m' U A; cbn [length] in L; try lia; try exact A.
  assert (U' : forall n, In n p -> ~ mentions n id) by (intros ? I; apply U; right; exact I).
  destruct x as [l d args|l k|l i fs].
  - cbn [define_labels_loop].
    destruct (directive_from d args) as [d'|e]; cbn [map_err rbind]; [|reflexivity].
    destruct (u12_failable_into (directive_size d')) as [s|]; cbn [ok_or rbind]; [|reflexivity].
    destruct (u12_checked_add a s) as [b|]; cbn [ok_or rbind]; [|reflexivity].
    destruct d'; [apply IH; auto; lia | apply IH; auto; lia | reflexivity].
  - rewrite !define_label_peek.
    assert (N : k <> id) by (intros ->; apply (U (NLabel l id)); [left|]; reflexivity).
    rewrite (contains_ext m m' k (A k N)). destruct (contains_key m k); [reflexivity|].
    destruct (peek_constant p) as [c|].
    + apply (IH (tl p)).
      * destruct p; cbn [tl length] in *; lia.
      * intros y J. apply U'. destruct p; [contradiction | right; exact J].
      * apply agree_cons, A.
    + apply IH; [lia | exact U' | apply agree_cons, A].
  - cbn [define_labels_loop].
    destruct (u12_checked_add a bytes_per_instruction) as [b|]; cbn [ok_or rbind]; [|reflexivity].
    apply IH; auto. lia.
Qed.

Lemma peek_app : forall x p q, peek_constant ((x :: p) ++ q) = peek_constant (x :: p).
Proof. intros [] p q; reflexivity. Qed.

Lemma define_insert : forall id l p q a m, (forall n, In n (p ++ q) -> ~ mentions n id) ->
  peek_constant q = None -> label_get m id = None ->
  match define_labels_loop m a (p ++ q), define_labels_loop m a (p ++ NLabel l id :: q) with
  | Ok r, Ok r' => agree id r r'
  | Err e, Err e' => e = e'
  | _, _ => False
  end.
Proof.
  intros id l p q a m U Q. revert p a m U.
  assert (G : forall n p, (length p <= n)%nat -> forall a m, (forall n, In n (p ++ q) -> ~ mentions n id) ->
    label_get m id = None ->
    match define_labels_loop m a (p ++ q), define_labels_loop m a (p ++ NLabel l id :: q) with
    | Ok r, Ok r' => agree id r r'
    | Err e, Err e' => e = e'
    | _, _ => False
    end).
  2: { intros p a m. apply (G (length p)). lia. }
  assert (Base : forall a m, (forall n, In n q -> ~ mentions n id) -> label_get m id = None ->
    match define_labels_loop m a q, define_labels_loop m a (NLabel l id :: q) with
    | Ok r, Ok r' => agree id r r'
    | Err e, Err e' => e = e'
    | _, _ => False
    end).
  { intros a m U N. rewrite define_label_peek, Q. rewrite (proj2 (contains_false m id) N).
    apply define_agree; [exact U|]. intros x D. rewrite label_get_cons.
    destruct (str_eqb id x) eqn:E; [|reflexivity]. apply str_eqb_eq in E. congruence. }
  induction n as [|n IH]; intros [|x p] L a m U N; cbn [length] in L; try lia;
    try (cbn [app]; apply Base; assumption).
  assert (U' : forall n, In n (p ++ q) -> ~ mentions n id) by (intros ? I; apply U; right; exact I).
  cbn [app]. destruct x as [k d args|k y|k i fs].
  - cbn [define_labels_loop].
    destruct (directive_from d args) as [d'|e]; cbn [map_err rbind]; [|reflexivity].
    destruct (u12_failable_into (directive_size d')) as [s|]; cbn [ok_or rbind]; [|reflexivity].
    destruct (u12_checked_add a s) as [b|]; cbn [ok_or rbind]; [|reflexivity].
    destruct d'; [apply IH; auto; lia | apply IH; auto; lia | reflexivity].
  - rewrite !define_label_peek.
    assert (D : y <> id) by (intros ->; apply (U (NLabel k id)); [left|]; reflexivity).
    assert (N' : forall v, label_get ((y, v) :: m) id = None).
    { intros v. rewrite label_get_cons, N. destruct (str_eqb y id) eqn:E; [|reflexivity].
      apply str_eqb_eq in E. contradiction. }
    destruct (contains_key m y); [reflexivity|].
    destruct p as [|z p].
    + cbn [app]. rewrite Q. cbn [peek_constant]. apply (IH []); [cbn; lia | exact U' | apply N'].
    + rewrite !peek_app. destruct (peek_constant (z :: p)) as [c|].
      * cbn [app tl]. apply IH; [cbn [length] in L; lia | | apply N'].
        intros w J. apply U'. right. exact J.
      * apply (IH (z :: p)); [lia | exact U' | apply N'].
  - cbn [define_labels_loop].
    destruct (u12_checked_add a bytes_per_instruction) as [b|]; cbn [ok_or rbind]; [|reflexivity].
    apply IH; auto. lia.
Qed.

Lemma emit_skips_label : forall labels l id p q ranges current,
  emit_loop labels ranges current (p ++ NLabel l id :: q) = emit_loop labels ranges current (p ++ q).
Proof.
  intros labels l id p q. induction p as [|x p IH]; intros ranges current; [reflexivity|].
  destruct x as [k d args|k y|k m fs]; cbn [app emit_loop].
  - destruct (directive_from d args) as [d'|e]; [|reflexivity].
    destruct d'; try apply IH;
      match goal with |- bind ?x _ = _ => destruct x as [r|c]; cbn [bind] end;
      try apply IH; reflexivity.
  - apply IH.
  - destruct (instruction_from m fs labels) as [o|e]; [|reflexivity].
    destruct (instruction_into_vec o) as [b|c]; cbn [bind]; [|reflexivity].
    destruct (append_asserted current b) as [r|c]; cbn [bind]; [apply IH | reflexivity].
Qed.

(** Only the labels referenced matter to the second pass. *)
Lemma opcode_1_ext : forall m x a b, (forall l, x = FIdentifier l -> label_get a l = label_get b l) ->
  opcode_1 m x a = opcode_1 m x b.
Proof. intros m x a b H. unfold opcode_1, resolve_label. destruct x; try reflexivity. rewrite (H _ eq_refl). reflexivity. Qed.

Lemma opcode_2_ext : forall m x y a b, (forall l, y = FIdentifier l -> label_get a l = label_get b l) ->
  opcode_2 m x y a = opcode_2 m x y b.
Proof.
  intros m x y a b H. unfold opcode_2, resolve_label. destruct y; try reflexivity.
  rewrite (H _ eq_refl). reflexivity.
Qed.

Lemma opcode_3_ext : forall m x y z a b, (forall l, z = FIdentifier l -> label_get a l = label_get b l) ->
  opcode_3 m x y z a = opcode_3 m x y z b.
Proof.
  intros m x y z a b H. unfold opcode_3, resolve_label. destruct z; try reflexivity.
  rewrite (H _ eq_refl). reflexivity.
Qed.

Lemma instruction_ext : forall m fs a b, (forall l, In (FIdentifier l) fs -> label_get a l = label_get b l) ->
  instruction_from m fs a = instruction_from m fs b.
Proof.
  intros m fs a b H. unfold instruction_from.
  destruct fs as [|x [|y [|z [|]]]]; try reflexivity.
  - rewrite (opcode_1_ext _ x a b); [reflexivity|]. intros l ->. apply H. left. reflexivity.
  - rewrite (opcode_2_ext _ x y a b); [reflexivity|]. intros l ->. apply H. right. left. reflexivity.
  - rewrite (opcode_3_ext _ x y z a b); [reflexivity|]. intros l ->. apply H. do 2 right. left. reflexivity.
Qed.

Lemma emit_ext : forall a b p ranges current,
  (forall n l, In n p -> mentions n l -> label_get a l = label_get b l) ->
  emit_loop a ranges current p = emit_loop b ranges current p.
Proof.
  intros a b p. induction p as [|x p IH]; intros ranges current H; [reflexivity|].
  assert (H' : forall n l, In n p -> mentions n l -> label_get a l = label_get b l)
    by (intros n l I; apply H; right; exact I).
  destruct x as [k d args|k y|k m fs]; cbn [emit_loop].
  - destruct (directive_from d args) as [d'|e]; [|reflexivity].
    destruct d'; try (apply IH; exact H');
      match goal with |- bind ?x _ = _ => destruct x as [r|c]; cbn [bind] end;
      try (apply IH; exact H'); reflexivity.
  - apply IH, H'.
  - rewrite (instruction_ext m fs a b).
    2: { intros l I. apply (H (NInstruction k m fs)); [left; reflexivity | exact I]. }
    destruct (instruction_from m fs b) as [o|e]; [|reflexivity].
    destruct (instruction_into_vec o) as [r|c]; cbn [bind]; [|reflexivity].
    destruct (append_asserted current r) as [s|c]; cbn [bind]; [apply IH, H' | reflexivity].
Qed.

Theorem assemble_insert : forall p q l id, ~ mentioned (p ++ q) id -> Forall node_ok q ->
  (forall n r, q = n :: r -> constant n = None) ->
  assemble (p ++ NLabel l id :: q) = assemble (p ++ q).
Proof.
  intros p q l id U O C.
  assert (Q : peek_constant q = None).
  { rewrite peek_constant_spec by exact O. destruct q as [|n r]; [reflexivity | apply (C n r eq_refl)]. }
  assert (V : forall n, In n (p ++ q) -> ~ mentions n id) by (intros n I M; apply U; exists n; auto).
  unfold assemble, define_labels, emit_data_ranges.
  pose proof (define_insert id l p q 0 [] V Q eq_refl) as D.
  destruct (define_labels_loop [] 0 (p ++ q)) as [m|e], (define_labels_loop [] 0 (p ++ NLabel l id :: q)) as [m'|e'];
    try contradiction; [|congruence].
  rewrite emit_skips_label. apply emit_ext. intros n x I M. apply D. intros ->. apply (V n I M).
Qed.
