(** * RewriteProofs: labels replaced by their values, '.org' to the next address, statements
    added at the end. *)

From Verif Require Import Base Text U12 Location Parser Directive Opcode Instruction DataRange Assembler
  SpecLex SpecOpcode SpecRefusal SpecLayout SpecMeta SpecRewrite BaseFacts OpcodeProofs InstructionProofs
  InstructionTheorems LayoutProofs EmitProofs DataRangeProofs OutputProofs MetaProofs SectionProofs.
Open Scope N_scope.

(** ** Labels replaced by their values *)

Lemma define_inlined : forall lk p p', Forall2 (inlined lk) p p' ->
  forall m a, define_labels_loop m a p' = define_labels_loop m a p.
Proof.
  intros lk.
  assert (G : forall n p p', (length p <= n)%nat -> Forall2 (inlined lk) p p' ->
    forall m a, define_labels_loop m a p' = define_labels_loop m a p).
  2: { intros p p' F. apply (G (length p)); [lia | exact F]. }
  induction n as [|n IH]; intros p p' L F m a; destruct F as [|x y p p' I F]; cbn [length] in L; try lia; try reflexivity.
  destruct I as [x|l i fs fs' _].
  - destruct x as [k d args|k d|k i fs].
    + cbn [define_labels_loop].
      destruct (directive_from d args) as [d'|e]; cbn [map_err rbind]; [|reflexivity].
      destruct (u12_failable_into (directive_size d')) as [s|]; cbn [ok_or rbind]; [|reflexivity].
      destruct (u12_checked_add a s) as [b|]; cbn [ok_or rbind]; [|reflexivity].
      destruct d'; [apply IH; [lia | exact F] | apply IH; [lia | exact F] | reflexivity].
    + rewrite !define_label_peek.
      assert (P : peek_constant p' = peek_constant p)
        by (destruct F as [|? ? ? ? [z|? ? ? ? _] _]; [reflexivity | destruct z; reflexivity | reflexivity]).
      rewrite P. destruct (contains_key m d); [reflexivity|].
      destruct (peek_constant p) as [c|]; [|apply IH; [lia | exact F]].
      destruct F as [|? ? ? ? _ F]; cbn [tl]; [reflexivity|]. apply IH; [cbn [length] in L; lia | exact F].
    + cbn [define_labels_loop].
      destruct (u12_checked_add a bytes_per_instruction) as [b|]; cbn [ok_or rbind]; [|reflexivity].
      apply IH; [lia | exact F].
  - cbn [define_labels_loop].
    destruct (u12_checked_add a bytes_per_instruction) as [b|]; cbn [ok_or rbind]; [|reflexivity].
    apply IH; [lia | exact F].
Qed.

Lemma replaced_inlines : forall lk lk' xs ys, (forall x, lk' x = lk x) ->
  Forall2 (replaced lk) xs ys -> Forall2 (inlines lk') xs ys.
Proof.
  intros lk lk' xs ys E F. induction F as [|x y xs ys R F IH]; constructor; [|exact IH].
  destruct R as [f|l v H]; constructor. rewrite E. exact H.
Qed.

Lemma emit_inlined : forall lk labels p p', (forall x, label_get labels x = lk x) -> Forall2 (inlined lk) p p' ->
  forall ranges current,
  operands_aside (emit_loop labels ranges current p') = operands_aside (emit_loop labels ranges current p).
Proof.
  intros lk labels p p' E F. induction F as [|x y p p' I F IH]; intros ranges current; [reflexivity|].
  destruct I as [x|l i fs fs' R].
  - destruct x as [k d args|k d|k i fs]; cbn [emit_loop].
    + destruct (directive_from d args) as [d'|e]; [|reflexivity].
      destruct d'; try apply IH;
        match goal with |- operands_aside (bind ?x _) = _ => destruct x as [r|c]; cbn [bind] end;
        try apply IH; reflexivity.
    + apply IH.
    + destruct (instruction_from i fs labels) as [o|e]; [|reflexivity].
      destruct (instruction_into_vec o) as [b|c]; cbn [bind]; [|reflexivity].
      destruct (append_asserted current b) as [r|c]; cbn [bind]; [apply IH | reflexivity].
  - cbn [emit_loop]. pose proof (label_means_value i labels fs fs' (replaced_inlines _ _ _ _ E R)) as M.
    destruct (instruction_from i fs' labels) as [o|e], (instruction_from i fs labels) as [o'|e'].
    + cbn [unlisted] in M. injection M as <-.
      destruct (instruction_into_vec o) as [b|c]; cbn [bind]; [|reflexivity].
      destruct (append_asserted current b) as [r|c]; cbn [bind]; [apply IH | reflexivity].
    + cbn [unlisted] in M. destruct e'; discriminate M.
    + cbn [unlisted] in M. destruct e; discriminate M.
    + destruct e, e'; cbn [unlisted] in M; try discriminate M; injection M as <-; try subst; reflexivity.
Qed.

Theorem assemble_inlined : forall p p', Forall node_ok p -> Forall2 (inlined (lookup p)) p p' ->
  operands_aside (assemble p') = operands_aside (assemble p).
Proof.
  intros p p' O F. unfold assemble, define_labels. rewrite (define_inlined _ _ _ F).
  pose proof (define_labels_spec p O) as D. unfold define_labels in D.
  destruct (define_labels_loop [] 0 p) as [labels|e]; [|reflexivity].
  apply (emit_inlined (lookup p)); [apply D | exact F].
Qed.

(** ** An '.org' to the next address *)

Lemma define_here : forall l id q p a m, directive_from id [LNumeric (counter a p)] = Ok (Org (counter a p)) ->
  a <= 4095 -> Forall node_ok p -> peek_constant q = None ->
  define_labels_loop m a (p ++ NDirective l id [LNumeric (counter a p)] :: q) = define_labels_loop m a (p ++ q).
Proof.
  intros l id q.
  assert (G : forall n p, (length p <= n)%nat -> forall a c m, c = counter a p ->
    directive_from id [LNumeric c] = Ok (Org c) -> a <= 4095 -> Forall node_ok p -> peek_constant q = None ->
    define_labels_loop m a (p ++ NDirective l id [LNumeric c] :: q) = define_labels_loop m a (p ++ q)).
  2: { intros p a m. apply (G (length p)); [lia | reflexivity]. }
  induction n as [|n IH]; intros [|x p] L a c m C E A O Q; cbn [length] in L; try lia;
    try (cbn [counter fold_left] in C; subst c; cbn [app define_labels_loop]; rewrite E; cbn [map_err rbind];
         rewrite (proj2 (failable_some (directive_size (Org a)) 0)) by (cbn; lia); cbn [ok_or rbind];
         rewrite (proj2 (checked_add_some a 0 a)) by lia; reflexivity).
  cbn [app]. inversion O as [|? ? Ox Op]; subst x0 l0. change (counter a (x :: p)) with (counter (after a x) p) in C.
  destruct x as [k d args|k d|k i fs].
  - cbn [define_labels_loop]. cbn [node_ok] in Ox.
    destruct (directive_from d args) as [d'|e] eqn:D; cbn [map_err rbind]; [|reflexivity].
    apply directive_means in D; [|exact Ox]. rewrite (after_means _ _ _ _ _ D) in C.
    destruct (u12_failable_into (directive_size d')) as [s|] eqn:S; cbn [ok_or rbind]; [|reflexivity].
    apply failable_some in S. destruct S as [_ ->].
    destruct (u12_checked_add a (directive_size d')) as [b|] eqn:B; cbn [ok_or rbind]; [|reflexivity].
    apply checked_add_some in B. destruct B as [B ->].
    destruct d'; [| |reflexivity]; (apply IH; [lia | exact C | exact E | | exact Op | exact Q]).
    + inversion D; subst; assumption.
    + exact B.
  - rewrite after_label in C. rewrite !define_label_peek. destruct (contains_key m d); [reflexivity|].
    destruct p as [|z p].
    + cbn [app]. rewrite Q. cbn [peek_constant]. rewrite E. apply (IH []); [cbn; lia | exact C | exact E | exact A | constructor | exact Q].
    + rewrite !peek_app. destruct (peek_constant (z :: p)) as [v|] eqn:V.
      * cbn [app tl]. inversion Op as [|? ? Oz Op']; subst.
        apply IH; [cbn [length] in L; lia | | exact E | exact A | exact Op' | exact Q].
        rewrite peek_constant_spec in V by exact Op.
        destruct (constant_node _ _ V) as (? & ? & ? & -> & M).
        change (counter a (?x :: p)) with (counter (after a x) p). cbn [counter fold_left].
        rewrite (after_means _ _ _ _ _ M). cbn [directive_size]. rewrite N.add_0_r. reflexivity.
      * apply (IH (z :: p)); [lia | exact C | exact E | exact A | exact Op | exact Q].
  - cbn [define_labels_loop].
    destruct (u12_checked_add a bytes_per_instruction) as [b|] eqn:B; cbn [ok_or rbind]; [|reflexivity].
    apply checked_add_some in B. destruct B as [B ->].
    apply IH; [lia | exact C | exact E | exact B | exact Op | exact Q].
Qed.

Lemma append_shape : forall r bytes, dr_start r <= 4095 ->
  append_asserted r bytes =
    if dr_start r + range_len r <=? 4096 then
      if dr_start r + range_len r + N.of_nat (length bytes) <=? 4096
      then Done (mk_range (dr_start r) (dr_data r ++ bytes)) else Crash AssertFailed
    else Crash ArithOverflow.
Proof.
  intros r bytes S. unfold append_asserted, range_append, bytes_remaining, u12_max.
  rewrite (proj2 (N.leb_le (dr_start r) 0xFFF)) by exact S.
  destruct (N.leb_spec (range_len r) (0xFFF - dr_start r + 1)), (N.leb_spec (dr_start r + range_len r) 4096); try lia;
    cbn [bind]; [|reflexivity].
  destruct (N.leb_spec (N.of_nat (length bytes)) (0xFFF - dr_start r + 1 - range_len r)),
    (N.leb_spec (dr_start r + range_len r + N.of_nat (length bytes)) 4096); try lia; reflexivity.
Qed.

Lemma push_memory : forall ranges r, memory (push_range ranges r) = memory ranges ++ place (dr_start r) (dr_data r).
Proof.
  intros ranges r. unfold push_range, range_len. destruct (dr_data r) as [|b d] eqn:E.
  - cbn. rewrite app_nil_r. reflexivity.
  - replace (0 <? N.of_nat (length (b :: d))) with true by (cbn [length]; lia).
    unfold memory. rewrite flat_map_app. cbn [flat_map]. rewrite E, app_nil_r. reflexivity.
Qed.

(** Two states of the second pass with the same bytes so far and the same next address. *)
Definition joined (ranges : list data_range) (current : data_range) (ranges' : list data_range) (current' : data_range) : Prop :=
  dr_start current <= 4095 /\ dr_start current' <= 4095 /\
  dr_start current + range_len current = dr_start current' + range_len current' /\
  memory ranges ++ place (dr_start current) (dr_data current) =
  memory ranges' ++ place (dr_start current') (dr_data current').

Lemma joined_append : forall ranges current ranges' current' bytes, joined ranges current ranges' current' ->
  (exists r r', append_asserted current bytes = Done r /\ append_asserted current' bytes = Done r' /\
     joined ranges r ranges' r') \/
  (exists c, append_asserted current bytes = Crash c /\ append_asserted current' bytes = Crash c).
Proof.
  intros ranges current ranges' current' bytes (S & S' & E & M). rewrite !append_shape by assumption. rewrite <- E.
  destruct (dr_start current + range_len current <=? 4096); [|right; eauto].
  destruct (_ <=? 4096); [|right; eauto]. left. do 2 eexists. split; [reflexivity|]. split; [reflexivity|].
  unfold joined, range_len in *. cbn [dr_start dr_data]. rewrite !app_length, !place_app, !app_assoc, M.
  split; [exact S|]. split; [exact S'|]. split; [lia|]. rewrite E. reflexivity.
Qed.

Definition alike_outcome (r r' : run (result semantic_error (list data_range))) : Prop :=
  match r, r' with Crash c, Crash c' => c = c' | _, _ => same_memory r r' end.

Lemma emit_joined : forall labels q, Forall node_ok q -> forall ranges current ranges' current',
  joined ranges current ranges' current' ->
  alike_outcome (emit_loop labels ranges current q) (emit_loop labels ranges' current' q).
Proof.
  intros labels q O. induction O as [|x q Ox O IH]; intros ranges current ranges' current' J.
  - cbn [emit_loop alike_outcome same_memory]. rewrite !push_memory. apply J.
  - destruct x as [k d args|k d|k i fs]; cbn [emit_loop node_ok] in *.
    + destruct (directive_from d args) as [d'|e] eqn:D; [|reflexivity].
      assert (P : alike_outcome (let* current := append_asserted current (directive_into_vec d') in emit_loop labels ranges current q)
                                (let* current := append_asserted current' (directive_into_vec d') in emit_loop labels ranges' current q)).
      { destruct (joined_append _ _ _ _ (directive_into_vec d') J) as [(r & r' & -> & -> & J')|(c & -> & ->)]; cbn [bind]; [apply IH, J' | reflexivity]. }
      destruct d' as [o|bytes|v]; try exact P. apply IH. apply directive_means in D; [|exact Ox].
      assert (B : o <= 4095) by (inversion D; subst; assumption).
      unfold joined. rewrite !push_memory. cbn [range_new dr_start dr_data place]. rewrite !app_nil_r.
      split; [exact B|]. split; [exact B|]. split; [reflexivity | apply J].
    + apply IH, J.
    + destruct (instruction_from i fs labels) as [o|e]; [|reflexivity].
      destruct (instruction_into_vec o) as [b|c]; cbn [bind]; [|reflexivity].
      destruct (joined_append _ _ _ _ b J) as [(r & r' & -> & -> & J')|(c & -> & ->)]; cbn [bind]; [apply IH, J' | reflexivity].
Qed.

Lemma alike_refl : forall r, alike_outcome r r.
Proof. intros [[]|]; reflexivity. Qed.

Lemma emit_here : forall labels l id q, Forall node_ok q -> forall p ranges current c, Forall node_ok p ->
  c = counter (dr_start current + range_len current) p -> dr_start current <= 4095 -> c <= 4095 ->
  directive_from id [LNumeric c] = Ok (Org c) ->
  alike_outcome (emit_loop labels ranges current (p ++ q))
                (emit_loop labels ranges current (p ++ NDirective l id [LNumeric c] :: q)).
Proof.
  intros labels l id q Oq p ranges current c Op. revert ranges current.
  induction Op as [|x p Ox Op IH]; intros ranges current C S Lc E.
  - cbn [app]. cbn [counter fold_left] in C. rewrite (emit_section _ _ _ _ _ _ _ _ E).
    apply emit_joined; [exact Oq|]. unfold joined. rewrite push_memory.
    cbn [range_new dr_start dr_data place]. rewrite app_nil_r. split; [exact S|]. split; [exact Lc|].
    split; [|reflexivity]. unfold range_len at 2. cbn. lia.
  - cbn [app]. change (counter ?a (x :: p)) with (counter (after a x) p) in C.
    destruct x as [k d args|k d|k i fs]; cbn [emit_loop node_ok] in *.
    + destruct (directive_from d args) as [d'|e] eqn:D; [|apply alike_refl].
      apply directive_means in D; [|exact Ox]. rewrite (after_means _ _ _ _ _ D) in C.
      assert (P : match d' with Org _ => True | _ => alike_outcome
         (let* current := append_asserted current (directive_into_vec d') in emit_loop labels ranges current (p ++ q))
         (let* current := append_asserted current (directive_into_vec d') in emit_loop labels ranges current (p ++ NDirective l id [LNumeric c] :: q)) end).
      { rewrite append_shape by exact S. destruct (_ <=? 4096); [|destruct d'; reflexivity || exact I].
        destruct (_ <=? 4096); [|destruct d'; reflexivity || exact I].
        cbn [bind]. assert (H : forall a, counter a p = counter a p) by reflexivity.
        destruct d' as [o|bytes|v]; [exact I | |]; (apply IH; [|exact S | exact Lc | exact E]);
          rewrite C; f_equal; unfold range_len; cbn [dr_data dr_start directive_into_vec directive_size];
          rewrite app_length; cbn [length]; lia. }
      destruct d'; try exact P. apply IH; [|inversion D; subst; assumption | exact Lc | exact E].
      rewrite C. cbn [range_new dr_start]. f_equal. unfold range_len. cbn. lia.
    + rewrite after_label in C. apply IH; assumption.
    + destruct (instruction_from i fs labels) as [o|e]; [|apply alike_refl].
      destruct (instruction_into_vec o) as [b|e] eqn:V; cbn [bind]; [|apply alike_refl].
      rewrite append_shape by exact S. destruct (_ <=? 4096); [|reflexivity]. destruct (_ <=? 4096); [|reflexivity].
      cbn [bind]. apply IH; [|exact S | exact Lc | exact E]. rewrite C. unfold after. cbn [origin size].
      f_equal. unfold instruction_into_vec in V. destruct (as_instruction o); [|discriminate]. injection V as <-.
      unfold range_len. cbn [dr_data dr_start]. rewrite app_length. cbn [length]. lia.
Qed.

(** The first pass only continues past [p] if the next address is in memory. *)
Lemma define_counter : forall q p a m, a <= 4095 -> Forall node_ok p -> (exists m', define_labels_loop m a (p ++ q) = Ok m') ->
  peek_constant q = None -> counter a p <= 4095.
Proof.
  intros q.
  assert (G : forall n p, (length p <= n)%nat -> forall a m, a <= 4095 -> Forall node_ok p ->
    (exists m', define_labels_loop m a (p ++ q) = Ok m') -> peek_constant q = None -> counter a p <= 4095).
  2: { intros p a m. apply (G (length p)). lia. }
  induction n as [|n IH]; intros [|x p] L a m A O (m' & D) Q; cbn [length] in L; try lia; try exact A.
  cbn [app] in D. inversion O as [|? ? Ox Op]; subst. change (counter a (x :: p)) with (counter (after a x) p).
  destruct x as [k d args|k d|k i fs].
  - cbn [define_labels_loop] in D. cbn [node_ok] in Ox.
    destruct (directive_from d args) as [d'|e] eqn:F; cbn [map_err rbind] in D; [|discriminate].
    apply directive_means in F; [|exact Ox]. rewrite (after_means _ _ _ _ _ F).
    destruct (u12_failable_into (directive_size d')) as [s|] eqn:S; cbn [ok_or rbind] in D; [|discriminate].
    apply failable_some in S. destruct S as [_ ->].
    destruct (u12_checked_add a (directive_size d')) as [b|] eqn:B; cbn [ok_or rbind] in D; [|discriminate].
    apply checked_add_some in B. destruct B as [B ->].
    destruct d'; [| |discriminate]; (eapply IH; [lia | | exact Op | eauto | exact Q]).
    + inversion F; subst; assumption.
    + exact B.
  - rewrite after_label. rewrite define_label_peek in D. destruct (contains_key m d); [discriminate|].
    destruct p as [|z p]; [exact A|].
    rewrite peek_app in D. destruct (peek_constant (z :: p)) as [v|] eqn:V.
    + cbn [app tl] in D. inversion Op as [|? ? Oz Op']; subst.
      rewrite peek_constant_spec in V by exact Op.
      destruct (constant_node _ _ V) as (? & ? & ? & -> & M).
      change (counter a (?x :: p)) with (counter (after a x) p). cbn [counter fold_left].
      rewrite (after_means _ _ _ _ _ M). cbn [directive_size]. rewrite N.add_0_r.
      eapply (IH p); [cbn [length] in L; lia | exact A | exact Op' | eauto | exact Q].
    + eapply (IH (z :: p)); [lia | exact A | exact Op | eauto | exact Q].
  - cbn [define_labels_loop] in D.
    destruct (u12_checked_add a bytes_per_instruction) as [b|] eqn:B; cbn [ok_or rbind] in D; [|discriminate].
    apply checked_add_some in B. destruct B as [B ->]. eapply IH; [lia | exact B | exact Op | eauto | exact Q].
Qed.

(** ** Statements added at the end *)

Lemma define_prefix : forall q p m a e, define_labels_loop m a p = Err e -> define_labels_loop m a (p ++ q) = Err e.
Proof.
  intros q.
  assert (G : forall n p, (length p <= n)%nat -> forall m a e, define_labels_loop m a p = Err e ->
    define_labels_loop m a (p ++ q) = Err e).
  2: { intros p. apply (G (length p)). lia. }
  induction n as [|n IH]; intros [|x p] L m a e; cbn [length] in L; try lia; try discriminate.
  cbn [app]. destruct x as [k d args|k d|k i fs].
  - cbn [define_labels_loop].
    destruct (directive_from d args) as [d'|?]; cbn [map_err rbind]; [|trivial].
    destruct (u12_failable_into (directive_size d')) as [s|]; cbn [ok_or rbind]; [|trivial].
    destruct (u12_checked_add a s) as [b|]; cbn [ok_or rbind]; [|trivial].
    destruct d'; [apply IH; lia | apply IH; lia | trivial].
  - rewrite !define_label_peek. destruct (contains_key m d); [trivial|].
    destruct p as [|z p]; [discriminate|].
    rewrite peek_app. destruct (peek_constant (z :: p)); [cbn [app tl]|]; apply (IH _); cbn [length] in *; lia.
  - cbn [define_labels_loop].
    destruct (u12_checked_add a bytes_per_instruction) as [b|]; cbn [ok_or rbind]; [|trivial].
    apply IH; lia.
Qed.

Theorem assemble_here : forall p q l id, Forall node_ok p -> Forall node_ok q -> ascii id -> names id "ORG" = true ->
  (forall n r, q = n :: r -> constant n = None) ->
  alike_outcome (assemble (p ++ q)) (assemble (p ++ NDirective l id [LNumeric (counter 0 p)] :: q)).
Proof.
  intros p q l id Op Oq A N C.
  assert (Q : peek_constant q = None).
  { rewrite peek_constant_spec by exact Oq. destruct q as [|n r]; [reflexivity | apply (C n r eq_refl)]. }
  unfold assemble, define_labels, emit_data_ranges.
  destruct (N.leb_spec (counter 0 p) 4095) as [L|L].
  - assert (E : directive_from id [LNumeric (counter 0 p)] = Ok (Org (counter 0 p)))
      by (apply directive_means; [exact A | constructor; assumption]).
    rewrite define_here; [|exact E | lia | exact Op | exact Q].
    destruct (define_labels_loop [] 0 (p ++ q)) as [m|e]; [|reflexivity].
    apply emit_here; [exact Oq | exact Op | reflexivity | cbn; lia | exact L | exact E].
  - assert (P : exists e, define_labels_loop [] 0 p = Err e).
    { destruct (define_labels_loop [] 0 p) as [m|e] eqn:D; [|eauto]. exfalso.
      assert (counter 0 p <= 4095); [|lia]. apply (define_counter [] p 0 []); [lia | exact Op | | reflexivity].
      exists m. rewrite app_nil_r. exact D. }
    destruct P as (e & P). rewrite !(define_prefix _ _ _ _ _ P). reflexivity.
Qed.

Theorem assemble_here_same : forall p q l id, Forall node_ok p -> Forall node_ok q -> ascii id -> names id "ORG" = true ->
  (forall n r, q = n :: r -> constant n = None) ->
  same_memory (assemble (p ++ q)) (assemble (p ++ NDirective l id [LNumeric (counter 0 p)] :: q)).
Proof.
  intros p q l id Op Oq A N C. pose proof (assemble_here p q l id Op Oq A N C) as H.
  assert (O : Forall node_ok (p ++ q)) by (apply Forall_app; auto).
  destruct (assemble_spec _ O) as [(rs & E & _)|(e & E & _)]; rewrite E in *; exact H.
Qed.

Lemma define_errors : forall p m a e, define_labels_loop m a p = Err e -> about_instruction e = false.
Proof.
  assert (G : forall n p, (length p <= n)%nat -> forall m a e, define_labels_loop m a p = Err e -> about_instruction e = false).
  2: { intros p. apply (G (length p)). lia. }
  induction n as [|n IH]; intros [|x p] L m a e; cbn [length] in L; try lia; try discriminate.
  destruct x as [k d args|k d|k i fs].
  - cbn [define_labels_loop].
    destruct (directive_from d args) as [d'|?]; cbn [map_err rbind]; [|intros E; injection E as <-; reflexivity].
    destruct (u12_failable_into (directive_size d')) as [s|]; cbn [ok_or rbind]; [|intros E; injection E as <-; reflexivity].
    destruct (u12_checked_add a s) as [b|]; cbn [ok_or rbind]; [|intros E; injection E as <-; reflexivity].
    destruct d'; [apply IH; lia | apply IH; lia | intros E; injection E as <-; reflexivity].
  - rewrite !define_label_peek. destruct (contains_key m d); [intros E; injection E as <-; reflexivity|].
    destruct (peek_constant p); apply IH; [|lia]. destruct p; cbn [tl length] in *; lia.
  - cbn [define_labels_loop].
    destruct (u12_checked_add a bytes_per_instruction) as [b|]; cbn [ok_or rbind]; [|intros E; injection E as <-; reflexivity].
    apply IH; lia.
Qed.

Lemma emit_errors : forall labels p ranges current e, emit_loop labels ranges current p = Done (Err e) ->
  about_instruction e = true.
Proof.
  intros labels. induction p as [|x p IH]; intros ranges current e; [discriminate|].
  destruct x as [k d args|k d|k i fs]; cbn [emit_loop].
  - destruct (directive_from d args) as [d'|?]; [|discriminate].
    destruct d'; try apply IH;
      match goal with |- bind ?x _ = _ -> _ => destruct x as [r|c]; cbn [bind] end; try apply IH; discriminate.
  - apply IH.
  - destruct (instruction_from i fs labels) as [o|?]; [|intros E; injection E as <-; reflexivity].
    destruct (instruction_into_vec o) as [b|c]; cbn [bind]; [|discriminate].
    destruct (append_asserted current b) as [r|c]; cbn [bind]; [apply IH | discriminate].
Qed.

Theorem first_pass_stable : forall p q e, assemble p = Done (Err e) -> about_instruction e = false ->
  assemble (p ++ q) = Done (Err e).
Proof.
  intros p q e H B. unfold assemble, define_labels, emit_data_ranges in *.
  destruct (define_labels_loop [] 0 p) as [m|e'] eqn:D.
  - apply emit_errors in H. congruence.
  - injection H as <-. rewrite (define_prefix _ _ _ _ _ D). reflexivity.
Qed.

Definition extends (m m' : label_map) : Prop := forall x v, label_get m x = Some v -> label_get m' x = Some v.

Lemma define_extends : forall p m a m', define_labels_loop m a p = Ok m' -> extends m m'.
Proof.
  assert (G : forall n p, (length p <= n)%nat -> forall m a m', define_labels_loop m a p = Ok m' -> extends m m').
  2: { intros p. apply (G (length p)). lia. }
  induction n as [|n IH]; intros [|x p] L m a m'; cbn [length] in L; try lia;
    try (intros E; injection E as <-; intros ? ? H; exact H).
  destruct x as [k d args|k d|k i fs].
  - cbn [define_labels_loop].
    destruct (directive_from d args) as [d'|?]; cbn [map_err rbind]; [|discriminate].
    destruct (u12_failable_into (directive_size d')) as [s|]; cbn [ok_or rbind]; [|discriminate].
    destruct (u12_checked_add a s) as [b|]; cbn [ok_or rbind]; [|discriminate].
    destruct d'; [apply IH; lia | apply IH; lia | discriminate].
  - rewrite !define_label_peek. destruct (contains_key m d) eqn:C; [discriminate|]. apply contains_false in C.
    assert (X : forall v, extends m ((d, v) :: m)).
    { intros v x w H. rewrite label_get_cons. destruct (str_eqb d x) eqn:E; [|exact H]. apply str_eqb_eq in E. congruence. }
    intros E x v H. destruct (peek_constant p).
    + eapply (IH (tl p)); [destruct p; cbn [tl length] in *; lia | exact E | apply X, H].
    + eapply (IH p); [lia | exact E | apply X, H].
  - cbn [define_labels_loop].
    destruct (u12_checked_add a bytes_per_instruction) as [b|]; cbn [ok_or rbind]; [|discriminate].
    apply IH; lia.
Qed.

Lemma define_both : forall q p m a m1 m2, peek_constant q = None -> define_labels_loop m a p = Ok m1 ->
  define_labels_loop m a (p ++ q) = Ok m2 -> extends m1 m2.
Proof.
  intros q p m a m1 m2 Q D1 D2.
  pose proof (define_walk (length p) q p m a Q (le_n _)) as W. rewrite D2 in W. cbn [ok_part] in W.
  pose proof (define_walk (length p) [] p m a eq_refl (le_n _)) as W'. rewrite app_nil_r, D1 in W'. cbn [ok_part define_labels_loop] in W'.
  destruct (walk (length p) m a p) as [[m' a']|]; [|discriminate]. cbn [ok_part] in W'. injection W' as ->.
  destruct (define_labels_loop m' a' q) as [m3|] eqn:D3; [|discriminate]. cbn [ok_part] in W. injection W as ->.
  eapply define_extends. exact D3.
Qed.

Definition undefined_label (e : instruction_error) : bool := match e with UnableToResolveLabel _ => true | _ => false end.

Definition settled {A : Type} (r : result instruction_error A) : Prop :=
  match r with Err e => undefined_label e = false | Ok _ => True end.

Ltac extend_cases X :=
  repeat match goal with
  | |- settled (if ?c then _ else _) -> _ => destruct c
  end; try reflexivity; unfold resolve_label;
  match goal with |- context[label_get ?m ?x] => destruct (label_get m x) eqn:?G end; cbn [ok_or rbind settled undefined_label];
  try discriminate; rewrite (X _ _ ltac:(eassumption)); reflexivity.

Lemma opcode_1_extends : forall i m m' f, extends m m' -> settled (opcode_1 i f m) -> opcode_1 i f m' = opcode_1 i f m.
Proof. intros i m m' f X. unfold opcode_1. destruct f; try reflexivity; extend_cases X. Qed.

Lemma opcode_2_extends : forall i m m' f g, extends m m' -> settled (opcode_2 i f g m) -> opcode_2 i f g m' = opcode_2 i f g m.
Proof.
  intros i m m' f g X. unfold opcode_2. destruct g; try reflexivity. destruct f as [|r| | | | | | | |]; try reflexivity;
  try destruct r; extend_cases X.
Qed.

Lemma opcode_3_extends : forall i m m' f g h, extends m m' -> settled (opcode_3 i f g h m) ->
  opcode_3 i f g h m' = opcode_3 i f g h m.
Proof.
  intros i m m' f g h X. unfold opcode_3. destruct h; try reflexivity. destruct f, g; try reflexivity; extend_cases X.
Qed.

Lemma instruction_extends : forall i fs m m', extends m m' -> settled (instruction_from i fs m) ->
  instruction_from i fs m' = instruction_from i fs m.
Proof.
  intros i fs m m' X. unfold instruction_from.
  destruct fs as [|f [|g [|h [|]]]]; try reflexivity; intros S.
  - rewrite (opcode_1_extends _ m m'); [reflexivity | exact X|]. destruct (opcode_1 (to_lowercase i) f m); [exact I | exact S].
  - rewrite (opcode_2_extends _ m m'); [reflexivity | exact X|]. destruct (opcode_2 (to_lowercase i) f g m); [exact I | exact S].
  - rewrite (opcode_3_extends _ m m'); [reflexivity | exact X|]. destruct (opcode_3 (to_lowercase i) f g h m); [exact I | exact S].
Qed.

Lemma emit_prefix : forall m m' q, extends m m' -> forall p ranges current e,
  emit_loop m ranges current p = Done (Err e) -> about_undefined e = false ->
  emit_loop m' ranges current (p ++ q) = Done (Err e).
Proof.
  intros m m' q X. induction p as [|x p IH]; intros ranges current e H U; [discriminate|].
  cbn [app]. destruct x as [k d args|k d|k i fs]; cbn [emit_loop] in *.
  - destruct (directive_from d args) as [d'|?]; [|discriminate].
    destruct d'; try (apply IH; assumption);
      match goal with H : bind ?x _ = _ |- _ => destruct x as [r|c]; cbn [bind] in * end; try (apply IH; assumption); discriminate.
  - apply IH; assumption.
  - assert (S : settled (instruction_from i fs m)).
    { destruct (instruction_from i fs m) as [o|r]; [exact I|]. injection H as <-. destruct r; [discriminate | reflexivity ..]. }
    rewrite (instruction_extends _ _ _ _ X S).
    destruct (instruction_from i fs m) as [o|?]; [|exact H].
    destruct (instruction_into_vec o) as [b|c]; cbn [bind] in *; [|discriminate].
    destruct (append_asserted current b) as [r|c]; cbn [bind] in *; [apply IH; assumption | discriminate].
Qed.

Theorem second_pass_stuck : forall p q e, assemble p = Done (Err e) -> about_undefined e = false -> Forall node_ok q ->
  (forall n r, q = n :: r -> constant n = None) ->
  assemble (p ++ q) = Done (Err e) \/
  exists e', assemble (p ++ q) = Done (Err e') /\ about_instruction e' = false.
Proof.
  intros p q e H U Oq C.
  assert (Q : peek_constant q = None).
  { rewrite peek_constant_spec by exact Oq. destruct q as [|n r]; [reflexivity | apply (C n r eq_refl)]. }
  destruct (about_instruction e) eqn:B; [|left; apply first_pass_stable; assumption].
  unfold assemble, define_labels, emit_data_ranges in *.
  destruct (define_labels_loop [] 0 p) as [m|e'] eqn:D.
  - destruct (define_labels_loop [] 0 (p ++ q)) as [m'|e'] eqn:D'.
    + left. eapply emit_prefix; [|exact H | exact U]. eapply define_both; eassumption.
    + right. exists e'. split; [reflexivity|]. eapply define_errors. exact D'.
  - injection H as ->. apply define_errors in D. congruence.
Qed.
