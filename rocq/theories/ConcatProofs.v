(** * ConcatProofs: independent programs one after the other. *)

From Verif Require Import Base Text U12 Location Token Parser Directive Opcode Instruction DataRange Assembler
  SpecLex SpecOpcode SpecRefusal SpecLayout SpecConcat BaseFacts OpcodeProofs InstructionProofs InstructionTheorems
  LayoutProofs EmitProofs SpecMeta MetaProofs SectionProofs.
Open Scope N_scope.

(** ** The first pass *)

Lemma define_app : forall n q p m a, peek_constant q = None -> (length p <= n)%nat ->
  define_labels_loop m a (p ++ q) =
  match walk n m a p with Some (m', a') => define_labels_loop m' a' q | None => define_labels_loop m a p end.
Proof.
  intros n q p m a Q. revert p m a.
  induction n as [|n IH]; intros [|z p] m a L; cbn [length] in L; try lia; try reflexivity.
  cbn [app]. destruct z as [k d args|k i|k i fs].
  - cbn [define_labels_loop walk].
    destruct (directive_from d args) as [d'|e]; cbn [map_err rbind]; [|reflexivity].
    destruct (u12_failable_into (directive_size d')) as [s|]; cbn [ok_or rbind]; [|reflexivity].
    destruct (u12_checked_add a s) as [b|]; cbn [ok_or rbind]; [|reflexivity].
    destruct d'; [apply IH; lia | apply IH; lia | reflexivity].
  - rewrite !define_label_peek. cbn [walk]. destruct (contains_key m i); [reflexivity|].
    destruct p as [|w p].
    + cbn [app peek_constant tl]. rewrite Q. apply (IH []). cbn. lia.
    + rewrite peek_app. destruct (peek_constant (w :: p)) as [c|].
      * cbn [app tl]. apply IH. cbn [length] in L. lia.
      * apply (IH (w :: p)). lia.
  - cbn [define_labels_loop walk].
    destruct (u12_checked_add a bytes_per_instruction) as [b|]; cbn [ok_or rbind]; [|reflexivity].
    apply IH. lia.
Qed.

Lemma walk_define : forall p m a, 
  match walk (length p) m a p with
  | Some (m', a') => define_labels_loop m a p = Ok m'
  | None => exists e, define_labels_loop m a p = Err e
  end.
Proof.
  intros p m a. pose proof (define_walk (length p) [] p m a eq_refl (le_n _)) as W. rewrite app_nil_r in W.
  destruct (walk (length p) m a p) as [[m' a']|].
  - cbn [define_labels_loop ok_part] in W. apply ok_part_some. exact W.
  - destruct (define_labels_loop m a p) as [x|e]; [discriminate | eauto].
Qed.

Lemma defines_cons : forall n p x, defines p x -> defines (n :: p) x.
Proof. intros n p x (l & I). exists l. right. exact I. Qed.

Lemma define_frame : forall p m r a, (forall x, defines p x -> ~ In x (keys r)) ->
  define_labels_loop (m ++ r) a p =
  match define_labels_loop m a p with Ok m' => Ok (m' ++ r) | Err e => Err e end.
Proof.
  assert (G : forall n p, (length p <= n)%nat -> forall m r a, (forall x, defines p x -> ~ In x (keys r)) ->
    define_labels_loop (m ++ r) a p =
    match define_labels_loop m a p with Ok m' => Ok (m' ++ r) | Err e => Err e end).
  2: { intros p. apply (G (length p)). lia. }
  induction n as [|n IH]; intros [|z p] L m r a D; cbn [length] in L; try lia; try reflexivity.
  assert (Dp : forall x, defines p x -> ~ In x (keys r)) by (intros x X; apply D, defines_cons, X).
  destruct z as [k d args|k i|k i fs].
  - cbn [define_labels_loop].
    destruct (directive_from d args) as [d'|e]; cbn [map_err rbind]; [|reflexivity].
    destruct (u12_failable_into (directive_size d')) as [s|]; cbn [ok_or rbind]; [|reflexivity].
    destruct (u12_checked_add a s) as [b|]; cbn [ok_or rbind]; [|reflexivity].
    destruct d'; [apply IH; [lia | exact Dp] | apply IH; [lia | exact Dp] | reflexivity].
  - rewrite !define_label_peek, contains_app.
    assert (Nr : contains_key r i = false).
    { destruct (contains_key r i) eqn:E; [|reflexivity]. exfalso. apply contains_in in E.
      apply (D i); [exists k; left; reflexivity | exact E]. }
    rewrite Nr, orb_false_r. destruct (contains_key m i); [reflexivity|].
    destruct (peek_constant p) as [c|].
    + destruct p as [|w p]; cbn [tl]; [apply (IH [] ltac:(lia) ((i, c) :: m)); exact Dp|].
      apply (IH p ltac:(cbn [length] in L; lia) ((i, c) :: m)). intros x X. apply Dp, defines_cons, X.
    + apply (IH p ltac:(lia) ((i, a) :: m)). exact Dp.
  - cbn [define_labels_loop].
    destruct (u12_checked_add a bytes_per_instruction) as [b|]; cbn [ok_or rbind]; [|reflexivity].
    apply IH; [lia | exact Dp].
Qed.

Lemma define_keys : forall p m a m' x, define_labels_loop m a p = Ok m' -> In x (keys m') -> In x (keys m) \/ defines p x.
Proof.
  assert (G : forall n p, (length p <= n)%nat -> forall m a m' x, define_labels_loop m a p = Ok m' ->
    In x (keys m') -> In x (keys m) \/ defines p x).
  2: { intros p. apply (G (length p)). lia. }
  assert (S : forall x n p (P : Prop), P \/ defines p x -> P \/ defines (n :: p) x)
    by (intros x n p P [X|X]; [left; exact X | right; apply defines_cons, X]).
  induction n as [|n IH]; intros [|z p] L m a m' x; cbn [length] in L; try lia;
    try (cbn [define_labels_loop]; intros H; injection H as <-; auto).
  destruct z as [k d args|k i|k i fs].
  - cbn [define_labels_loop].
    destruct (directive_from d args) as [d'|e]; cbn [map_err rbind]; [|discriminate].
    destruct (u12_failable_into (directive_size d')) as [s|]; cbn [ok_or rbind]; [|discriminate].
    destruct (u12_checked_add a s) as [b|]; cbn [ok_or rbind]; [|discriminate].
    intros H I. apply S. destruct d'; [eapply IH; [|exact H | exact I]; lia | eapply IH; [|exact H | exact I]; lia | discriminate].
  - rewrite define_label_peek. destruct (contains_key m i); [discriminate|].
    assert (E : forall v m', (In x (keys ((i, v) :: m)) \/ defines m' x) -> (forall y, defines m' y -> defines p y) ->
                In x (keys m) \/ defines (NLabel k i :: p) x).
    { intros v p' [[X|X]|X] M; [right; exists k; left; cbn [fst] in X; congruence | left; exact X | right; apply defines_cons, M, X]. }
    destruct (peek_constant p) as [c|]; intros H I.
    + destruct p as [|w p].
      * cbn [tl define_labels_loop] in H. injection H as <-. apply (E c []); [left; exact I | auto].
      * cbn [tl] in H. apply (E c p); [|intros y; apply defines_cons]. eapply IH; [|exact H | exact I]. cbn [length] in L. lia.
    + apply (E a p); [|auto]. eapply IH; [|exact H | exact I]. lia.
  - cbn [define_labels_loop].
    destruct (u12_checked_add a bytes_per_instruction) as [b|]; cbn [ok_or rbind]; [|discriminate].
    intros H I. apply S. eapply IH; [|exact H | exact I]. lia.
Qed.

Lemma define_section : forall s m a b, is_section s -> a <= 4095 -> b <= 4095 ->
  define_labels_loop m a s = define_labels_loop m b s.
Proof.
  intros s m a b (l & id & args & o & rest & -> & E) A B.
  cbn [define_labels_loop]. rewrite E. cbn [map_err rbind directive_size]. change (u12_failable_into 0) with (Some 0). cbn [ok_or rbind].
  unfold u12_checked_add, u12_max.
  destruct (N.leb_spec (a + 0) 0xFFF); [|lia]. destruct (N.leb_spec (b + 0) 0xFFF); [|lia]. reflexivity.
Qed.

(** ** The second pass *)

Lemma emit_org : forall labels l id args a rest, directive_from id args = Ok (Org a) ->
  forall p ranges current,
  emit_loop labels ranges current (p ++ NDirective l id args :: rest) =
  match emit_loop labels ranges current p with
  | Done (Ok rs) => emit_loop labels rs (range_new a) rest
  | x => x
  end.
Proof.
  intros labels l id args a rest E. induction p as [|x p IH]; intros ranges current.
  - cbn [app]. rewrite (emit_section _ _ _ _ _ _ _ _ E). reflexivity.
  - cbn [app]. destruct x as [k d xs|k y|k m fs]; cbn [emit_loop].
    + destruct (directive_from d xs) as [d'|e]; [|reflexivity].
      destruct d' as [o|bytes|c]; [apply IH| |];
        match goal with |- bind ?x _ = _ => destruct x as [r|c']; cbn [bind] end; try apply IH; reflexivity.
    + apply IH.
    + destruct (instruction_from m fs labels) as [o|e]; [|reflexivity].
      destruct (instruction_into_vec o) as [b|c]; cbn [bind]; [|reflexivity].
      destruct (append_asserted current b) as [r|c]; cbn [bind]; [apply IH | reflexivity].
Qed.

Lemma emit_both : forall labels p q ranges current, is_section q ->
  emit_loop labels ranges current (p ++ q) =
  match emit_loop labels ranges current p with
  | Done (Ok rs) => on_ok (app rs) (emit_loop labels [] (range_new 0) q)
  | x => x
  end.
Proof.
  intros labels p q ranges current (l & id & args & a & rest & -> & E). rewrite (emit_org _ _ _ _ _ _ E).
  destruct (emit_loop labels ranges current p) as [[rs|e]|c]; try reflexivity.
  rewrite (emit_section _ _ _ _ _ _ _ _ E). change (push_range [] (range_new 0)) with (@nil data_range).
  rewrite <- emit_ranges, app_nil_r. reflexivity.
Qed.

(** ** Both *)

Theorem assemble_concat : forall p q, is_section q -> independent p q ->
  assemble (p ++ q) =
  match define_labels p with
  | Err e => Done (Err e)
  | Ok mp =>
      match define_labels q with
      | Err e => Done (Err e)
      | Ok mq =>
          match emit_data_ranges p mp with
          | Done (Ok rp) => on_ok (app rp) (emit_data_ranges q mq)
          | x => x
          end
      end
  end.
Proof.
  intros p q Sq D. unfold assemble, define_labels, emit_data_ranges.
  assert (Pq : peek_constant q = None) by (rewrite <- (app_nil_r q); apply section_peek; exact Sq).
  rewrite (define_app (length p) q p [] 0 Pq (le_n _)).
  pose proof (walk_define p [] 0) as W. destruct (walk (length p) [] 0 p) as [[mp ap]|] eqn:Ew.
  - rewrite W. apply walk_bound in Ew; [|lia]. rewrite (define_section q mp ap 0 Sq Ew) by lia.
    assert (Dq : forall x, defines q x -> ~ In x (keys mp)).
    { intros x X I. destruct (define_keys _ _ _ _ _ W I) as [[]|Y].
      destruct X as (l & X). apply (proj1 (D x) Y). exists (NLabel l x). split; [exact X | reflexivity]. }
    pose proof (define_frame q [] mp 0 Dq) as Fr. cbn [app] in Fr. rewrite Fr.
    destruct (define_labels_loop [] 0 q) as [mq|e] eqn:Eq; [|reflexivity].
    rewrite emit_both by exact Sq.
    assert (Dp : forall x, defines p x -> ~ In x (keys mq)).
    { intros x X I. destruct (define_keys _ _ _ _ _ Eq I) as [[]|Y].
      destruct X as (l & X). apply (proj2 (D x) Y). exists (NLabel l x). split; [exact X | reflexivity]. }
    assert (Gp : forall n l, In n p -> mentions n l -> label_get (mq ++ mp) l = label_get mp l).
    { intros n l I M. destruct (label_get mq l) as [v|] eqn:G.
      - exfalso. assert (J : In l (keys mq)) by (apply contains_in; unfold contains_key; rewrite G; reflexivity).
        destruct (define_keys _ _ _ _ _ Eq J) as [[]|Y]. apply (proj2 (D l) Y). exists n. auto.
      - clear - G. induction mq as [|[k v] mq IH]; [reflexivity|]. cbn [app]. rewrite label_get_cons in *.
        destruct (str_eqb k l); [discriminate | apply IH, G]. }
    assert (Gq : forall n l, In n q -> mentions n l -> label_get (mq ++ mp) l = label_get mq l).
    { intros n l I M. assert (G : label_get mp l = None).
      { apply get_none. intros J. destruct (define_keys _ _ _ _ _ W J) as [[]|Y]. apply (proj1 (D l) Y). exists n. auto. }
      clear - G. induction mq as [|[k v] mq IH]; [exact G|]. cbn [app]. rewrite !label_get_cons.
      destruct (str_eqb k l); [reflexivity | exact IH]. }
    rewrite (emit_ext _ _ p [] (range_new 0) Gp), (emit_ext _ _ q [] (range_new 0) Gq). reflexivity.
  - destruct W as (e & ->). reflexivity.
Qed.
