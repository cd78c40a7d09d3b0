(** * SectionProofs: splitting '.db' and reordering sections *)

From Coq Require Import Permutation.
From Verif Require Import Base Text U12 Location Parser Directive Opcode Instruction DataRange Assembler
  SpecLex SpecOpcode SpecRefusal SpecLayout BaseFacts OpcodeProofs InstructionProofs InstructionTheorems
  LayoutProofs EmitProofs SpecMeta MetaProofs.
Open Scope N_scope.

(** ** Statements after the same statements *)

Lemma define_after : forall x y, peek_constant x = None -> peek_constant y = None ->
  (forall m a, ok_part (define_labels_loop m a x) = ok_part (define_labels_loop m a y)) ->
  forall p m a, ok_part (define_labels_loop m a (p ++ x)) = ok_part (define_labels_loop m a (p ++ y)).
Proof.
  intros x y Px Py H p.
  assert (G : forall n p, (length p <= n)%nat -> forall m a,
    ok_part (define_labels_loop m a (p ++ x)) = ok_part (define_labels_loop m a (p ++ y))).
  2: { apply (G (length p)). lia. }
  clear p. induction n as [|n IH]; intros [|z p] L m a; cbn [length] in L; try lia; try apply H.
  cbn [app]. destruct z as [k d args|k i|k i fs].
  - cbn [define_labels_loop].
    destruct (directive_from d args) as [d'|e]; cbn [map_err rbind]; [|reflexivity].
    destruct (u12_failable_into (directive_size d')) as [s|]; cbn [ok_or rbind]; [|reflexivity].
    destruct (u12_checked_add a s) as [b|]; cbn [ok_or rbind]; [|reflexivity].
    destruct d'; [apply IH; lia | apply IH; lia | reflexivity].
  - rewrite !define_label_peek. destruct (contains_key m i); [reflexivity|].
    destruct p as [|w p].
    + cbn [app]. rewrite Px, Py. apply H.
    + rewrite !peek_app. destruct (peek_constant (w :: p)) as [c|].
      * cbn [app tl]. apply IH. cbn [length] in L. lia.
      * apply (IH (w :: p)). lia.
  - cbn [define_labels_loop].
    destruct (u12_checked_add a bytes_per_instruction) as [b|]; cbn [ok_or rbind]; [|reflexivity].
    apply IH. lia.
Qed.

Lemma emit_after : forall labels x y,
  (forall ranges current, emit_loop labels ranges current x = emit_loop labels ranges current y) ->
  forall p ranges current, emit_loop labels ranges current (p ++ x) = emit_loop labels ranges current (p ++ y).
Proof.
  intros labels x y H. induction p as [|z p IH]; intros ranges current; [apply H|].
  destruct z as [k d args|k i|k m fs]; cbn [app emit_loop].
  - destruct (directive_from d args) as [d'|e]; [|reflexivity].
    destruct d'; try apply IH;
      match goal with |- bind ?x _ = _ => destruct x as [r|c]; cbn [bind] end;
      try apply IH; reflexivity.
  - apply IH.
  - destruct (instruction_from m fs labels) as [o|e]; [|reflexivity].
    destruct (instruction_into_vec o) as [b|c]; cbn [bind]; [|reflexivity].
    destruct (append_asserted current b) as [r|c]; cbn [bind]; [apply IH | reflexivity].
Qed.

(** ** '.db' *)

Lemma append_asserted_app : forall r x y,
  append_asserted r (x ++ y) = (let* r' := append_asserted r x in append_asserted r' y).
Proof.
  intros r x y. unfold append_asserted, range_append, bytes_remaining.
  destruct (N.leb_spec (dr_start r) u12_max); [|reflexivity].
  destruct (N.leb_spec (range_len r) (u12_max - dr_start r + 1)); [|reflexivity].
  cbn [bind].
  destruct (N.leb_spec (N.of_nat (length x)) (u12_max - dr_start r + 1 - range_len r)) as [Hx|Hx].
  - cbn [bind assert_ dr_start]. destruct (N.leb_spec (dr_start r) u12_max); [|lia].
    assert (Lx : range_len (mk_range (dr_start r) (dr_data r ++ x)) = range_len r + N.of_nat (length x)).
    { unfold range_len. cbn [dr_data]. rewrite app_length. lia. }
    rewrite Lx. destruct (N.leb_spec (range_len r + N.of_nat (length x)) (u12_max - dr_start r + 1)); [|lia].
    cbn [bind]. rewrite app_length.
    destruct (N.leb_spec (N.of_nat (length x + length y)) (u12_max - dr_start r + 1 - range_len r));
      destruct (N.leb_spec (N.of_nat (length y)) (u12_max - dr_start r + 1 - (range_len r + N.of_nat (length x))));
      try lia; cbn [bind assert_]; [|reflexivity].
    cbn [dr_data]. rewrite app_assoc. reflexivity.
  - cbn [bind assert_]. rewrite app_length.
    destruct (N.leb_spec (N.of_nat (length x + length y)) (u12_max - dr_start r + 1 - range_len r)); [lia|].
    reflexivity.
Qed.

Lemma db_meaning : forall id args, ascii id -> names id "DB" = true -> args <> [] ->
  (Forall byte_literal args /\ directive_from id args = Ok (Db (flat_map literal_bytes args))) \/
  (~ Forall byte_literal args /\ exists e, directive_from id args = Err e).
Proof.
  intros id args A N E. destruct (directive_cases id args A) as [(d & D & M)|(e & D & R)].
  - left. inversion M; subst; try name_clash. auto.
  - right. split; [|eauto]. intros F. eapply means_not_rejects; [|exact R]. constructor; assumption.
Qed.

Lemma define_err : forall m a l id args e rest, directive_from id args = Err e ->
  ok_part (define_labels_loop m a (NDirective l id args :: rest)) = None.
Proof. intros m a l id args e rest E. cbn [define_labels_loop]. rewrite E. reflexivity. Qed.

Lemma define_db : forall m a l id args bytes rest, directive_from id args = Ok (Db bytes) ->
  ok_part (define_labels_loop m a (NDirective l id args :: rest)) =
  if (N.of_nat (length bytes) <=? 4095) && (a + N.of_nat (length bytes) <=? 4095)
  then ok_part (define_labels_loop m (a + N.of_nat (length bytes)) rest) else None.
Proof.
  intros m a l id args bytes rest E. cbn [define_labels_loop]. rewrite E.
  cbn [map_err rbind directive_size]. unfold u12_failable_into, u12_checked_add, u12_max.
  destruct (N.leb_spec (N.of_nat (length bytes)) 0xFFF); cbn [ok_or rbind].
  - destruct (N.leb_spec (a + N.of_nat (length bytes)) 0xFFF); cbn [ok_or rbind];
      destruct (N.leb_spec (N.of_nat (length bytes)) 4095); try lia;
      destruct (N.leb_spec (a + N.of_nat (length bytes)) 4095); try lia; reflexivity.
  - destruct (N.leb_spec (N.of_nat (length bytes)) 4095); try lia; reflexivity.
Qed.

(** The first pass accepts only meaningful directives. *)
Lemma define_directives : forall p m a m' l id args, define_labels_loop m a p = Ok m' ->
  In (NDirective l id args) p -> exists d, directive_from id args = Ok d.
Proof.
  assert (G : forall n p, (length p <= n)%nat -> forall m a m' l id args, define_labels_loop m a p = Ok m' ->
    In (NDirective l id args) p -> exists d, directive_from id args = Ok d).
  2: { intros p. apply (G (length p)). lia. }
  induction n as [|n IH]; intros [|z p] L m a m' l id args D I; cbn [length] in L; try lia; try contradiction.
  destruct z as [k d xs|k i|k i fs].
  - cbn [define_labels_loop] in D.
    destruct (directive_from d xs) as [d'|e] eqn:E; cbn [map_err rbind] in D; [|discriminate].
    destruct I as [I|I]; [injection I as <- <- <-; eauto|].
    destruct (u12_failable_into (directive_size d')) as [s|]; cbn [ok_or rbind] in D; [|discriminate].
    destruct (u12_checked_add a s) as [b|]; cbn [ok_or rbind] in D; [|discriminate].
    destruct d'; [eapply IH; [|exact D | exact I]; lia | eapply IH; [|exact D | exact I]; lia | discriminate].
  - destruct I as [I|I]; [discriminate|]. rewrite define_label_peek in D.
    destruct (contains_key m i); [discriminate|].
    destruct (peek_constant p) as [c|] eqn:P.
    + destruct p as [|[y d xs|y d|y d xs] p]; try discriminate. cbn [tl length] in *. destruct I as [I|I].
      * injection I as <- <- <-. cbn [peek_constant] in P.
        destruct (directive_from d xs) as [d'|e]; [eauto | discriminate].
      * eapply IH; [|exact D | exact I]. lia.
    + eapply IH; [|exact D | exact I]. lia.
  - destruct I as [I|I]; [discriminate|]. cbn [define_labels_loop] in D.
    destruct (u12_checked_add a bytes_per_instruction) as [b|]; cbn [ok_or rbind] in D; [|discriminate].
    eapply IH; [|exact D | exact I]. lia.
Qed.

Theorem assemble_split_db : forall p q l id a b l1 id1 l2 id2,
  ascii id -> ascii id1 -> ascii id2 ->
  names id "DB" = true -> names id1 "DB" = true -> names id2 "DB" = true ->
  a <> [] -> b <> [] ->
  forall rs,
  assemble (p ++ NDirective l1 id1 a :: NDirective l2 id2 b :: q) = Done (Ok rs) <->
  assemble (p ++ NDirective l id (a ++ b) :: q) = Done (Ok rs).
Proof.
  intros p q l id a b l1 id1 l2 id2 A A1 A2 N N1 N2 Ea Eb. apply ok_run_iff.
  assert (Eab : a ++ b <> []) by (destruct a; [contradiction | discriminate]).
  set (X := NDirective l1 id1 a :: NDirective l2 id2 b :: q).
  set (Y := NDirective l id (a ++ b) :: q).
  assert (PX : peek_constant X = None).
  { unfold X. cbn [peek_constant]. destruct (db_meaning id1 a A1 N1 Ea) as [[_ E]|[_ (e & E)]]; rewrite E; reflexivity. }
  assert (PY : peek_constant Y = None).
  { unfold Y. cbn [peek_constant]. destruct (db_meaning id (a ++ b) A N Eab) as [[_ E]|[_ (e & E)]]; rewrite E; reflexivity. }
  assert (D : forall m c, ok_part (define_labels_loop m c X) = ok_part (define_labels_loop m c Y)).
  { intros m c. unfold X, Y.
    destruct (db_meaning id1 a A1 N1 Ea) as [[Fa E1]|[Fa (e1 & E1)]].
    - rewrite (define_db _ _ _ _ _ _ _ E1).
      destruct (db_meaning id2 b A2 N2 Eb) as [[Fb E2]|[Fb (e2 & E2)]].
      + rewrite (define_db _ _ _ _ _ _ _ E2).
        destruct (db_meaning id (a ++ b) A N Eab) as [[F E]|[F _]].
        2: { exfalso. apply F. apply Forall_app. auto. }
        rewrite (define_db _ _ _ _ _ _ _ E). rewrite flat_map_app, app_length, Nat2N.inj_add.
        generalize (N.of_nat (length (flat_map literal_bytes a))), (N.of_nat (length (flat_map literal_bytes b))).
        intros s t. rewrite N.add_assoc.
        destruct (N.leb_spec s 4095), (N.leb_spec (c + s) 4095), (N.leb_spec t 4095), (N.leb_spec (c + s + t) 4095),
          (N.leb_spec (s + t) 4095); try lia; reflexivity.
      + rewrite (define_err _ _ _ _ _ _ _ E2).
        destruct (db_meaning id (a ++ b) A N Eab) as [[F E]|[F (e & E)]].
        { exfalso. apply Fb. apply Forall_app in F. apply F. }
        rewrite (define_err _ _ _ _ _ _ _ E).
        destruct (_ && _); reflexivity.
    - rewrite (define_err _ _ _ _ _ _ _ E1).
      destruct (db_meaning id (a ++ b) A N Eab) as [[F E]|[F (e & E)]].
      { exfalso. apply Fa. apply Forall_app in F. apply F. }
      rewrite (define_err _ _ _ _ _ _ _ E). reflexivity. }
  unfold assemble, define_labels, emit_data_ranges.
  pose proof (define_after X Y PX PY D p [] 0) as E.
  destruct (define_labels_loop [] 0 (p ++ X)) as [m|e] eqn:Dx, (define_labels_loop [] 0 (p ++ Y)) as [m'|e'] eqn:Dy;
    cbn [ok_part] in E; try discriminate; [|reflexivity].
  injection E as <-. f_equal.
  destruct (db_meaning id (a ++ b) A N Eab) as [[F Ey]|[F (e & Ey)]].
  - pose proof F as F'. apply Forall_app in F'. destruct F' as [Fa Fb].
    destruct (db_meaning id1 a A1 N1 Ea) as [[_ E1]|[Fa' _]]; [|contradiction].
    destruct (db_meaning id2 b A2 N2 Eb) as [[_ E2]|[Fb' _]]; [|contradiction].
    apply emit_after. intros ranges current. unfold X, Y. cbn [emit_loop]. rewrite Ey, E1.
    cbn [directive_into_vec]. rewrite flat_map_app, append_asserted_app.
    destruct (append_asserted current (flat_map literal_bytes a)) as [r|c]; cbn [bind]; [|reflexivity].
    rewrite E2. reflexivity.
  - exfalso. destruct (define_directives _ _ _ _ l id (a ++ b) Dy) as (d & Ed); [|congruence].
    apply in_or_app. right. left. reflexivity.
Qed.

(** ** Sections *)

(** The first pass over some statements: the labels and the address after them. *)
Fixpoint walk (n : nat) (m : label_map) (a : U12) (p : list node) : option (label_map * U12) :=
  match n, p with
  | _, [] => Some (m, a)
  | O, _ => None
  | S n, NDirective _ id args :: rest =>
      match directive_from id args with
      | Ok d =>
          match u12_failable_into (directive_size d) with
          | Some s =>
              match u12_checked_add a s with
              | Some b => match d with Org o => walk n m o rest | Db _ => walk n m b rest | Equ _ => None end
              | None => None
              end
          | None => None
          end
      | Err _ => None
      end
  | S n, NLabel _ id :: rest =>
      if contains_key m id then None
      else match peek_constant rest with
           | Some c => walk n ((id, c) :: m) a (tl rest)
           | None => walk n ((id, a) :: m) a rest
           end
  | S n, NInstruction _ _ _ :: rest =>
      match u12_checked_add a bytes_per_instruction with
      | Some b => walk n m b rest
      | None => None
      end
  end.

Lemma define_walk : forall n q p m a, peek_constant q = None -> (length p <= n)%nat ->
  ok_part (define_labels_loop m a (p ++ q)) =
  match walk n m a p with Some (m', a') => ok_part (define_labels_loop m' a' q) | None => None end.
Proof.
  intros n q p m a Q. revert p m a.
  induction n as [|n IH]; intros [|z p] m a L; cbn [length] in L; try lia; try reflexivity.
  cbn [app]. destruct z as [k d args|k i|k i fs].
  - cbn [define_labels_loop walk].
    destruct (directive_from d args) as [d'|e]; cbn [map_err rbind]; [|reflexivity].
    destruct (u12_failable_into (directive_size d')) as [s|]; cbn [ok_or rbind]; [|reflexivity].
    destruct (u12_checked_add a s) as [b|]; cbn [ok_or rbind]; [|reflexivity].
    destruct d'; [apply IH; lia | apply IH; lia | reflexivity].
  - rewrite define_label_peek. cbn [walk]. destruct (contains_key m i); [reflexivity|].
    destruct p as [|w p].
    + cbn [app peek_constant tl]. rewrite Q. apply (IH []). cbn. lia.
    + rewrite peek_app. destruct (peek_constant (w :: p)) as [c|].
      * cbn [app tl]. apply IH. cbn [length] in L. lia.
      * apply (IH (w :: p)). lia.
  - cbn [define_labels_loop walk].
    destruct (u12_checked_add a bytes_per_instruction) as [b|]; cbn [ok_or rbind]; [|reflexivity].
    apply IH. lia.
Qed.

(** Labels already defined only matter in being defined already. *)
Definition keys (m : label_map) : list str := map fst m.

Lemma get_none : forall m x, label_get m x = None <-> ~ In x (keys m).
Proof.
  induction m as [|[k v] m IH]; intros x; [cbn; tauto|].
  rewrite label_get_cons. cbn [keys map fst In]. fold (keys m).
  destruct (str_eqb k x) eqn:E.
  - apply str_eqb_eq in E. subst. split; [discriminate | tauto].
  - rewrite IH. split; [|tauto]. intros H [->|I]; [|tauto].
    rewrite (proj2 (str_eqb_eq _ _) eq_refl) in E. discriminate.
Qed.

Lemma walk_bound : forall n p m a m' a', a <= 4095 -> walk n m a p = Some (m', a') -> a' <= 4095.
Proof.
  induction n as [|n IH]; intros [|z p] m a m' a' B H; cbn [walk] in H; try discriminate;
    try (injection H as <- <-; exact B).
  destruct z as [k d args|k i|k i fs].
  - destruct (directive_from d args) as [d'|e] eqn:D; [|discriminate].
    destruct (u12_failable_into (directive_size d')) as [s|]; [|discriminate].
    destruct (u12_checked_add a s) as [b|] eqn:C; [|discriminate]. apply checked_add_some in C.
    destruct d' as [o| |]; [| |discriminate].
    + eapply IH; [|exact H]. revert D. unfold directive_from, one_numeric, u12_unchecked_into.
      repeat (match goal with |- (if ?c then _ else _) = _ -> _ => destruct c end);
      try discriminate; destruct args as [|[s'|v] [|w r]]; try discriminate;
      try (match goal with |- context[db_bytes ?x ?y] => destruct (db_bytes x y); discriminate end).
      * destruct (N.leb_spec v 0xFFF); [|discriminate]. intros E. injection E as <-.
        pose proof (N.mod_upper_bound v 4096). lia.
      * destruct (N.leb_spec v 0xFFF); discriminate.
    + eapply IH; [|exact H]. lia.
  - destruct (contains_key m i); [discriminate|].
    destruct (peek_constant p); (eapply IH; [|exact H]; exact B).
  - destruct (u12_checked_add a bytes_per_instruction) as [b|] eqn:C; [|discriminate].
    apply checked_add_some in C. eapply IH; [|exact H]. lia.
Qed.

Lemma contains_app : forall m r x, contains_key (m ++ r) x = contains_key m x || contains_key r x.
Proof.
  intros m r x. unfold contains_key. induction m as [|[k v] m IH]; [reflexivity|].
  cbn [app]. rewrite !label_get_cons. destruct (str_eqb k x); [reflexivity | exact IH].
Qed.

Lemma contains_in : forall m x, contains_key m x = true <-> In x (keys m).
Proof.
  intros m x. destruct (contains_key m x) eqn:E.
  - split; [|reflexivity]. intros _. destruct (in_dec (list_eq_dec N.eq_dec) x (keys m)) as [I|I]; [exact I|].
    apply get_none in I. apply contains_false in I. congruence.
  - apply contains_false, get_none in E. split; [discriminate | contradiction].
Qed.

(** The walk adds labels in front. *)
Lemma walk_adds : forall n p m a m' a', walk n m a p = Some (m', a') -> exists b, m' = b ++ m.
Proof.
  induction n as [|n IH]; intros [|z p] m a m' a' H; cbn [walk] in H; try discriminate;
    try (injection H as <- <-; exists []; reflexivity).
  destruct z as [k d args|k i|k i fs].
  - destruct (directive_from d args) as [d'|e] eqn:D; [|discriminate].
    destruct (u12_failable_into (directive_size d')) as [s|]; [|discriminate].
    destruct (u12_checked_add a s) as [b|] eqn:C; [|discriminate].
    destruct d' as [o| |]; [| |discriminate]; eapply IH; exact H.
  - destruct (contains_key m i); [discriminate|].
    destruct (peek_constant p) as [c|]; apply IH in H; destruct H as (b & ->).
    + exists (b ++ [(i, c)]). rewrite <- app_assoc. reflexivity.
    + exists (b ++ [(i, a)]). rewrite <- app_assoc. reflexivity.
  - destruct (u12_checked_add a bytes_per_instruction) as [b|] eqn:C; [|discriminate]. eapply IH; exact H.
Qed.

Definition disjoint (m r : label_map) : Prop := forall x, In x (keys m) -> ~ In x (keys r).

Lemma walk_frame : forall n p m r a m' a', 
  walk n (m ++ r) a p = Some (m', a') <->
  exists b, walk n m a p = Some (b, a') /\ m' = b ++ r /\
    (forall x, In x (keys b) -> In x (keys m) \/ ~ In x (keys r)).
Proof.
  induction n as [|n IH]; intros [|z p] m r a m' a'; cbn [walk];
    try (split; [discriminate | intros (? & ? & _); discriminate]);
    try (split; [intros H; injection H as <- <-; exists m; auto
                | intros (b & H & -> & _); injection H as <- <-; reflexivity]).
  destruct z as [k d args|k i|k i fs].
  - destruct (directive_from d args) as [d'|e]; [|split; [discriminate | intros (? & ? & _); discriminate]].
    destruct (u12_failable_into (directive_size d')) as [s|]; [|split; [discriminate | intros (? & ? & _); discriminate]].
    destruct (u12_checked_add a s) as [b|]; [|split; [discriminate | intros (? & ? & _); discriminate]].
    destruct d'; [apply IH | apply IH | split; [discriminate | intros (? & ? & _); discriminate]].
  - rewrite contains_app. destruct (contains_key m i) eqn:C; cbn [orb].
    { split; [discriminate | intros (? & ? & _); discriminate]. }
    assert (G : forall v q,
      (if contains_key r i then None else walk n ((i, v) :: m ++ r) a q) = Some (m', a') <->
      exists b, walk n ((i, v) :: m) a q = Some (b, a') /\ m' = b ++ r /\
        (forall x, In x (keys b) -> In x (keys m) \/ ~ In x (keys r))).
    { intros v q. change ((i, v) :: m ++ r) with (((i, v) :: m) ++ r).
      destruct (contains_key r i) eqn:R.
      - split; [discriminate|]. intros (b & W & _ & K). exfalso.
        apply contains_in in R.
        assert (I : In i (keys b)).
        { apply walk_adds in W. destruct W as (b' & ->). unfold keys. rewrite map_app. apply in_or_app.
          right. left. reflexivity. }
        destruct (K i I) as [J|J]; [|contradiction]. apply contains_in in J. congruence.
      - rewrite IH.
        assert (NR : ~ In i (keys r)) by (rewrite <- contains_in; congruence).
        split; intros (b & W & E & K); exists b; (split; [exact W|]); (split; [exact E|]); intros x I;
          specialize (K x I); cbn [keys map fst In] in *; fold (keys m) in *.
        + destruct K as [[->|K]|K]; auto.
        + destruct K as [K|K]; auto. }
    destruct (peek_constant p) as [c|]; apply G.
  - destruct (u12_checked_add a bytes_per_instruction) as [b|]; [|split; [discriminate | intros (? & ? & _); discriminate]].
    apply IH.
Qed.

(** *** The first pass over sections *)

Definition is_section (s : list node) : Prop :=
  exists l id args a rest, s = NDirective l id args :: rest /\ directive_from id args = Ok (Org a).

Lemma section_peek : forall s q, is_section s -> peek_constant (s ++ q) = None.
Proof. intros s q (l & id & args & a & rest & -> & E). cbn [app peek_constant]. rewrite E. reflexivity. Qed.

Lemma concat_peek : forall ss, Forall is_section ss -> peek_constant (concat ss) = None.
Proof. intros ss F. destruct F as [|s ss H F]; [reflexivity | apply section_peek, H]. Qed.

(** The address before a section does not matter. *)
Lemma walk_section : forall n s m a b, is_section s -> a <= 4095 -> b <= 4095 -> walk n m a s = walk n m b s.
Proof.
  intros n s m a b (l & id & args & o & rest & -> & E) A B. destruct n as [|n]; [reflexivity|].
  cbn [walk]. rewrite E. cbn [directive_size]. change (u12_failable_into 0) with (Some 0). cbv iota beta.
  unfold u12_checked_add, u12_max.
  destruct (N.leb_spec (a + 0) 0xFFF); [|lia]. destruct (N.leb_spec (b + 0) 0xFFF); [|lia]. reflexivity.
Qed.

(** The labels of a section. *)
Definition section_labels (s : list node) : option label_map := option_map fst (walk (length s) [] 0 s).

Lemma disjoint_nodup : forall (A : Type) (p q : list A),
  NoDup (p ++ q) <-> NoDup p /\ NoDup q /\ (forall x, In x p -> ~ In x q).
Proof.
  intros A p q. induction p as [|x p IH]; cbn [app].
  - split; [intros H; repeat split; [constructor | exact H | contradiction] | tauto].
  - split.
    + intros H. inversion H as [|? ? N D]; subst. apply IH in D. destruct D as (Dp & Dq & X).
      split; [constructor; [intros I; apply N, in_or_app; auto | exact Dp]|]. split; [exact Dq|].
      intros y [->|I]; [intros J; apply N, in_or_app; auto | apply X, I].
    + intros (Dp & Dq & X). inversion Dp as [|? ? N D]; subst. constructor.
      * intros I. apply in_app_or in I. destruct I as [I|I]; [contradiction|]. apply (X x (or_introl eq_refl) I).
      * apply IH. split; [exact D|]. split; [exact Dq|]. intros y I. apply X. right. exact I.
Qed.

Lemma walk_nodup : forall n p m a m' a', NoDup (keys m) -> walk n m a p = Some (m', a') -> NoDup (keys m').
Proof.
  induction n as [|n IH]; intros [|z p] m a m' a' D H; cbn [walk] in H; try discriminate;
    try (injection H as <- <-; exact D).
  destruct z as [k d args|k i|k i fs].
  - destruct (directive_from d args) as [d'|e]; [|discriminate].
    destruct (u12_failable_into (directive_size d')) as [s|]; [|discriminate].
    destruct (u12_checked_add a s) as [b|]; [|discriminate].
    destruct d' as [o| |]; [| |discriminate]; (eapply IH; [|exact H]; exact D).
  - destruct (contains_key m i) eqn:C; [discriminate|].
    apply contains_false, get_none in C.
    destruct (peek_constant p) as [c|]; (eapply IH; [|exact H]); constructor; assumption.
  - destruct (u12_checked_add a bytes_per_instruction) as [b|]; [|discriminate]. eapply IH; [|exact H]. exact D.
Qed.

Lemma define_sections : forall ss m a, Forall is_section ss -> a <= 4095 -> NoDup (keys m) -> forall m',
  ok_part (define_labels_loop m a (concat ss)) = Some m' <->
  exists ls, Forall2 (fun s l => section_labels s = Some l) ss ls /\
    m' = concat (rev ls) ++ m /\ NoDup (keys m').
Proof.
  induction ss as [|s ss IH]; intros m a F B D m'.
  - cbn. split.
    + intros E. injection E as <-. exists []. split; [constructor|]. auto.
    + intros (ls & H & -> & _). inversion H; subst. reflexivity.
  - inversion F as [|? ? Hs Fs]; subst. cbn [concat].
    rewrite (define_walk (length s)) by (try apply concat_peek; auto).
    rewrite (walk_section (length s) s m a 0 Hs B ltac:(lia)).
    split.
    + destruct (walk (length s) m 0 s) as [[m1 a1]|] eqn:W; [|discriminate].
      assert (B1 : a1 <= 4095) by (eapply walk_bound; [|exact W]; lia).
      assert (D1 : NoDup (keys m1)) by (eapply walk_nodup; [exact D | exact W]).
      intros E. apply IH in E; [|exact Fs | exact B1 | exact D1].
      destruct E as (ls & H & -> & N).
      apply (walk_frame _ _ [] m) in W. destruct W as (l & W & -> & K).
      exists (l :: ls). split; [constructor; [unfold section_labels; rewrite W; reflexivity | exact H]|].
      split; [|exact N]. cbn [rev]. rewrite concat_app. cbn [concat]. rewrite app_nil_r, app_assoc. reflexivity.
    + intros (ls & H & -> & N). inversion H as [|? l ? ls' Hl Hls]; subst.
      unfold section_labels in Hl. destruct (walk (length s) [] 0 s) as [[l' a1]|] eqn:W; [|discriminate].
      injection Hl as ->.
      assert (B1 : a1 <= 4095) by (eapply walk_bound; [|exact W]; lia).
      cbn [rev] in *. rewrite concat_app in *. cbn [concat] in *. rewrite app_nil_r, <- app_assoc in *.
      assert (N' := N). unfold keys in N'. rewrite !map_app in N'. fold (keys m) (keys l) in N'.
      apply disjoint_nodup in N'. destruct N' as (_ & N' & _).
      assert (W' : walk (length s) m 0 s = Some (l ++ m, a1)).
      { apply (walk_frame _ _ [] m). exists l. split; [exact W|]. split; [reflexivity|].
        intros x I. right. apply disjoint_nodup in N'. apply N'. exact I. }
      rewrite W'. apply IH; [exact Fs | exact B1 | |].
      * unfold keys. rewrite map_app. exact N'.
      * exists ls'. auto.
Qed.

Lemma get_in : forall m x v, NoDup (keys m) -> (label_get m x = Some v <-> In (x, v) m).
Proof.
  intros m x v D. induction m as [|[k w] m IH]; [cbn; split; [discriminate | tauto]|].
  rewrite label_get_cons. cbn [keys map fst] in D. inversion D as [|? ? N D']; subst. specialize (IH D').
  destruct (str_eqb k x) eqn:E.
  - apply str_eqb_eq in E. subst. split.
    + intros H. injection H as ->. left. reflexivity.
    + intros [H|H]; [congruence|]. exfalso. apply N. apply (in_map fst) in H. exact H.
  - rewrite IH. split; [intros H; right; exact H|]. intros [H|H]; [|exact H].
    injection H as -> ->. rewrite (proj2 (str_eqb_eq _ _) eq_refl) in E. discriminate.
Qed.

Lemma get_permutation : forall m m', NoDup (keys m) -> Permutation m m' -> forall x, label_get m x = label_get m' x.
Proof.
  intros m m' D P x. assert (D' : NoDup (keys m')).
  { eapply Permutation_NoDup; [|exact D]. apply Permutation_map. exact P. }
  destruct (label_get m x) as [v|] eqn:E.
  - symmetry. apply get_in; [exact D'|]. eapply Permutation_in; [exact P|]. apply get_in; assumption.
  - destruct (label_get m' x) as [v|] eqn:E'; [|reflexivity]. apply get_in in E'; [|exact D'].
    apply Permutation_sym in P. eapply Permutation_in in E'; [|exact P]. apply get_in in E'; [|exact D]. congruence.
Qed.

Lemma permutation_concat : forall (A : Type) (l l' : list (list A)), Permutation l l' -> Permutation (concat l) (concat l').
Proof.
  intros A l l' P. induction P as [|x l l' P IH|x y l|l l' l'' P IH P' IH']; cbn [concat].
  - reflexivity.
  - apply Permutation_app_head, IH.
  - rewrite !app_assoc. apply Permutation_app_tail, Permutation_app_comm.
  - etransitivity; eassumption.
Qed.

Lemma permutation_forall2 : forall (A B : Type) (R : A -> B -> Prop) l l', Permutation l l' -> forall k,
  Forall2 R l k -> exists k', Forall2 R l' k' /\ Permutation k k'.
Proof.
  intros A B R l l' P. induction P as [|x l l' P IH|x y l|l l' l'' P IH P' IH']; intros k F.
  - inversion F; subst. exists []. auto.
  - inversion F as [|? b ? k' H F']; subst. destruct (IH _ F') as (k2 & F2 & P2).
    exists (b :: k2). split; [constructor; assumption | constructor; exact P2].
  - inversion F as [|? b ? k' H F']; subst. inversion F' as [|? c ? k'' H' F'']; subst.
    exists (c :: b :: k''). split; [repeat constructor; assumption | constructor].
  - destruct (IH _ F) as (k1 & F1 & P1). destruct (IH' _ F1) as (k2 & F2 & P2).
    exists k2. split; [exact F2 | etransitivity; eassumption].
Qed.

Lemma forall2_mono : forall (A B : Type) (R R' : A -> B -> Prop), (forall x y, R x y -> R' x y) ->
  forall l k, Forall2 R l k -> Forall2 R' l k.
Proof. intros A B R R' H l k F. induction F; constructor; auto. Qed.

(** *** The second pass over sections *)

Lemma emit_section : forall labels l id args a rest ranges current, directive_from id args = Ok (Org a) ->
  emit_loop labels ranges current (NDirective l id args :: rest) =
  emit_loop labels (push_range ranges current) (range_new a) rest.
Proof. intros labels l id args a rest ranges current E. cbn [emit_loop]. rewrite E. reflexivity. Qed.

Definition on_ok {E A B : Type} (f : A -> B) (r : run (result E A)) : run (result E B) :=
  match r with Done (Ok a) => Done (Ok (f a)) | Done (Err e) => Done (Err e) | Crash c => Crash c end.

Lemma push_app : forall ranges more current, push_range (ranges ++ more) current = ranges ++ push_range more current.
Proof. intros. unfold push_range. destruct (0 <? range_len current); [rewrite app_assoc|]; reflexivity. Qed.

Lemma emit_ranges : forall labels p more ranges current,
  emit_loop labels (ranges ++ more) current p = on_ok (app ranges) (emit_loop labels more current p).
Proof.
  intros labels p. induction p as [|x p IH]; intros more ranges current.
  - cbn [emit_loop on_ok]. rewrite push_app. reflexivity.
  - destruct x as [k d args|k y|k m fs]; cbn [emit_loop].
    + destruct (directive_from d args) as [d'|e]; [|reflexivity].
      destruct d' as [o|bytes|c]; [rewrite push_app; apply IH| |];
        match goal with |- bind ?x _ = _ => destruct x as [r|c']; cbn [bind] end;
        try apply IH; reflexivity.
    + apply IH.
    + destruct (instruction_from m fs labels) as [o|e]; [|reflexivity].
      destruct (instruction_into_vec o) as [b|c]; cbn [bind]; [|reflexivity].
      destruct (append_asserted current b) as [r|c]; cbn [bind]; [apply IH | reflexivity].
Qed.

Lemma emit_then : forall labels l id args a rest, directive_from id args = Ok (Org a) ->
  forall p ranges current rs,
  emit_loop labels ranges current (p ++ NDirective l id args :: rest) = Done (Ok rs) <->
  exists rs', emit_loop labels ranges current p = Done (Ok rs') /\
    emit_loop labels rs' (range_new a) rest = Done (Ok rs).
Proof.
  intros labels l id args a rest E. induction p as [|x p IH]; intros ranges current rs.
  - cbn [app]. rewrite (emit_section _ _ _ _ _ _ _ _ E). cbn [emit_loop]. split.
    + intros H. eexists. split; [reflexivity | exact H].
    + intros (rs' & H & K). injection H as <-. exact K.
  - cbn [app]. destruct x as [k d xs|k y|k m fs]; cbn [emit_loop].
    + destruct (directive_from d xs) as [d'|e]; [|split; [discriminate | intros (? & ? & _); discriminate]].
      destruct d' as [o|bytes|c]; [apply IH| |];
        match goal with |- bind ?x _ = _ <-> _ => destruct x as [r|c']; cbn [bind] end;
        try apply IH; (split; [discriminate | intros (? & ? & _); discriminate]).
    + apply IH.
    + destruct (instruction_from m fs labels) as [o|e]; [|split; [discriminate | intros (? & ? & _); discriminate]].
      destruct (instruction_into_vec o) as [b|c]; cbn [bind]; [|split; [discriminate | intros (? & ? & _); discriminate]].
      destruct (append_asserted current b) as [r|c]; cbn [bind];
        [apply IH | split; [discriminate | intros (? & ? & _); discriminate]].
Qed.

Lemma emit_sections : forall labels ss, Forall is_section ss -> forall rs,
  emit_loop labels [] (range_new 0) (concat ss) = Done (Ok rs) <->
  exists rss, Forall2 (fun s r => emit_loop labels [] (range_new 0) s = Done (Ok r)) ss rss /\ rs = concat rss.
Proof.
  intros labels ss F. induction F as [|s ss Hs F IH]; intros rs.
  - cbn. split.
    + intros H. injection H as <-. exists []. split; [constructor | reflexivity].
    + intros (rss & H & ->). inversion H; subst. reflexivity.
  - cbn [concat].
    assert (G : emit_loop labels [] (range_new 0) (s ++ concat ss) = Done (Ok rs) <->
      exists r rs', emit_loop labels [] (range_new 0) s = Done (Ok r) /\
        emit_loop labels [] (range_new 0) (concat ss) = Done (Ok rs') /\ rs = r ++ rs').
    { destruct F as [|t ss (l & id & args & a & rest & -> & E) F].
      - cbn [concat]. rewrite app_nil_r. split.
        + intros H. exists rs, []. rewrite app_nil_r. auto.
        + intros (r & rs' & H & K & ->). injection K as <-. rewrite app_nil_r. exact H.
      - cbn [concat app]. rewrite (emit_then _ _ _ _ _ _ E). rewrite (emit_section _ _ _ _ _ _ _ _ E).
        change (push_range [] (range_new 0)) with (@nil data_range).
        split.
        + intros (r & H & K). rewrite <- (app_nil_r r), emit_ranges in K.
          destruct (emit_loop labels [] (range_new a) (rest ++ concat ss)) as [[x|e]|c]; try discriminate.
          cbn [on_ok] in K. injection K as <-. exists r, x. auto.
        + intros (r & rs' & H & K & ->). exists r. split; [exact H|].
          rewrite <- (app_nil_r r) at 1. rewrite emit_ranges, K. reflexivity. }
    rewrite G. split.
    + intros (r & rs' & H & K & ->). apply IH in K. destruct K as (rss & K & ->).
      exists (r :: rss). split; [constructor; assumption | reflexivity].
    + intros (rss & H & ->). inversion H as [|? r ? rss' Hr Hrs]; subst.
      exists r, (concat rss'). split; [exact Hr|]. split; [|reflexivity]. apply IH. exists rss'. auto.
Qed.

Lemma ok_part_some : forall (E A : Type) (r : result E A) a, ok_part r = Some a <-> r = Ok a.
Proof. intros E A [x|e] a; cbn; split; congruence. Qed.

Lemma assemble_sections : forall ss ss' rs, Forall is_section ss -> Permutation ss ss' ->
  assemble (concat ss) = Done (Ok rs) ->
  exists rs', assemble (concat ss') = Done (Ok rs') /\ Permutation rs rs'.
Proof.
  intros ss ss' rs F P H.
  assert (F' : Forall is_section ss') by (rewrite Forall_forall in *; intros s I; apply F;
    eapply Permutation_in; [apply Permutation_sym; exact P | exact I]).
  unfold assemble, define_labels, emit_data_ranges in *.
  destruct (define_labels_loop [] 0 (concat ss)) as [m|e] eqn:D; [|discriminate].
  apply ok_part_some in D. apply define_sections in D; [|exact F | lia | constructor].
  destruct D as (ls & Dl & -> & N).
  destruct (permutation_forall2 _ _ _ _ _ P _ Dl) as (ls' & Dl' & Pl).
  rewrite app_nil_r in *.
  assert (Pm : Permutation (concat (rev ls)) (concat (rev ls'))).
  { apply permutation_concat. rewrite <- !Permutation_rev. exact Pl. }
  assert (D' : ok_part (define_labels_loop [] 0 (concat ss')) = Some (concat (rev ls'))).
  { apply define_sections; [exact F' | lia | constructor|]. exists ls'. rewrite app_nil_r.
    split; [exact Dl'|]. split; [reflexivity|]. eapply Permutation_NoDup; [|exact N]. apply Permutation_map, Pm. }
  apply ok_part_some in D'. rewrite D'.
  apply emit_sections in H; [|exact F]. destruct H as (rss & R & ->).
  destruct (permutation_forall2 _ _ _ _ _ P _ R) as (rss' & R' & Pr).
  exists (concat rss'). split; [|apply permutation_concat, Pr].
  apply emit_sections; [exact F'|]. exists rss'. split; [|reflexivity].
  revert R'. apply forall2_mono. intros s r E. rewrite <- E. symmetry. apply emit_ext.
  intros n x _ _. apply get_permutation; assumption.
Qed.

(** Sections in the sense of the source, in an accepted program. *)
Theorem assemble_reordered : forall ss ss' rs, Forall node_ok (concat ss) -> Forall section_starts ss ->
  Permutation ss ss' -> assemble (concat ss) = Done (Ok rs) ->
  exists rs', assemble (concat ss') = Done (Ok rs') /\ Permutation rs rs'.
Proof.
  intros ss ss' rs O F P H. apply (assemble_sections ss ss'); [|exact P | exact H].
  assert (exists m, define_labels_loop [] 0 (concat ss) = Ok m) as (m & D).
  { unfold assemble, define_labels in H. destruct (define_labels_loop [] 0 (concat ss)); [eauto | discriminate]. }
  rewrite Forall_forall in *. intros s I. destruct (F s I) as (l & id & a & rest & -> & N).
  assert (J : In (NDirective l id [LNumeric a]) (concat ss)).
  { apply in_concat. eexists. split; [exact I | left; reflexivity]. }
  destruct (define_directives _ _ _ _ _ _ _ D J) as (d & E).
  assert (A : ascii id) by (apply (O _ J)).
  exists l, id, [LNumeric a], a, rest. split; [reflexivity|].
  apply directive_means in E; [|exact A]. apply directive_means; [exact A|].
  assert (N' : names id "ORG" = true) by (unfold names; apply str_eqb_eq; exact N).
  inversion E; subst; try name_clash. exact E.
Qed.
