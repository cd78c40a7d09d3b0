(** * SrcFacts: running the machine of SrcRun.v in a proof. *)

From Coq Require Import String Ascii List NArith Bool FMapPositive.
From Verif Require Import Base Text U12 Scanner Instruction SrcParse SrcRun SrcCode SrcEnc.
Import ListNotations.
Open Scope list_scope.
Open Scope N_scope.

Lemma reaches_refl p s : reaches p s s.
Proof. exists 0%nat. reflexivity. Qed.

Lemma steps_add p n m s : steps p (n + m) s = steps p m (steps p n s).
Proof. revert s. induction n as [|n IH]; intro s; [reflexivity|]. cbn [Nat.add steps]. apply IH. Qed.

Lemma reaches_trans p s t r : reaches p s t -> reaches p t r -> reaches p s r.
Proof. intros [n H] [m H']. exists (n + m)%nat. rewrite steps_add, H. exact H'. Qed.

Lemma reaches_step p s t : reaches p (step p s) t -> reaches p s t.
Proof. intros [n H]. exists (S n). exact H. Qed.

(** Running on *)
Lemma go_reaches p stop n s t : reaches p (go p stop n s) t -> reaches p s t.
Proof.
  revert s. induction n as [|n IH]; intros s H; [exact H|].
  cbn [go] in H. destruct (stop s); [exact H|].
  destruct s; try exact H; apply reaches_step, IH, H.
Qed.

(** Deciding *)
Lemma reaches_branch p (b : bool) s1 s2 t : reaches p (if b then s1 else s2) t -> reaches p (Branch b s1 s2) t.
Proof. exact (reaches_step p (Branch b s1 s2) t). Qed.
Lemma reaches_opt p c no (o : option value) e k t :
  reaches p match o with Some v => Retn (VCon c [("0"%string, v)]) e k | None => Retn no e k end t ->
  reaches p (Opt c no o e k) t.
Proof. exact (reaches_step p (Opt c no o e k) t). Qed.
Lemma reaches_try p (r : Base.run value) e k t :
  reaches p match r with Done v => Retn v e k | Crash w => Panic w end t -> reaches p (Try r e k) t.
Proof. exact (reaches_step p (Try r e k) t). Qed.

Ltac quick t :=
  eval lazy -[N.add N.sub N.mul N.eqb N.leb N.ltb N.land N.lor N.shiftl N.shiftr N.modulo N.div
              N.pow N.max N.min str_eqb to_lowercase byte_len drop_bytes take_bytes slice
              from_str_radix fmt_hex fmt_dec pad_left join starts_with label_get utf8 enc
              s_app v_len v_app v_rev v_chunks v_from v_int v_written v_concat v_chars v_bytes v_strs v_range map_get has v_get v_slice found
              find_whitespace find_string_literal find_hex_literal find_bin_literal
              find_decimal_literal find_identifier u12_unchecked_into u12_failable_into
              u12_checked_add u12_wrapping_add u8_failable_from_u12 usize_checked_shl
              u12_max len_utf8 both either u e_pairs resolve_label to_8_bit to_4_bit ] in t.

(** To where something has to be decided, or one of [stops] is called *)
Ltac run_once stops :=
  lazymatch goal with
  | |- reaches c8s ?s ?t =>
      let s' := quick (go c8s stops 3000 s) in
      apply (go_reaches c8s stops 3000 s t); change (go c8s stops 3000 s) with s'
  end.
Ltac run_to stops :=
  run_once stops;
  lazymatch goal with
  | |- reaches c8s (Back _ _ (_ :: _)) _ => apply reaches_step; run_to stops
  | _ => idtac
  end.
Ltac run := run_to (calls_of []).


(** What a function of the source gives: its value, what its arguments are
    afterwards, or a panic *)
Definition outcome (r : Base.run (value * list value)) (K : list frame) : state :=
  match r with Done (v, finals) => Back v finals K | Crash why => Panic why end.
Definition returns (f : string) (args : list value) (r : Base.run (value * list value)) : Prop :=
  forall K, reaches c8s (Call f args K) (outcome r K).
(** A function that changes none of its arguments *)
Definition gives (f : string) (args : list value) (r : Base.run value) : Prop :=
  returns f args (match r with Done v => Done (v, args) | Crash why => Crash why end).

(** The end of a run *)
Ltac quick_goal :=
  lazymatch goal with
  | |- reaches c8s ?s ?t => let s' := quick s in let t' := quick t in change (reaches c8s s' t')
  end.
Ltac known :=
  repeat match goal with
         | E : ?c = true |- context [?c] => rewrite E
         | E : ?c = false |- context [?c] => rewrite E
         end.
Ltac finish := quick_goal; known; quick_goal; apply reaches_refl.
(** The same for a text: the pieces may be cut elsewhere *)
Lemma reaches_back v v' l K : v = v' -> reaches c8s (Back v l K) (Back v' l K).
Proof. intros ->. apply reaches_refl. Qed.
Lemma same_text (a b : str) : a = b -> VStr a = VStr b.
Proof. intros ->. reflexivity. Qed.
Ltac texts :=
  unfold s_app; repeat rewrite <- app_assoc;
  lazy -[fmt_hex fmt_dec pad_left join N.add N.sub]; reflexivity.
Ltac finish_text := quick_goal; apply reaches_back, same_text; texts.
(** A condition, if it is known *)
Ltac decide_closed :=
  lazymatch goal with
  | |- reaches c8s (Branch ?b ?s1 ?s2) ?t =>
      let b' := eval lazy in b in
      lazymatch b' with
      | true => apply (reaches_branch c8s b s1 s2 t); change b with true; cbv iota
      | false => apply (reaches_branch c8s b s1 s2 t); change b with false; cbv iota
      end
  end.
Ltac decide_any :=
  lazymatch goal with
  | |- reaches c8s (Branch ?b ?s1 ?s2) ?t =>
      apply (reaches_branch c8s b s1 s2 t);
      match goal with
      | E : b = _ |- _ => rewrite E
      | _ => let E := fresh "E" in destruct b eqn:E
      end; cbv iota
  end.
Ltac decide_opt :=
  lazymatch goal with
  | |- reaches c8s (Opt ?c ?no ?o ?e ?k) ?t =>
      apply (reaches_opt c8s c no o e k t);
      let o' := eval hnf in o in
      match o' with
      | Some _ => change o with o'
      | None => change o with o'
      | _ => match goal with E : o = _ |- _ => rewrite E end
      | _ => let E := fresh "E" in destruct o eqn:E
      end; cbv iota
  end.
Ltac decide_try :=
  lazymatch goal with
  | |- reaches c8s (Try ?r ?e ?k) ?t =>
      apply (reaches_try c8s r e k t);
      match goal with
      | E : r = _ |- _ => rewrite E
      | _ => let E := fresh "E" in destruct r eqn:E
      end; cbv iota
  end.
Ltac try_closed :=
  lazymatch goal with
  | |- reaches c8s (Try ?r ?e ?k) ?t =>
      let r' := eval lazy in r in change (reaches c8s (Try r' e k) t); apply (reaches_try c8s r' e k t); cbv iota
  end.
Ltac try_if :=
  lazymatch goal with
  | |- reaches c8s (Try (if ?b then ?x else ?y) ?e ?k) ?t =>
      apply (reaches_try c8s (if b then x else y) e k t);
      match goal with
      | E : b = _ |- _ => rewrite E
      | _ => let E := fresh "E" in destruct b eqn:E
      end; cbv iota
  end.
(** Running, deciding every condition both ways *)
Ltac run_on stops :=
  run_to stops;
  lazymatch goal with
  | |- reaches c8s (Branch _ _ _) _ => first [decide_closed | decide_any]; run_on stops
  | |- reaches c8s (Opt _ _ ?o _ _) _ =>
      let o' := eval hnf in o in
      lazymatch o' with
      | Some _ => decide_opt; run_on stops
      | None => decide_opt; run_on stops
      | _ => idtac
      end
  | _ => idtac
  end.
(** One step *)
Ltac one :=
  apply reaches_step;
  lazymatch goal with |- reaches c8s ?s ?t => let s' := quick s in change (reaches c8s s' t) end.
(** On from a loop *)
Ltac again stops := apply reaches_step; run_on stops.
(** A call, by what is known of the function *)
Ltac use L := eapply reaches_trans; [apply L|].
(** The end of a run of [fmt] *)
Lemma reaches_fmt v x a b K : a = b -> reaches c8s (Back v [x; VStr a] K) (outcome (Done (v, [x; VStr b])) K).
Proof. intros ->. apply reaches_refl. Qed.
Ltac finish_fmt := apply reaches_fmt; texts.
Lemma enc_cons {A} (f : A -> value) a l : enc f (a :: l) = f a :: enc f l.
Proof. reflexivity. Qed.
Lemma enc_nil {A} (f : A -> value) : enc f [] = [].
Proof. reflexivity. Qed.
Lemma enc_app {A} (f : A -> value) a b : enc f (a ++ b) = v_app (enc f a) (enc f b).
Proof. unfold enc. apply map_app. Qed.
Lemma enc_length {A} (f : A -> value) l : v_len (enc f l) = N.of_nat (length l).
Proof. unfold v_len, enc. rewrite map_length. reflexivity. Qed.
Lemma both_true_r c : both c true = c.
Proof. apply Bool.andb_true_r. Qed.
Lemma both_false_r c : both c false = false.
Proof. apply Bool.andb_false_r. Qed.
(** The statements of a function *)
Definition body_of (f : string) : id :=
  match assoc (fns c8s) f with Some d => fn_body d | None => 1%positive end.

(** ** A run has one end *)
Definition ended (s : state) : bool :=
  match s with Back _ _ [] => true | Ask _ _ _ => true | Panic _ => true | Stuck => true | _ => false end.
Lemma ended_step p s : ended s = true -> step p s = s.
Proof. destruct s; try discriminate; try reflexivity. destruct k; [reflexivity|discriminate]. Qed.
Lemma ended_steps p n s : ended s = true -> steps p n s = s.
Proof.
  intro H. induction n as [|n IH]; [reflexivity|]. cbn [steps]. rewrite (ended_step p s H). exact IH.
Qed.
Theorem one_end p s t t' : ended t = true -> ended t' = true -> reaches p s t -> reaches p s t' -> t = t'.
Proof.
  intros H H' [n Hn] [m Hm].
  assert (A : steps p (n + m) s = t) by (rewrite steps_add, Hn; apply ended_steps; exact H).
  assert (B : steps p (m + n) s = t') by (rewrite steps_add, Hm; apply ended_steps; exact H').
  rewrite <- A, <- B. f_equal. apply PeanoNat.Nat.add_comm.
Qed.
