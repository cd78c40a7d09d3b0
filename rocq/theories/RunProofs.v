(** * RunProofs: both ways of finding an instruction agree *)

From Verif Require Import Base Text U12 Parser Directive Instruction DataRange Assembler SpecLex SpecOpcode SpecDisasm
  SpecInverse SpecLayout BaseFacts OpcodeProofs InstructionProofs DecodeProofs InverseProofs LayoutProofs EmitProofs OutputProofs SpecRun.
Open Scope N_scope.

(** ** One row for each statement *)

(** The kind of field an operand of the table asks for. *)
Definition kind (o : string) : N :=
  if existsb (String.eqb o) ["Vx"; "Vy"; "V0"]%string then 0
  else if existsb (String.eqb o) ["addr"; "nn"; "n"]%string then 1
  else if String.eqb o "I" then 2
  else if String.eqb o "[I]" then 3
  else if String.eqb o "DT" then 4
  else if String.eqb o "ST" then 5
  else if String.eqb o "K" then 6
  else if String.eqb o "F" then 7
  else if String.eqb o "B" then 8
  else 9.

Definition field_kind (f : field) : N :=
  match f with
  | FRegister _ => 0
  | FNumeric _ | FIdentifier _ => 1
  | FIndex => 2
  | FIndexIndirect => 3
  | FDelayTimer => 4
  | FSoundTimer => 5
  | FKeypad => 6
  | FSprite => 7
  | FBcd => 8
  end.

Lemma fits_kind : forall o f, fits o f -> kind o = field_kind f.
Proof.
  intros o f H. destruct H as [| | | | | | | | | |o f V E]; try reflexivity.
  destruct V as [<-|[<-|[<-|[]]]]; destruct f; try discriminate E; reflexivity.
Qed.

Definition same_list (a b : list N) : bool := if list_eq_dec N.eq_dec a b then true else false.

Lemma rows_by_kind : forall row row', In row table -> In row' table ->
  u (snd (fst row)) = u (snd (fst row')) -> map kind (snd row) = map kind (snd row') -> row = row'.
Proof.
  assert (C : forallb (fun row => forallb (fun row' =>
      negb (str_eqb (u (snd (fst row))) (u (snd (fst row')))) || negb (same_list (map kind (snd row)) (map kind (snd row'))) ||
      String.eqb (fst (fst row)) (fst (fst row'))) table) table = true) by (vm_compute; reflexivity).
  assert (Dis : forallb (fun row => forallb (fun row' => negb (String.eqb (fst (fst row)) (fst (fst row'))) ||
      (String.eqb (snd (fst row)) (snd (fst row')) &&
       if list_eq_dec string_dec (snd row) (snd row') then true else false)) table) table = true) by (vm_compute; reflexivity).
  intros row row' I I' N K. rewrite forallb_forall in C, Dis. specialize (C row I). specialize (Dis row I).
  cbv beta in C, Dis. rewrite forallb_forall in C, Dis. specialize (C row' I'). specialize (Dis row' I'). cbv beta in C, Dis.
  rewrite N, K in C. rewrite (proj2 (str_eqb_eq _ _) eq_refl) in C. unfold same_list in C.
  destruct (list_eq_dec N.eq_dec (map kind (snd row')) (map kind (snd row'))) as [_|X]; [|contradiction].
  cbn [negb orb] in C. rewrite C in Dis. cbn [negb orb] in Dis. apply andb_true_iff in Dis. destruct Dis as [D1 D2].
  apply String.eqb_eq in C, D1. destruct (list_eq_dec string_dec (snd row) (snd row')) as [D|]; [|discriminate].
  destruct row as [[a b] c], row' as [[a' b'] c']. cbn [fst snd] in *. subst. reflexivity.
Qed.

Lemma fits_kinds : forall os fs, Forall2 fits os fs -> map kind os = map field_kind fs.
Proof. induction 1 as [|o f os fs H _ IH]; [reflexivity|]. cbn [map]. rewrite IH, (fits_kind o f H). reflexivity. Qed.

Lemma row_for_one : forall m fields row row', row_for m fields row -> row_for m fields row' -> row = row'.
Proof.
  intros m fields [[p n] os] [[p' n'] os'] (I & N & F) (I' & N' & F'). apply rows_by_kind; try assumption; cbn [fst snd].
  - unfold named in *. congruence.
  - rewrite (fits_kinds _ _ F), (fits_kinds _ _ F'). reflexivity.
Qed.

(** ** Operands *)

Lemma denote_fits : forall lookup cs fs os, denote_all lookup cs fs os -> Forall2 fits cs fs.
Proof. induction 1 as [|c cs f fs o os D _ IH]; constructor; [exact (proj1 D) | exact IH]. Qed.

(** What a statement says about an operand is in the word. *)
Lemma denotes_read : forall lookup w c f, read_back lookup w c f -> denotes lookup c f (operand_in w c).
Proof.
  intros lookup w c f (F & X & Y & A & B & D). split; [exact F|].
  assert (V : forall v, value_of lookup f = Some v -> is_value f = true ->
    match f with
    | FRegister r => Number v = Register r
    | FNumeric n => Number v = Number n
    | FIdentifier label => exists n, lookup label = Some n /\ Number v = Number n
    | _ => Number v = Fixed c
    end).
  { intros v E I. destruct f; try discriminate I; cbn [value_of] in E; [congruence | eauto]. }
  destruct F as [| | | | | | | | | |c f W E]; try reflexivity.
  - specialize (X eq_refl). injection X as ->. reflexivity.
  - specialize (Y eq_refl). injection Y as ->. reflexivity.
  - destruct W as [<-|[<-|[<-|[]]]]; cbn [operand_in String.eqb Ascii.eqb Bool.eqb]; apply V; auto.
Qed.

Lemma denotes_one : forall lookup c f o o', denotes lookup c f o -> denotes lookup c f o' -> o = o'.
Proof.
  intros lookup c f o o' [_ D] [_ D']. destruct f; try congruence.
  destruct D as (v & E & ->), D' as (v' & E' & ->). congruence.
Qed.

Lemma denote_all_one : forall lookup cs fs os os', denote_all lookup cs fs os -> denote_all lookup cs fs os' -> os = os'.
Proof.
  intros lookup cs fs os os' H. revert os'. induction H as [|c cs f fs o os D H IH]; intros os' H'; inversion H'; subst; [reflexivity|].
  f_equal; [eapply denotes_one; eassumption | apply IH; assumption].
Qed.

(** ** Words and statements *)

Lemma word_says_one : forall w i i', w < 65536 -> word_says w i -> word_says w i' -> i = i'.
Proof.
  intros w i i' L (p & n & cs & I & M & ->) (p' & n' & cs' & I' & M' & ->).
  assert (E : (p, n, cs) = (p', n', cs')) by (apply (rows_apart w); assumption). injection E as -> -> ->. reflexivity.
Qed.

Lemma statement_says_one : forall lookup m fields i i',
  statement_says lookup m fields i -> statement_says lookup m fields i' -> i = i'.
Proof.
  intros lookup m fields i i' (p & n & cs & os & I & N & D & ->) (p' & n' & cs' & os' & I' & N' & D' & ->).
  assert (E : (p, n, cs) = (p', n', cs')).
  { apply (row_for_one m fields); (split; [assumption|]; split; [assumption|]); eapply denote_fits; eassumption. }
  injection E as -> -> ->. f_equal. eapply denote_all_one; eassumption.
Qed.

(** An encoded statement says what its word says. *)
Lemma encodes_says : forall lookup m fields w, Forall field_ok fields -> encodes lookup m fields w ->
  w < 65536 /\ exists i, statement_says lookup m fields i /\ word_says w i.
Proof.
  intros lookup m fields w F E. destruct (encodes_read_back _ _ _ _ F E) as (p & n & cs & (I & N & _) & M & L & _ & R).
  split; [exact L|]. exists (n, map (operand_in w) cs). split.
  - exists p, n, cs, (map (operand_in w) cs). split; [exact I|]. split; [exact N|]. split; [|reflexivity].
    clear - R. induction R as [|c f cs fs H R IH]; cbn [map]; constructor; [apply denotes_read; exact H | exact IH].
  - exists p, n, cs. auto.
Qed.

Lemma Forall2_at : forall (A B : Type) (R : A -> B -> Prop) xs ys, Forall2 R xs ys ->
  forall k x, nth_error xs k = Some x -> exists y, nth_error ys k = Some y /\ R x y.
Proof.
  intros A B R xs ys H. induction H as [|a b xs ys Hab H IH]; intros [|k] x E; try discriminate E.
  - injection E as <-. exists b. auto.
  - apply IH. exact E.
Qed.

(** The bytes of an instruction of an accepted program. *)
Lemma instruction_in_memory : forall p rs k l m fields, Forall node_ok p -> well_formed p -> output p rs ->
  nth_error p k = Some (NInstruction l m fields) ->
  Forall field_ok fields /\ exists w, encodes (lookup p) m fields w /\
    In (address p k, w / 256) (memory rs) /\ In (address p k + 1, w mod 256) (memory rs).
Proof.
  intros p rs k l m fields F W O N.
  assert (Fk : node_ok (NInstruction l m fields)) by (rewrite Forall_forall in F; apply F; eapply nth_error_In; exact N).
  split; [exact (proj2 Fk)|].
  destruct (memory_image p rs W O) as (bs & B & -> & _).
  destruct (Forall2_at _ _ _ _ _ B _ _ N) as (b & Nb & Hb). inversion Hb; subst.
  exists w. split; [assumption|].
  assert (G : In k (seq 0 (length p))) by (apply in_seq; split; [lia|]; cbn; apply nth_error_Some; congruence).
  split; apply in_concat; exists (place (address p k) (nth k bs [])); (split; [apply in_map_iff; exists k; auto|]);
    rewrite (nth_error_nth _ _ _ Nb); cbn [place]; [left | right; left]; reflexivity.
Qed.

(** ** Steps *)

Lemma step_same : forall P p rs s s', Forall node_ok p -> well_formed p -> output p rs -> loaded P (memory rs) s ->
  (program_step P p s s' <-> at_statement P p s /\ machine_step P s s').
Proof.
  intros P p rs s s' F W O L.
  assert (G : forall k l m fields, nth_error p k = Some (NInstruction l m fields) -> pc P s = address p k ->
    exists w i, w < 65536 /\ 256 * mem P s (pc P s) + mem P s (pc P s + 1) = w /\
      statement_says (lookup p) m fields i /\ word_says w i).
  { intros k l m fields N A. destruct (instruction_in_memory p rs k l m fields F W O N) as (Ff & w & E & I1 & I2).
    destruct (encodes_says _ _ _ _ Ff E) as (Lt & i & Si & Wi). exists w, i. split; [exact Lt|]. split; [|auto].
    rewrite A, (L _ _ I1), (L _ _ I2). lia. }
  split.
  - intros (k & l & m & fields & i & N & A & Si & ->). split; [exists k, l, m, fields; auto|].
    destruct (G _ _ _ _ N A) as (w & i' & _ & E & Si' & Wi). exists i. split; [|reflexivity].
    rewrite E, (statement_says_one _ _ _ _ _ Si Si'). exact Wi.
  - intros [(k & l & m & fields & N & A) (i & Wi & ->)]. exists k, l, m, fields, i. split; [exact N|]. split; [exact A|].
    split; [|reflexivity]. destruct (G _ _ _ _ N A) as (w & i' & Lt & E & Si & Wi'). rewrite E in Wi.
    rewrite (word_says_one w i i' Lt Wi Wi'). exact Si.
Qed.

Lemma step_exists : forall P p rs s, Forall node_ok p -> well_formed p -> output p rs -> loaded P (memory rs) s ->
  at_statement P p s -> exists s', program_step P p s s' /\ forall s'', machine_step P s s'' -> s'' = s'.
Proof.
  intros P p rs s F W O L (k & l & m & fields & N & A).
  destruct (instruction_in_memory p rs k l m fields F W O N) as (Ff & w & E & I1 & I2).
  destruct (encodes_says _ _ _ _ Ff E) as (Lt & i & Si & Wi). exists (exec P i s).
  split; [exists k, l, m, fields, i; auto|]. intros s'' (i' & Wi' & ->).
  replace (256 * mem P s (pc P s) + mem P s (pc P s + 1)) with w in Wi'.
  - rewrite (word_says_one w i' i Lt Wi' Wi). reflexivity.
  - rewrite A, (L _ _ I1), (L _ _ I2). lia.
Qed.

Lemma runs_mono : forall (S : Type) (step step' : S -> S -> Prop) (inv inv' : S -> Prop),
  (forall s, inv s -> inv' s) -> (forall s s', inv s -> step s s' -> step' s s') ->
  forall s s', runs step inv s s' -> runs step' inv' s s'.
Proof.
  intros S step step' inv inv' Hi Hs s s' H. induction H as [s|s s' s'' I T _ IH]; [constructor|].
  econstructor; [apply Hi, I | apply Hs; [exact I | exact T] | exact IH].
Qed.
