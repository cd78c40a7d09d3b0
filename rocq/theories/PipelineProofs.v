(** * PipelineProofs: what the scanner and parser guarantee to the assembler. *)

From Verif Require Import Base Text U12 Location Token Scanner Parser Directive Opcode Instruction DataRange
  Assembler SpecLex SpecGrammar SpecOpcode SpecRefusal SpecLayout BaseFacts LexProofs LexTheorems ParseProofs.
Open Scope N_scope.

Definition token_ok (t : token) : Prop :=
  match t with Identifier id _ => ascii id | _ => True end.

Lemma among_ascii : forall s c, forallb (fun x => x <? 128) (u s) = true -> among s c = true -> c < 128.
Proof.
  intros s c H A. unfold among in A. apply existsb_exists in A. destruct A as (x & I & E).
  rewrite forallb_forall in H. specialize (H x I). lia.
Qed.

Lemma rmatch_ascii : forall r s, rmatch r s ->
  (fix ok (r : re) : Prop :=
     match r with
     | Chr p => forall c, p c = true -> c < 128
     | Eps => True
     | Cat a b => ok a /\ ok b
     | Alt a b => ok a /\ ok b
     | Star a => ok a
     end) r -> ascii s.
Proof.
  unfold ascii. induction 1; intros O.
  - constructor; [apply O; assumption | constructor].
  - constructor.
  - apply Forall_app. split; [apply IHrmatch1 | apply IHrmatch2]; apply O.
  - apply IHrmatch. apply O.
  - apply IHrmatch. apply O.
  - constructor.
  - apply Forall_app. split; [apply IHrmatch1 | apply IHrmatch2]; apply O.
Qed.

Lemma identifier_ascii : forall m, rmatch (pattern KIdentifier) m -> ascii m.
Proof.
  intros m H. apply (rmatch_ascii _ _ H). cbn [pattern]. split.
  - intros c E. apply orb_true_iff in E. destruct E as [E|E]; (eapply among_ascii; [|exact E]; reflexivity).
  - intros c E. apply orb_true_iff in E. destruct E as [E|E].
    + apply orb_true_iff in E. destruct E as [E|E]; (eapply among_ascii; [|exact E]; reflexivity).
    + eapply among_ascii; [|exact E]; reflexivity.
Qed.

Lemma indirect_ascii : forall m, rmatch (pattern KIndirect) m -> ascii m.
Proof.
  intros m H. apply (rmatch_ascii _ _ H). cbn [pattern]. repeat split.
  - intros c E. apply N.eqb_eq in E. subst c. reflexivity.
  - intros c E. eapply among_ascii; [|exact E]; reflexivity.
  - intros c E. apply N.eqb_eq in E. subst c. reflexivity.
Qed.

Lemma lexes_token_ok : forall file before s ts, lexes file before s ts -> Forall token_ok ts.
Proof.
  intros file before s ts H.
  induction H as [before | before c s ts Hb H IH | before s k m rest t ts L T H IH
                  | before s k m rest e L B | before c s Hb St]; repeat constructor; auto.
  destruct L as (_ & R & _).
  inversion T; subst; cbn [token_ok]; auto using identifier_ascii, indirect_ascii.
Qed.

Lemma digit_le : forall c, digit c <= 15.
Proof.
  intros c. unfold digit. change (u "0123456789abcdef") with
    [48; 49; 50; 51; 52; 53; 54; 55; 56; 57; 97; 98; 99; 100; 101; 102].
  change (u "0123456789ABCDEF") with
    [48; 49; 50; 51; 52; 53; 54; 55; 56; 57; 65; 66; 67; 68; 69; 70].
  cbn [index_of].
  repeat match goal with
  | |- context [c =? ?k] => destruct (c =? k); cbn [option_map]; try lia
  end.
Qed.

Lemma operand_ok : forall id, field_ok (operand id).
Proof.
  intros id. unfold operand. destruct (assoc id (special_operands ++ register_operands)) as [f|] eqn:E; [|exact I].
  assert (J : exists k, In (k, f) (special_operands ++ register_operands)).
  { clear - E. induction (special_operands ++ register_operands) as [|[k a] l IH]; [discriminate|].
    cbn [assoc] in E. destruct (list_eq_dec N.eq_dec id k).
    - injection E as <-. exists k. left. reflexivity.
    - destruct (IH E) as (k' & I). exists k'. right. exact I. }
  destruct J as (k & J). apply in_app_iff in J. destruct J as [J|J].
  - unfold special_operands in J. repeat (destruct J as [J|J]; [injection J as <- <-; exact I|]). destruct J.
  - unfold register_operands in J. apply in_flat_map in J. destruct J as (v & _ & J). apply in_map_iff in J.
    destruct J as (d & J & _). injection J as <- <-. cbn [field_ok]. apply digit_le.
Qed.

Lemma fields_ok : forall ts fs rest, fields ts fs rest -> Forall field_ok fs /\
  (Forall token_ok ts -> Forall token_ok rest).
Proof.
  assert (G : forall t f, field_token t f -> field_ok f).
  { intros t f H. destruct H; [cbn [field_ok]; lia | apply operand_ok]. }
  induction 1 as [l rest|c l rest|t a rest H|t a l ts args rest H _ [IH1 IH2]]; (split; [auto|]); auto.
  - repeat constructor. eapply G. exact H.
  - intros F. inversion F; assumption.
  - constructor; [eapply G; exact H | exact IH1].
  - intros F. inversion F as [|? ? _ F']; subst. inversion F'; subst. auto.
Qed.

Lemma literals_rest : forall ts args rest, literals ts args rest -> Forall token_ok ts -> Forall token_ok rest.
Proof.
  induction 1 as [l rest|t a rest H|t a l ts args rest H _ IH]; intros F; auto.
  - inversion F; assumption.
  - inversion F as [|? ? _ F']; subst. inversion F'; subst. auto.
Qed.

Theorem program_node_ok : forall ts ns, program ts ns -> Forall token_ok ts -> Forall node_ok ns.
Proof.
  induction 1 as [|l ts ns H IH|c l ts ns H IH|l0 id l ts args rest ns L H IH|id l l1 ts ns H IH
                  |id l ts args rest ns L H IH]; intros F.
  - constructor.
  - inversion F; auto.
  - inversion F; auto.
  - inversion F as [|? ? _ F1]; subst. inversion F1 as [|? ? A F2]; subst. constructor; [exact A|].
    apply IH. eapply literals_rest; eassumption.
  - inversion F as [|? ? _ F1]; subst. inversion F1 as [|? ? _ F2]; subst. constructor; [exact I | auto].
  - inversion F as [|? ? A F1]; subst. destruct (fields_ok _ _ _ L) as [O R]. constructor; [|auto].
    split; [exact A | exact O].
Qed.

(** Every parsed program is one the theorems about the assembler speak of. *)
Theorem parsed_node_ok : forall file s ts ns, scan file s = Done ts -> parse ts = Done (Ok ns) ->
  Forall node_ok ns.
Proof.
  intros file s ts ns S P. apply scan_lexes in S. apply parse_program in P.
  eapply program_node_ok; [exact P | eapply lexes_token_ok; exact S].
Qed.
