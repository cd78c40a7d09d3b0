(** * NumeralProofs: one way to write a number for another. *)

From Verif Require Import Base Text Location Token SpecLex SpecGrammar SpecErase SpecNumeral
  BaseFacts LexProofs ScanProofs LexTheorems LexAppend GrammarLines TextProofs.
Open Scope N_scope.

Lemma number_ends_starts : forall b p, number_ends b -> (forall c, p c = true -> continues c = true) -> starts p b = false.
Proof.
  intros [|c b] p E H; [reflexivity|]. cbn [starts number_ends] in *.
  destruct (p c) eqn:P; [|reflexivity]. rewrite (H c P) in E. discriminate.
Qed.

Lemma decimal_continues : forall c, among decimal_digits c = true -> continues c = true.
Proof.
  intros c H. unfold continues. assert (G : among hexadecimal_digits c = true).
  { unfold among in *. apply existsb_exists in H. destruct H as (x & I & E). apply existsb_exists. exists x. split; [|exact E].
    unfold decimal_digits, hexadecimal_digits in *. change (u "0123456789abcdefABCDEF") with (u "0123456789" ++ u "abcdefABCDEF").
    apply in_or_app. left. exact I. }
  rewrite G. reflexivity.
Qed.

Lemma binary_continues : forall c, among "01." c = true -> continues c = true.
Proof.
  intros c H. unfold continues. unfold among in *. apply existsb_exists in H. destruct H as (x & I & E).
  apply N.eqb_eq in E. subst x. cbn in I. destruct I as [<-|[<-|[<-|[]]]]; reflexivity.
Qed.

Lemma hexadecimal_continues : forall c, among hexadecimal_digits c = true -> continues c = true.
Proof. intros c H. unfold continues. rewrite H. reflexivity. Qed.

(** However it is written, the number is one token. *)
Lemma writes_token : forall file before v m b ts, writes v m -> v <= 4095 -> number_ends b ->
  lexes file before (m ++ b) ts ->
  exists l ts', ts = NumericLiteral v l :: ts' /\ lexes file (before ++ m) b ts'.
Proof.
  intros file before v m b ts W L E H.
  destruct W as [d Dn Da Dv|p d Hp Dl Da Dv|d Dn Da Dv]; subst v; cbn [app] in H.
  - pose proof (decimal_exact file before d b ts Dn Da (number_ends_starts _ _ E decimal_continues) H) as G.
    replace (positional 10 d <=? 4095) with true in G by lia. destruct G as (ts' & -> & G). eauto.
  - destruct (hex_exact file before p d b ts Hp Dl Da (or_intror (number_ends_starts _ _ E hexadecimal_continues)) H)
      as (_ & ts' & -> & G). eauto.
  - assert (P : 4095 < 2 ^ 64) by reflexivity.
    pose proof (binary_exact file before d b ts Dn Da ltac:(lia) (number_ends_starts _ _ E binary_continues) H) as G.
    replace (positional 2 (undot d) <=? 4095) with true in G by lia. destruct G as (ts' & -> & G). eauto.
Qed.

Theorem notation_same : forall file a m m' b v ts1 ts2 ts2', v <= 4095 -> writes v m -> writes v m' -> number_ends b ->
  boundary file a (m ++ b) ts1 ts2 -> boundary file a (m' ++ b) ts1 ts2' ->
  same_text file (a ++ m ++ b) (a ++ m' ++ b).
Proof.
  intros file a m m' b v ts1 ts2 ts2' L W W' E (La & Lm & Ne) (_ & Lm' & _).
  destruct (boundary_cut _ _ _ _ La Ne _ _ Lm) as [_ T]. destruct (boundary_cut _ _ _ _ La Ne _ _ Lm') as [_ T'].
  cbn [app] in T, T'.
  destruct (writes_token _ _ _ _ _ _ W L E T) as (l & r & -> & R).
  destruct (writes_token _ _ _ _ _ _ W' L E T') as (l' & r' & -> & R').
  destruct (lexes_moved _ _ _ _ R file (a ++ m')) as (r2 & R2 & S). rewrite (lexes_det _ _ _ _ R2 _ R') in S.
  eapply same_text_tokens; [exact Lm | exact Lm' | | |]; [|intros p P; exists p; split; [exact P | reflexivity] ..].
  apply same_app; [reflexivity|]. unfold same_tokens in *. cbn [map bare]. rewrite S. reflexivity.
Qed.
