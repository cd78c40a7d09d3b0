(** * MoveProofs: programs loaded at another place. *)

From Verif Require Import Base Text U12 Location Parser Directive Opcode Instruction DataRange Assembler
  SpecLex SpecOpcode SpecRefusal SpecLayout SpecMeta SpecMove BaseFacts LayoutProofs EmitProofs OutputProofs.
Open Scope N_scope.

(** ** Statements *)

Lemma move_cases : forall k n, move k n = n /\ origin n = None \/
  exists l id a, n = NDirective l id [LNumeric a] /\ names id "ORG" = true /\
    move k n = NDirective l id [LNumeric (a + k)].
Proof.
  intros k [l id args|l id|l m fs]; try (left; split; reflexivity).
  destruct args as [|[s|a] [|x args]]; try (left; split; reflexivity).
  cbn [move origin]. destruct (names id "ORG") eqn:E; [right | left; split; reflexivity].
  exists l, id, a. repeat split. exact E.
Qed.

Lemma org_not : forall id name, names id "ORG" = true -> u name <> u "ORG" -> names id name = false.
Proof.
  intros id name O N. destruct (names id name) eqn:E; [|reflexivity].
  destruct N. eapply names_exclusive; eassumption.
Qed.

Lemma move_origin : forall k n, origin (move k n) = option_map (fun a => a + k) (origin n).
Proof.
  intros k n. destruct (move_cases k n) as [[-> ->]|(l & id & a & -> & O & ->)]; [reflexivity|].
  cbn [origin]. rewrite O. reflexivity.
Qed.

Lemma move_size : forall k n, size (move k n) = size n.
Proof.
  intros k n. destruct (move_cases k n) as [[-> _]|(l & id & a & -> & O & ->)]; [reflexivity|].
  cbn [size]. rewrite (org_not id "DB" O) by discriminate. reflexivity.
Qed.

Lemma move_constant : forall k n, constant (move k n) = constant n.
Proof.
  intros k n. destruct (move_cases k n) as [[-> _]|(l & id & a & -> & O & ->)]; [reflexivity|].
  cbn [constant]. rewrite (org_not id "EQU" O) by discriminate. reflexivity.
Qed.

Lemma move_after : forall k a n, after (a + k) (move k n) = after a n + k.
Proof.
  intros k a n. unfold after. rewrite move_origin, move_size. destruct (origin n); cbn [option_map]; lia.
Qed.

Lemma move_after_org : forall k a n o, origin n = Some o -> after a (move k n) = after a n + k.
Proof. intros k a n o H. unfold after. rewrite move_origin, H. reflexivity. Qed.

Lemma counter_moved : forall k p a, counter (a + k) (moved k p) = counter a p + k.
Proof.
  intros k. induction p as [|n p IH]; intros a; [reflexivity|].
  change (counter (after (a + k) (move k n)) (moved k p) = counter (after a n) p + k).
  rewrite move_after. apply IH.
Qed.

Lemma starts_origin : forall p, section_starts p -> exists n o rest, p = n :: rest /\ origin n = Some o.
Proof.
  intros p (l & id & a & rest & -> & E). exists (NDirective l id [LNumeric a]), a, rest. split; [reflexivity|].
  cbn [origin]. unfold names. rewrite E. reflexivity.
Qed.

Lemma address_moved : forall k p i, section_starts p -> (0 < i)%nat ->
  address (moved k p) i = address p i + k.
Proof.
  intros k p i S I. destruct (starts_origin p S) as (n & o & rest & -> & O).
  destruct i as [|i]; [lia|]. unfold address, moved. cbn [map firstn].
  change (counter (after 0 (move k n)) (firstn i (map (move k) rest)) = counter (after 0 n) (firstn i rest) + k).
  rewrite (move_after_org _ _ _ _ O), firstn_map. apply counter_moved.
Qed.

Lemma move_is_label : forall k n l id, move k n = NLabel l id <-> n = NLabel l id.
Proof.
  intros k n l id. destruct (move_cases k n) as [[-> _]|(l' & id' & a & -> & O & ->)]; [tauto|].
  split; discriminate.
Qed.

Lemma move_is_instruction : forall k n l m fs, move k n = NInstruction l m fs <-> n = NInstruction l m fs.
Proof.
  intros k n l m fs. destruct (move_cases k n) as [[-> _]|(l' & id' & a & -> & O & ->)]; [tauto|].
  split; discriminate.
Qed.

Lemma moved_at : forall k p i, nth_error (moved k p) i = option_map (move k) (nth_error p i).
Proof. intros. unfold moved. apply nth_error_map. Qed.

Lemma moved_label : forall k p i l id,
  nth_error (moved k p) i = Some (NLabel l id) <-> nth_error p i = Some (NLabel l id).
Proof.
  intros k p i l id. rewrite moved_at. destruct (nth_error p i) as [n|]; cbn [option_map]; [|split; discriminate].
  split; intros H; injection H as H; f_equal; eapply move_is_label; exact H.
Qed.

Lemma moved_instruction : forall k p l m fs, In (NInstruction l m fs) (moved k p) <-> In (NInstruction l m fs) p.
Proof.
  intros k p l m fs. unfold moved. rewrite in_map_iff. split.
  - intros (n & E & I). apply move_is_instruction in E. subst n. exact I.
  - intros I. exists (NInstruction l m fs). split; [reflexivity | exact I].
Qed.

Lemma moved_labelled : forall k p i, labelled (moved k p) i <-> labelled p i.
Proof.
  intros k p i. split; intros (j & l & id & E & H); exists j, l, id; (split; [exact E|]);
    eapply moved_label; exact H.
Qed.

Lemma moved_labels : forall k p, labels_of (moved k p) = labels_of p.
Proof.
  intros k p. induction p as [|n p IH]; [reflexivity|]. unfold moved in *. cbn [map].
  destruct (move_cases k n) as [[-> _]|(l & id & a & -> & O & ->)].
  - destruct n; cbn [labels_of]; congruence.
  - exact IH.
Qed.

Lemma moved_ok : forall k p, Forall node_ok (moved k p) <-> Forall node_ok p.
Proof.
  intros k p. unfold moved. rewrite Forall_map, !Forall_forall.
  assert (E : forall n, node_ok (move k n) <-> node_ok n).
  { intros n. destruct (move_cases k n) as [[-> _]|(l & id & a & -> & O & ->)]; tauto. }
  split; intros H n I; apply E; apply H; exact I.
Qed.

(** ** Labels *)

Lemma lookup_fixed : forall k x p a b,
  (forall i l, nth_error p i = Some (NLabel l x) -> exists n c, nth_error p (S i) = Some n /\ constant n = Some c) ->
  lookup_from b (moved k p) x = lookup_from a p x.
Proof.
  intros k x. induction p as [|n p IH]; intros a b F; [reflexivity|]. unfold moved. cbn [map].
  assert (F' : forall i l, nth_error p i = Some (NLabel l x) ->
    exists n c, nth_error p (S i) = Some n /\ constant n = Some c) by (intros i l H; exact (F (S i) l H)).
  destruct (move_cases k n) as [[-> _]|(l & id & o & -> & O & ->)].
  - destruct n as [l id args|l id|l m fs]; cbn [lookup_from]; try (apply IH; exact F').
    destruct (list_eq_dec N.eq_dec id x) as [->|N]; [|apply IH; exact F'].
    destruct (F 0%nat l eq_refl) as (n & c & H & C). destruct p as [|n' p]; [discriminate|].
    cbn in H. injection H as ->. cbn [map label_value]. rewrite move_constant, C. reflexivity.
  - cbn [lookup_from]. apply IH. exact F'.
Qed.

Lemma lookup_moved : forall k p x, fixed p x -> lookup (moved k p) x = lookup p x.
Proof. intros k p x F. apply lookup_fixed. exact F. Qed.

(** ** Encoding *)

Lemma encodes_in : forall f g m fields w, (forall l, In (FIdentifier l) fields -> f l = g l) ->
  encodes f m fields w -> encodes g m fields w.
Proof.
  intros f g m fields w E (pt & nm & os & x & y & v & R & B & Y & W).
  exists pt, nm, os, x, y, v. repeat split; try assumption; try apply R.
  clear - E B. induction B as [|o fl os fs H _ IH]; constructor.
  - destruct H as (X & Y & V). repeat split; auto.
    + destruct fl; cbn [value_of] in *; try apply V; auto.
      rewrite <- E by (left; reflexivity). apply V. assumption.
    + apply V. assumption.
  - apply IH. intros l I. apply E. right. exact I.
Qed.

Lemma bytes_moved : forall k p n b, position_independent p -> In n p ->
  (forall o, origin n = Some o -> o + k <= 4095) ->
  node_bytes (lookup p) n b -> node_bytes (lookup (moved k p)) (move k n) b.
Proof.
  intros k p n b PI I R H. destruct (move_cases k n) as [[-> _]|(l & id & o & -> & O & ->)].
  - destruct H as [l m fs w E|l id args bytes M|l id args a M|l id args c M|l id];
      try (econstructor; eassumption).
    constructor. eapply encodes_in; [|exact E]. intros x X. symmetry. apply lookup_moved.
    eapply PI; eassumption.
  - cbn [origin] in R. rewrite O in R. specialize (R o eq_refl).
    assert (E : b = []).
    { inversion H as [| l0 id0 args bytes M | | |]; subst; try reflexivity. inversion M; subst.
      match goal with X : names id "DB" = true |- _ => rewrite (org_not id "DB" O) in X by discriminate; discriminate X end. }
    subst b. apply nb_org with (a := o + k). constructor; [exact O | exact R].
Qed.

(** ** Well-formedness *)

Lemma room_origin : forall k p i n o, room k p -> nth_error p i = Some n -> origin n = Some o -> o + k <= 4095.
Proof.
  intros k p i n o R H O. assert (L : (i < length p)%nat) by (apply nth_error_Some; congruence).
  specialize (R (S i)). rewrite (address_S _ _ _ H) in R. unfold after in R. rewrite O in R.
  apply R. lia.
Qed.

Lemma means_org_inv : forall id a d, names id "ORG" = true -> means id [LNumeric a] d -> d = Org a /\ a <= 4095.
Proof.
  intros id a d O M. inversion M; subst.
  - split; [reflexivity | assumption].
  - match goal with X : names id "EQU" = true |- _ => rewrite (org_not id "EQU" O) in X by discriminate; discriminate X end.
  - match goal with X : names id "DB" = true |- _ => rewrite (org_not id "DB" O) in X by discriminate; discriminate X end.
Qed.

Lemma moved_wf : forall k p, section_starts p -> position_independent p -> well_formed p -> room k p ->
  well_formed (moved k p).
Proof.
  intros k p S PI W R. constructor.
  - intros l id args I. unfold moved in I. apply in_map_iff in I. destruct I as (n & E & I).
    destruct (move_cases k n) as [[E' _]|(l' & id' & o & -> & O & E')]; rewrite E' in E.
    + subst n. eapply wf_directives; eassumption.
    + injection E as <- <- <-. exists (Org (o + k)). constructor; [exact O|].
      apply In_nth_error in I. destruct I as (i & I). eapply room_origin; [exact R | exact I |].
      cbn [origin]. rewrite O. reflexivity.
  - intros i l id args c H M. apply moved_labelled. rewrite moved_at in H.
    destruct (nth_error p i) as [n|] eqn:E; [|discriminate]. cbn [option_map] in H. injection H as H.
    destruct (move_cases k n) as [[E' _]|(l' & id' & o & -> & O & E')]; rewrite E' in H.
    + subst n. eapply wf_constants; eassumption.
    + injection H as <- <- <-. destruct (means_org_inv _ _ _ O M). discriminate.
  - rewrite moved_labels. apply W.
  - intros i n H. rewrite moved_at in H. destruct (nth_error p i) as [n'|] eqn:E; [|discriminate].
    cbn [option_map] in H. injection H as <-. rewrite move_size.
    assert (L : (i < length p)%nat) by (apply nth_error_Some; congruence).
    destruct i as [|i].
    + pose proof (wf_space p W _ _ E) as X. exact X.
    + rewrite address_moved by (exact S || lia). destruct (origin n') as [o|] eqn:O.
      * rewrite (origin_size _ _ O). rewrite N.add_0_r. apply R. lia.
      * specialize (R (Datatypes.S (Datatypes.S i))). rewrite (address_S _ _ _ E) in R. unfold after in R. rewrite O in R. lia.
  - intros l m fs I. rewrite moved_instruction in I. destruct (wf_instructions p W l m fs I) as (w & En).
    exists w. eapply encodes_in; [|exact En]. intros x X. symmetry. apply lookup_moved. eapply PI; eassumption.
Qed.

Lemma wf_address : forall p i, well_formed p -> (i <= length p)%nat -> address p i <= 4095.
Proof.
  intros p i W L. destruct i as [|i]; [rewrite address_0; lia|].
  destruct (nth_error p i) as [n|] eqn:H; [|apply nth_error_None in H; lia].
  rewrite (address_S _ _ _ H). unfold after. destruct (origin n) as [o|] eqn:O.
  - destruct n as [l id args|l id|l m fs]; try discriminate.
    destruct (wf_directives p W l id args) as (d & M); [eapply nth_error_In; exact H|].
    destruct args as [|[s|a] [|x args]]; try discriminate. cbn [origin] in O.
    destruct (names id "ORG") eqn:E; [|discriminate]. injection O as <-. apply (means_org_inv _ _ _ E M).
  - apply (wf_space p W _ _ H).
Qed.

Lemma unmoved_wf : forall k p, section_starts p -> position_independent p -> well_formed (moved k p) ->
  well_formed p /\ room k p.
Proof.
  intros k p S PI W.
  assert (R : room k p).
  { intros i L. rewrite <- address_moved by (exact S || lia). apply wf_address; [exact W|].
    unfold moved. rewrite map_length. lia. }
  split; [|exact R]. constructor.
  - intros l id args I.
    destruct (move_cases k (NDirective l id args)) as [[E _]|(l' & id' & o & E & O & E')].
    + apply (wf_directives _ W l id args). unfold moved. rewrite <- E. apply in_map. exact I.
    + injection E as <- <- ->. exists (Org o). constructor; [exact O|].
      apply In_nth_error in I. destruct I as (i & I).
      assert (X : o + k <= 4095); [|lia]. eapply room_origin; [exact R | exact I |].
      cbn [origin]. rewrite O. reflexivity.
  - intros i l id args c H M. apply (moved_labelled k).
    destruct (move_cases k (NDirective l id args)) as [[E _]|(l' & id' & o & E & O & E')].
    + eapply (wf_constants _ W); [|exact M]. rewrite moved_at, H. cbn [option_map]. rewrite E. reflexivity.
    + injection E as <- <- ->. destruct (means_org_inv _ _ _ O M). discriminate.
  - rewrite <- (moved_labels k). apply W.
  - intros i n H.
    assert (L : (i < length p)%nat) by (apply nth_error_Some; congruence).
    pose proof (wf_space _ W i (move k n)) as X. rewrite moved_at, H, move_size in X. specialize (X eq_refl).
    destruct i as [|i]; [exact X|]. rewrite address_moved in X by (exact S || lia). lia.
  - intros l m fs I. destruct (wf_instructions _ W l m fs) as (w & En); [apply moved_instruction; exact I|].
    exists w. eapply encodes_in; [|exact En]. intros x X. apply lookup_moved. eapply PI; eassumption.
Qed.

(** ** Output *)

Lemma split_moved : forall k p,
  split_sections (moved k p) =
  (moved k (fst (split_sections p)), map (fun s => (fst s + k, moved k (snd s))) (snd (split_sections p))).
Proof.
  intros k. induction p as [|n p IH]; [reflexivity|]. unfold moved in *. cbn [map split_sections].
  rewrite IH, move_origin. destruct (split_sections p) as [f os]. cbn [fst snd].
  destruct (origin n); reflexivity.
Qed.

Lemma forall2_in : forall (A B : Type) (P Q : A -> B -> Prop) l r,
  Forall2 P l r -> (forall a b, In a l -> P a b -> Q a b) -> Forall2 Q l r.
Proof.
  intros A B P Q l r F. induction F as [|a b l r H F IH]; intros I; constructor.
  - apply I; [left; reflexivity | exact H].
  - apply IH. intros x y X. apply I. right. exact X.
Qed.

Lemma section_starts_split : forall p, section_starts p -> fst (split_sections p) = [].
Proof.
  intros p S. destruct (starts_origin p S) as (n & o & rest & -> & O). cbn [split_sections].
  destruct (split_sections rest). rewrite O. reflexivity.
Qed.

Lemma output_moved : forall k p rs, section_starts p -> position_independent p -> room k p ->
  output p rs -> output (moved k p) (map (raise k) rs).
Proof.
  intros k p rs S PI R (all & F & ->). unfold sections in F.
  pose proof (sections_in p) as Sub. unfold sections in Sub.
  pose proof (section_starts_split p S) as E. unfold output, sections. rewrite split_moved.
  destruct (split_sections p) as [f os]. cbn [fst snd] in *. subst f. cbn [moved map].
  inversion F as [|? first ? others F1 F2]; subst. destruct F1 as (S1 & bs & B & D). cbn [fst snd] in *.
  inversion B; subst bs. cbn [concat] in D.
  exists (first :: map (raise k) others). split.
  - constructor.
    + split; [exact S1|]. exists []. split; [constructor | exact D].
    + clear F B D S1 first.
      assert (Sub' : forall s, In s os -> incl (snd s) p) by (intros s I; apply Sub; right; exact I). clear Sub.
      induction F2 as [|s r os others H F2 IH]; cbn [map]; constructor.
      * destruct H as (Hs & bs & B & D). split; [cbn [raise dr_start fst]; lia|].
        exists bs. split; [|exact D]. cbn [snd]. unfold moved. 
        pose proof (Sub' s (or_introl eq_refl)) as Is. clear - B Is PI R.
        induction B as [|n b ns bs Hn B IH]; cbn [map]; constructor.
        -- apply bytes_moved; [exact PI | apply Is; left; reflexivity | | exact Hn].
           intros o O. pose proof (Is n (or_introl eq_refl)) as I. apply In_nth_error in I. destruct I as (i & I).
           eapply room_origin; eassumption.
        -- apply IH. intros x X. apply Is. right. exact X.
      * apply IH. intros s' I. apply Sub'. right. exact I.
  - cbn [filter]. assert (X : nonempty first = false) by (unfold nonempty; rewrite D; reflexivity).
    rewrite X.
    clear. induction others as [|r others IH]; [reflexivity|]. cbn [filter map].
    change (nonempty (raise k r)) with (nonempty r). destruct (nonempty r); cbn [map]; rewrite IH; reflexivity.
Qed.

Theorem assemble_moved : forall k p rs', Forall node_ok p -> section_starts p -> position_independent p ->
  (assemble (moved k p) = Done (Ok rs') <->
   exists rs, assemble p = Done (Ok rs) /\ room k p /\ rs' = map (raise k) rs).
Proof.
  intros k p rs' O S PI. assert (O' : Forall node_ok (moved k p)) by (apply moved_ok; exact O). split.
  - intros H. apply assemble_ok in H; [|exact O']. destruct H as [W Out].
    destruct (unmoved_wf _ _ S PI W) as [W0 R].
    apply assemble_accepts in W0; [|exact O]. destruct W0 as (rs & E). exists rs. split; [exact E|].
    split; [exact R|]. apply assemble_ok in E; [|exact O]. destruct E as [_ Out0].
    eapply output_det; [exact O' | | exact Out | apply output_moved; assumption].
    intros i e. apply violation_not_wf. exact W.
  - intros (rs & E & R & ->). apply assemble_ok in E; [|exact O]. destruct E as [W Out].
    apply assemble_ok; [exact O'|]. split; [apply moved_wf; assumption | apply output_moved; assumption].
Qed.
