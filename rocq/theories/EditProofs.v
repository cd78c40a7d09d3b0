(** * EditProofs: instructions and data replaced by others of the same size. *)

From Verif Require Import Base Text U12 Location Token Scanner Parser Directive Opcode Instruction DataRange Assembler
  IHex Main SpecLex SpecGrammar SpecErase SpecCode SpecOpcode SpecRefusal SpecLayout SpecHex SpecTool SpecUtf8 SpecInsert BaseFacts
  LexTheorems ParseProofs AddressProofs InstructionProofs InstructionTheorems LayoutProofs EmitProofs OutputProofs PipelineProofs HexProofs MainProofs TextProofs TextCode FirstProofs
  MoveProofs InsertProofs PropLayout PropConcat.
Open Scope N_scope.

Section Replace.
  Variables a m m' b : list node.
  Hypothesis Pm : Forall plain m.
  Hypothesis Pm' : Forall plain m'.
  Hypothesis Ne : m <> [].
  Hypothesis Ne' : m' <> [].
  Hypothesis Ex : extent m = extent m'.

  Lemma plain_starts : forall k r, Forall plain k -> k <> [] -> detached (k ++ r).
  Proof.
    intros [|n k] r P N; [destruct (N eq_refl)|]. intros n' r' E. injection E as <- _. inversion P as [|? ? (_ & C & _)]; subst. exact C.
  Qed.

  Lemma plain_last : forall k prev, Forall plain k -> k <> [] -> last_label prev k = false.
  Proof.
    induction k as [|n k IH]; intros prev P N; [destruct (N eq_refl)|]. inversion P as [|? ? (_ & _ & L) P']; subst.
    change (last_label prev (n :: k)) with (last_label (is_label n) k). rewrite L. destruct k as [|n' k]; [reflexivity|].
    apply IH; [exact P' | discriminate].
  Qed.

  Lemma plain_labels : forall k, Forall plain k -> labels_of k = [].
  Proof.
    induction k as [|n k IH]; intros F; [reflexivity|]. inversion F as [|? ? (_ & _ & L) F']; subst.
    destruct n; [apply IH; exact F' | discriminate L | apply IH; exact F'].
  Qed.

  Lemma lookup_replaced : forall x, lookup (a ++ m' ++ b) x = lookup (a ++ m ++ b) x.
  Proof.
    intros x. apply lookup_head; [apply plain_starts; assumption | apply plain_starts; assumption|]. intros _.
    rewrite (lookup_plain m), (lookup_plain m') by assumption. rewrite <- (extent_total m), <- (extent_total m'), Ex. reflexivity.
  Qed.

  Lemma bytes_replaced : forall n bs, node_bytes (lookup (a ++ m' ++ b)) n bs <-> node_bytes (lookup (a ++ m ++ b)) n bs.
  Proof.
    intros n bs. split; intros H; destruct H; econstructor; try eassumption;
      eapply encodes_in; try eassumption; intros l0 _; [|symmetry]; apply lookup_replaced.
  Qed.

  Lemma well_formed_replaced : well_formed (a ++ m ++ b) ->
    (well_formed (a ++ m' ++ b) <-> Forall (fun n => exists bs, node_bytes (lookup (a ++ m ++ b)) n bs) m').
  Proof.
    intros W. pose proof W as W0. rewrite well_formed_iff in W0 |- *. rewrite !labels_of_app, (plain_labels m), ?(plain_labels m') in * by assumption.
    rewrite !follows_app, !fits_app, !(counter_no_origin m), ?(counter_no_origin m'), <- !extent_total, ?Ex, !(plain_last m), ?(plain_last m') in *
      by (assumption || (apply plain_origin; assumption)).
    destruct W0 as (Dm & (Fl & _ & Fb) & Nd & (Fa & Fm & Ft) & Im).
    pose proof (plain_origin m Pm) as Om. pose proof (plain_origin m' Pm') as Om'.
    assert (Da : counter 0 a <= 4095).
    { apply counter_fits; [|exact Fa | lia]. intros l id args I. apply (Dm l id args). apply in_app_iff. left. exact I. }
    assert (Lm : counter 0 a + extent m' <= 4095).
    { rewrite <- Ex, extent_total. apply fits_run; assumption. }
    split.
    - intros (Dm' & _ & _ & _ & Im'). apply Forall_forall. intros n I.
      assert (J : In n (a ++ m' ++ b)) by (rewrite !in_app_iff; auto).
      destruct n as [l id args|l id|l mn fs].
      + destruct (Dm' l id args J) as ([o|v|bs] & M); eexists; econstructor; exact M.
      + eexists. constructor.
      + destruct (Im' l mn fs J) as (w & E). eexists. apply bytes_replaced. constructor. exact E.
    - intros B. rewrite Forall_forall in B. split.
      { intros l id args I. rewrite !in_app_iff in I. destruct I as [I|[I|I]].
        - apply (Dm l id args). rewrite in_app_iff. auto.
        - destruct (B _ I) as (bs & X). inversion X; subst; eexists; eassumption.
        - apply (Dm l id args). rewrite !in_app_iff. auto. }
      split; [split; [exact Fl|]; split; [apply follows_plain; exact Pm' | exact Fb]|]. split; [exact Nd|].
      split; [split; [exact Fa|]; split; [apply fits_run; [exact Om' | exact Da | rewrite <- extent_total; exact Lm] | exact Ft]|].
      intros l mn fs I. assert (X : exists w, encodes (lookup (a ++ m ++ b)) mn fs w).
      { rewrite !in_app_iff in I. destruct I as [I|[I|I]].
        - apply (Im l mn fs). rewrite in_app_iff. auto.
        - destruct (B _ I) as (bs & X). inversion X; subst. eexists; eassumption.
        - apply (Im l mn fs). rewrite !in_app_iff. auto. }
      destruct X as (w & X). exists w. eapply encodes_in; [|exact X]. intros x _. symmetry. apply lookup_replaced.
  Qed.

  Lemma memory_replaced : forall rs rs', Forall node_ok (a ++ m ++ b) -> well_formed (a ++ m ++ b) -> output (a ++ m ++ b) rs ->
    well_formed (a ++ m' ++ b) -> output (a ++ m' ++ b) rs' ->
    exists ma mb bss bss', Forall2 (node_bytes (lookup (a ++ m ++ b))) m bss /\ Forall2 (node_bytes (lookup (a ++ m ++ b))) m' bss' /\
      memory rs = ma ++ place (counter 0 a) (concat bss) ++ mb /\
      memory rs' = ma ++ place (counter 0 a) (concat bss') ++ mb.
  Proof.
    intros rs rs' Ok W O W' O'.
    assert (NV : no_violation (a ++ m ++ b)) by (intros i x; apply violation_not_wf; exact W).
    destruct (output_image _ _ W O) as (bs & B & M). destruct (output_image _ _ W' O') as (bs' & B' & M').
    assert (Det : forall p x y, Forall node_ok p -> Forall2 (node_bytes (lookup (a ++ m ++ b))) p x ->
              Forall2 (node_bytes (lookup (a ++ m ++ b))) p y -> x = y).
    { intros p x y Op X. revert y. induction X as [|n e p x N _ IH]; intros y Y; inversion Y as [|n' f p' y' N' Y']; subst; [reflexivity|].
      inversion Op as [|? ? On Op']; subst.
      f_equal; [exact (node_bytes_det _ _ _ _ Ok NV On N N') | apply IH; assumption]. }
    assert (Tr : Forall2 (node_bytes (lookup (a ++ m ++ b))) (a ++ m' ++ b) bs').
    { clear - B' Pm Pm' Ne Ne' Ex. induction B' as [|n e p x N _ IH]; constructor; [apply bytes_replaced; exact N | exact IH]. }
    apply Forall2_app_inv_l in B. destruct B as (ba & r1 & Ba & B & ->).
    apply Forall2_app_inv_l in B. destruct B as (bm & bb & Bm & Bb & ->).
    apply Forall2_app_inv_l in Tr. destruct Tr as (ba' & r2 & Ba' & Tr & ->).
    apply Forall2_app_inv_l in Tr. destruct Tr as (bm' & bb' & Bm' & Bb' & ->).
    rewrite !Forall_app in Ok. destruct Ok as (Oa & _ & Ob).
    rewrite (Det _ _ _ Oa Ba' Ba), (Det _ _ _ Ob Bb' Bb) in M'.
    pose proof (forall2_len _ _ _ _ _ Ba) as La. pose proof (forall2_len _ _ _ _ _ Bm) as Lm. pose proof (forall2_len _ _ _ _ _ Bm') as Lm'.
    rewrite (image_app a), (image_app m) in M by assumption. rewrite (image_app a), (image_app m') in M' by assumption.
    rewrite (image_run _ _ _ _ (plain_origin m Pm) Bm), (counter_no_origin m) in M by exact (plain_origin m Pm).
    rewrite (image_run _ _ _ _ (plain_origin m' Pm') Bm'), (counter_no_origin m') in M' by exact (plain_origin m' Pm').
    rewrite <- extent_total in M, M'. rewrite <- Ex in M'.
    exists (image 0 a ba), (image (counter 0 a + extent m) b bb), bm, bm'. split; [exact Bm|]. split; [exact Bm'|]. split; [exact M | exact M'].
  Qed.
End Replace.

Lemma bytes_extent : forall lk m bss, Forall2 (node_bytes lk) m bss -> N.of_nat (length (concat bss)) = extent m.
Proof.
  intros lk m bss B. induction B as [|n e m bs H _ IH]; [reflexivity|]. cbn [concat]. rewrite app_length.
  apply node_bytes_size in H. unfold extent in *. cbn [fold_right]. lia.
Qed.

Lemma place_addresses : forall bs bs' a, length bs = length bs' -> map fst (place a bs) = map fst (place a bs').
Proof.
  induction bs as [|x bs IH]; intros [|y bs'] a L; try discriminate L; [reflexivity|]. cbn [place map fst]. f_equal. apply IH.
  injection L as L. exact L.
Qed.

(** ** Texts *)

Lemma text_memory : forall e file s p text, Forall scalar s -> parsed file s p -> assemble_text e file s = Done (Ok text) ->
  exists rs, assemble p = Done (Ok rs) /\ read_hex text = Some (memory rs) /\ NoDup (map fst (memory rs)).
Proof.
  intros e file s p text Sc P H.
  destruct (assemble_text_spec e file s Sc) as [(t & rs & E & C & I)|(m & E & _)]; rewrite H in E; [|discriminate].
  injection E as <-. destruct (compiles_writable _ _ _ Sc C) as [W N].
  destruct (ihex_loads rs W N) as (t & I' & R). rewrite I in I'. injection I' as <-.
  destruct C as (ts & q & L & Q & Wf & O & D). destruct P as (ts' & L' & P).
  pose proof (parsed_node_ok _ _ _ _ L' P) as Ok.
  apply scan_lexes in L'. apply parse_program in P. rewrite (lexes_det _ _ _ _ L' _ L) in P.
  apply parse_program in P. apply parse_program in Q. rewrite P in Q. injection Q as <-.
  exists rs. split; [apply assemble_ok; [exact Ok | split; assumption]|]. split; [exact R | exact D].
Qed.

Lemma memory_text : forall e file s p rs, Forall scalar s -> parsed file s p -> assemble p = Done (Ok rs) -> NoDup (map fst (memory rs)) ->
  exists text, assemble_text e file s = Done (Ok text).
Proof.
  intros e file s p rs Sc (ts & L & P) A D. pose proof (parsed_node_ok _ _ _ _ L P) as Ok. apply (assemble_ok _ _ Ok) in A.
  destruct (assemble_text_spec e file s Sc) as [(t & rs' & E & _)|(m & E & _ & X)]; [eauto|]. exfalso. apply (X rs).
  exists ts, p. apply scan_lexes in L. apply parse_program in P. tauto.
Qed.

Lemma text_decided : forall e file s, Forall scalar s ->
  (exists text, assemble_text e file s = Done (Ok text)) \/ (exists message, assemble_text e file s = Done (Err message)).
Proof.
  intros e file s Sc. destruct (assemble_text_spec e file s Sc) as [(t & rs & E & _)|(m & E & _)]; eauto.
Qed.

(** Three texts, one after the other. *)
Lemma three_texts : forall file s1 s2 s3 p q r, lined s1 -> lined s2 -> parsed file s1 p -> parsed file s2 q -> parsed file s3 r ->
  exists w, parsed file (s1 ++ s2 ++ s3) w /\ same_program w (p ++ q ++ r).
Proof.
  intros file s1 s2 s3 p q r L1 L2 P Q R. destruct (C62_text file s2 s3 q r L2 Q R) as (w & W & S).
  destruct (C62_text file s1 (s2 ++ s3) p w L1 P W) as (v & V & T). exists v. split; [exact V|].
  unfold same_program in *. rewrite T, !map_app, S, map_app. reflexivity.
Qed.

Lemma parsed_ok : forall file s p, parsed file s p -> Forall node_ok p.
Proof. intros file s p (ts & L & P). exact (parsed_node_ok _ _ _ _ L P). Qed.

Lemma same_program_sym : forall p q, same_program p q -> same_program q p.
Proof. intros p q S. symmetry. exact S. Qed.

Lemma bytes_decided : forall p n, Forall node_ok p -> well_formed p -> node_ok n ->
  (exists bs, node_bytes (lookup p) n bs) \/ (forall bs, ~ node_bytes (lookup p) n bs).
Proof.
  intros p n F W O. assert (NV : no_violation p) by (intros i x; apply violation_not_wf; exact W).
  destruct n as [l id args|l id|l m fs].
  - destruct (directive_from id args) as [d|x] eqn:E.
    + left. apply directive_means in E; [|exact O]. destruct d; eexists; econstructor; exact E.
    + right. intros bs H. inversion H as [| ? ? ? ? M | ? ? ? ? M | ? ? ? ? M |]; subst; apply directive_means in M; try exact O; congruence.
  - left. eexists. constructor.
  - pose proof (define_labels_spec p F) as D. destruct (define_labels p) as [labels|x]; [|destruct D as (i & (V & _)); destruct (NV _ _ V)].
    destruct D as [_ LG]. assert (LO : labels_ok labels) by (intros k v H; rewrite LG in H; eapply lookup_small; eassumption).
    destruct O as [A Fo]. destruct (instruction_from m fs labels) as [o|x] eqn:E.
    + left. destruct (instruction_bytes _ _ _ _ A Fo LO E) as (w & _ & _ & En). eexists. constructor.
      eapply encodes_in; [|exact En]. intros k _. apply LG.
    + right. intros bs H. inversion H as [? ? ? w En | | | |]; subst.
      assert (En' : encodes (label_get labels) m fs w) by (eapply encodes_in; [|exact En]; intros k _; symmetry; apply LG).
      apply (instruction_table _ _ _ _ A Fo LO) in En'. destruct En' as (_ & o & Eo & _). congruence.
Qed.

Lemma some_meaningless : forall p m, Forall node_ok p -> well_formed p -> Forall node_ok m ->
  ~ Forall (fun n => exists bs, node_bytes (lookup p) n bs) m -> exists n, In n m /\ forall bs, ~ node_bytes (lookup p) n bs.
Proof.
  intros p m F W. induction m as [|n m IH]; intros O N; [destruct N; constructor|]. inversion O as [|? ? On Om]; subst.
  destruct (bytes_decided p n F W On) as [B|B]; [|exists n; split; [left; reflexivity | exact B]].
  destruct IH as (k & I & K); [exact Om | intros X; apply N; constructor; assumption|]. exists k. split; [right; exact I | exact K].
Qed.
