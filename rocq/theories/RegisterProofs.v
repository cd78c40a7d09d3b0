(** * RegisterProofs: other registers in place of those of a program. *)

From Verif Require Import Base BaseFacts Text U12 Location Token Parser Directive Opcode Instruction DataRange Assembler
  SpecLex SpecOpcode SpecDisasm SpecInverse SpecRefusal SpecLayout OpcodeProofs InstructionProofs InstructionTheorems DecodeProofs InverseProofs
  LayoutProofs EmitProofs SpecRun SpecRegister.
From Verif Require OutputProofs.
Open Scope N_scope.

Lemma fits_exchanged f o x : exchanges f -> field_ok x -> (fits o x <-> fits o (exchange_field f x)).
Proof.
  intros E F. split; intros H.
  - destruct H as [r|r| | | | | | | | |o y V I]; cbn [exchange_field]; [constructor|constructor| |constructor..|].
    + replace (f 0) with 0 by (symmetry; apply (E 0); lia). constructor.
    + destruct y; try discriminate I; apply fits_value; assumption.
  - destruct x as [r| | | | | | | | | ]; cbn [exchange_field] in *; try exact H.
    inversion H as [r' Eo Er|r' Eo Er|Eo Er| | | | | | | |o' y V I]; subst; [constructor|constructor| |].
    + symmetry in Er. apply (E r F) in Er. subst r. constructor.
    + discriminate I.
Qed.

Lemma exchanged_fits f operands fields : exchanges f -> Forall field_ok fields ->
  (Forall2 fits operands fields <-> Forall2 fits operands (map (exchange_field f) fields)).
Proof.
  intros E. revert operands. induction fields as [|x fields IH]; intros operands F; cbn [map].
  - tauto.
  - inversion F as [|? ? Fx Fr]; subst. split; intros H; inversion H as [|o ? os ? Ho Hr]; subst; constructor.
    + apply (fits_exchanged f o x E Fx). exact Ho.
    + apply IH; assumption.
    + apply (fits_exchanged f o x E Fx). exact Ho.
    + apply IH; assumption.
Qed.

Lemma row_exchanged f m fields row : exchanges f -> Forall field_ok fields ->
  (row_for m fields row <-> row_for m (map (exchange_field f) fields) row).
Proof.
  intros E F. destruct row as [[pattern name] operands]. unfold row_for. rewrite (exchanged_fits f operands fields E F). tauto.
Qed.

Lemma exchanged_ok f fields : exchanges f -> Forall field_ok fields -> Forall field_ok (map (exchange_field f) fields).
Proof.
  intros E H. apply Forall_forall. intros x I. apply in_map_iff in I. destruct I as (y & <- & I).
  rewrite Forall_forall in H. specialize (H y I). destruct y; cbn [exchange_field field_ok] in *; try exact H. apply E. exact H.
Qed.

Lemma node_exchanged f n : exchanges f -> node_ok n -> node_ok (exchange f n).
Proof.
  intros E H. destruct n as [l id args|l id|l m fs]; cbn [exchange]; try exact H. unfold node_ok in *. destruct H as [A F].
  split; [exact A | apply exchanged_ok; assumption].
Qed.

Lemma program_exchanged f p : exchanges f -> Forall node_ok p -> Forall node_ok (map (exchange f) p).
Proof. intros E H. induction H as [|n p Hn Hp IH]; cbn [map]; constructor; [apply node_exchanged; assumption | exact IH]. Qed.

(** ** Words *)

Lemma exchange_digits f d3 d2 d1 d0 : d2 <= 15 -> d1 <= 15 -> d0 <= 15 ->
  let w := d3 * 4096 + (d2 * 256 + (d1 * 16 + (d0 * 1 + 0))) in
  exchange_word f w = if existsb (N.eqb d3) [0; 1; 2; 10; 11] then w
    else if existsb (N.eqb d3) [5; 8; 9; 13] then d3 * 4096 + f d2 * 256 + f d1 * 16 + d0
    else d3 * 4096 + f d2 * 256 + d1 * 16 + d0.
Proof.
  intros H2 H1 H0 w. unfold exchange_word.
  replace (w / 4096) with d3 by (unfold w; lia). replace (w / 256 mod 16) with d2 by (unfold w; lia).
  replace (w / 16 mod 16) with d1 by (unfold w; lia). replace (w mod 16) with d0 by (unfold w; lia). reflexivity.
Qed.

Definition has (o : string) (operands : list string) : bool := existsb (String.eqb o) operands.

Lemma has_in o operands : has o operands = true <-> In o operands.
Proof.
  unfold has. rewrite existsb_exists. split.
  - intros (x & I & E). apply String.eqb_eq in E. subst x. exact I.
  - intros I. exists o. split; [exact I | apply String.eqb_refl].
Qed.

Lemma word_exchanged f pattern name operands x y v : exchanges f -> In (pattern, name, operands) table ->
  (In "Vx"%string operands -> x <= 15) -> (In "Vy"%string operands -> y <= 15) -> (~ In "Vy"%string operands -> y = 0) ->
  exchange_word f (word x y v (u pattern)) = word (f x) (if has "Vy" operands then f y else 0) v (u pattern).
Proof.
  intros E I X Y Y0.
  assert (Z : f 0 = 0) by (apply (E 0); lia).
  assert (Hx : has "Vx" operands = true -> x <= 15) by (intros H; apply X, has_in, H).
  assert (Hy : has "Vy" operands = true -> y <= 15) by (intros H; apply Y, has_in, H).
  assert (H0 : has "Vy" operands = false -> y = 0) by (intros H; apply Y0; intros J; apply has_in in J; congruence).
  clear X Y Y0.
  assert (G2 : (v / 256) mod 16 <= 15) by lia. assert (G1 : (v / 16) mod 16 <= 15) by lia. assert (G0 : v mod 16 <= 15) by lia.
  split_row I; unfold has in *; cbn [existsb String.eqb Ascii.eqb Bool.eqb orb] in *;
    try specialize (Hx eq_refl); try specialize (Hy eq_refl); try specialize (H0 eq_refl); try subst y;
    in_digits; rewrite exchange_digits by lia; cbn [existsb N.eqb Pos.eqb orb]; rewrite ?Z; lia.
Qed.

Lemma binds_exchanged f lk x y v operands o fl : In o operands -> binds lk x y v o fl ->
  binds lk (f x) (if has "Vy" operands then f y else 0) v o (exchange_field f fl).
Proof.
  intros I (Bx & By & Bv). split; [|split].
  - intros ->. rewrite (Bx eq_refl). reflexivity.
  - intros ->. rewrite (By eq_refl). apply has_in in I. rewrite I. reflexivity.
  - intros V. destruct (Bv V) as [E L]. split; [|exact L]. destruct fl; try discriminate E; exact E.
Qed.

Lemma bound_register lk x y v operands fields : Forall2 (binds lk x y v) operands fields -> Forall field_ok fields ->
  (In "Vx"%string operands -> x <= 15) /\ (In "Vy"%string operands -> y <= 15).
Proof.
  induction 1 as [|o fl os fs B _ IH]; intros F; [split; intros []|]. inversion F as [|? ? Fo Fr]; subst. destruct (IH Fr) as [Ix Iy].
  destruct B as (Bx & By & _). split.
  - intros [E|I]; [|apply Ix, I]. specialize (Bx E). subst fl. exact Fo.
  - intros [E|I]; [|apply Iy, I]. specialize (By E). subst fl. exact Fo.
Qed.

Lemma encodes_exchanged f lk m fields w : exchanges f -> Forall field_ok fields -> encodes lk m fields w ->
  encodes lk m (map (exchange_field f) fields) (exchange_word f w).
Proof.
  intros E F (pattern & name & operands & x & y & v & R & B & Y & ->).
  exists pattern, name, operands, (f x), (if has "Vy" operands then f y else 0), v.
  split; [apply (row_exchanged f m fields _ E F); exact R|].
  destruct (bound_register _ _ _ _ _ _ B F) as [X15 Y15].
  split; [|split].
  - clear - B. assert (G : forall os fs, Forall2 (binds lk x y v) os fs -> incl os operands ->
      Forall2 (binds lk (f x) (if has "Vy" operands then f y else 0) v) os (map (exchange_field f) fs)).
    { induction 1 as [|o fl os fs Bo _ IH]; intros I; cbn [map]; constructor.
      - apply binds_exchanged; [apply I; left; reflexivity | exact Bo].
      - apply IH. intros z Iz. apply I. right. exact Iz. }
    apply G; [exact B | intros z Iz; exact Iz].
  - intros N. destruct (has "Vy" operands) eqn:H; [apply has_in in H; contradiction | reflexivity].
  - apply word_exchanged with (name := name); try assumption. apply R.
Qed.

(** ** Programs *)

Section exchanged.

Variable f : N -> N.
Hypothesis E : exchanges f.

Lemma origin_exchanged n : origin (exchange f n) = origin n.
Proof. destruct n; reflexivity. Qed.

Lemma constant_exchanged n : constant (exchange f n) = constant n.
Proof. destruct n; reflexivity. Qed.

Lemma size_exchanged n : size (exchange f n) = size n.
Proof. destruct n; reflexivity. Qed.

Lemma after_exchanged a n : after a (exchange f n) = after a n.
Proof. unfold after. rewrite origin_exchanged, size_exchanged. reflexivity. Qed.

Lemma counter_exchanged p : forall a, counter a (map (exchange f) p) = counter a p.
Proof. unfold counter. induction p as [|n p IH]; intros a; cbn [map fold_left]; [reflexivity|]. rewrite after_exchanged. apply IH. Qed.

Lemma address_exchanged p i : address (map (exchange f) p) i = address p i.
Proof. unfold address. rewrite firstn_map. apply counter_exchanged. Qed.

Lemma value_exchanged a p : label_value a (map (exchange f) p) = label_value a p.
Proof. unfold label_value. destruct p as [|n p]; [reflexivity|]. cbn [map]. rewrite constant_exchanged. reflexivity. Qed.

Lemma lookup_exchanged_from p x : forall a, lookup_from a (map (exchange f) p) x = lookup_from a p x.
Proof.
  induction p as [|n p IH]; intros a; [reflexivity|]. cbn [map].
  destruct n as [l id args|l id|l m fs]; cbn [exchange lookup_from].
  - apply IH.
  - destruct (list_eq_dec N.eq_dec id x); [rewrite value_exchanged; reflexivity | apply IH].
  - rewrite IH. reflexivity.
Qed.

Lemma lookup_exchanged p x : lookup (map (exchange f) p) x = lookup p x.
Proof. apply lookup_exchanged_from. Qed.

Lemma labels_exchanged p : labels_of (map (exchange f) p) = labels_of p.
Proof. induction p as [|n p IH]; [reflexivity|]. destruct n; cbn [map exchange labels_of]; rewrite ?IH; reflexivity. Qed.

Lemma nth_exchanged p i : nth_error (map (exchange f) p) i = option_map (exchange f) (nth_error p i).
Proof. apply nth_error_map. Qed.

Lemma labelled_exchanged p i : labelled (map (exchange f) p) i <-> labelled p i.
Proof.
  unfold labelled. split; intros (j & l & id & -> & H); exists j, l, id; (split; [reflexivity|]).
  - rewrite nth_exchanged in H. destruct (nth_error p j) as [[| |]|]; try discriminate H. exact H.
  - rewrite nth_exchanged, H. reflexivity.
Qed.

Lemma violates_exchanged p i e : violates (map (exchange f) p) i e <-> violates p i e.
Proof.
  split; intros V.
  - destruct V as [l id args e H R|l id args d H M Z|l id args d H M Z X|l id args v H M Lb|l m fs H X|l id H I];
      rewrite nth_exchanged in H; destruct (nth_error p i) as [n|] eqn:Hn; try discriminate H;
      destruct n as [l0 id0 args0|l0 id0|l0 m0 fs0]; try discriminate H; cbn [option_map exchange] in H; inversion H; subst; clear H.
    + eapply violates_directive; eassumption.
    + eapply violates_size; eassumption.
    + eapply violates_space; try eassumption. rewrite address_exchanged in X. exact X.
    + eapply violates_constant; try eassumption. rewrite labelled_exchanged in Lb. exact Lb.
    + eapply violates_instruction; [exact Hn|]. rewrite address_exchanged in X. exact X.
    + eapply violates_label; [exact Hn|]. rewrite firstn_map, labels_exchanged in I. exact I.
  - destruct V as [l id args e H R|l id args d H M Z|l id args d H M Z X|l id args v H M Lb|l m fs H X|l id H I];
      assert (Hx := nth_exchanged p i); rewrite H in Hx; cbn [option_map exchange] in Hx.
    + eapply violates_directive; eassumption.
    + eapply violates_size; eassumption.
    + eapply violates_space; try eassumption. rewrite address_exchanged. exact X.
    + eapply violates_constant; try eassumption. rewrite labelled_exchanged. exact Lb.
    + eapply violates_instruction; [exact Hx|]. rewrite address_exchanged. exact X.
    + eapply violates_label; [exact Hx|]. rewrite firstn_map, labels_exchanged. exact I.
Qed.

Lemma combine_exchanged (os : list string) fs o x : In (o, x) (combine os fs) -> In (o, exchange_field f x) (combine os (map (exchange_field f) fs)).
Proof.
  revert os. induction fs as [|y fs IH]; intros os H; destruct os as [|c os]; cbn [combine map] in *; try destruct H as [H|H]; try contradiction.
  - left. congruence.
  - right. apply IH. exact H.
Qed.

Lemma value_of_exchanged lk x v : value_of lk x = Some v -> value_of lk (exchange_field f x) = Some v.
Proof. destruct x; intros H; try discriminate H; exact H. Qed.

Lemma refuses_exchanged lk lk' l m fs r : (forall x, lk' x = lk x) -> Forall field_ok fs -> refuses lk m fs r ->
  exists r', refuses lk' m (map (exchange_field f) fs) r' /\ same_error (AssemblyFailed l r) (AssemblyFailed l r').
Proof.
  intros L F R.
  assert (V : forall y v, value_of lk y = Some v -> value_of lk' (exchange_field f y) = Some v).
  { intros y v H. apply value_of_exchanged. destruct y; try discriminate H; cbn [value_of] in *; rewrite ?L; exact H. }
  destruct R as [row label Rw I N|row y v Rw O Ev H|row y v Rw O Ev H|N]; try apply (row_exchanged f m fs _ E F) in Rw.
  - eexists. split; [eapply refuses_label; [exact Rw| |rewrite L; exact N] | apply same_itself].
    apply in_map_iff. exists (FIdentifier label). split; [reflexivity | exact I].
  - eexists. split; [eapply refuses_byte; [exact Rw| |apply V; exact Ev|exact H] | apply same_itself].
    destruct row as [[pattern name] os]. apply combine_exchanged. exact O.
  - eexists. split; [eapply refuses_nibble; [exact Rw| |apply V; exact Ev|exact H] | apply same_itself].
    destruct row as [[pattern name] os]. apply combine_exchanged. exact O.
  - eexists. split; [apply refuses_unknown | apply same_unknown]. intros row Rw. apply (row_exchanged f m fs _ E F) in Rw. exact (N row Rw).
Qed.

(** [exchange] has a word for an instruction exactly if the instruction has one. *)
Lemma refuses_before lk lk' m fs r : (forall x, lk' x = lk x) -> Forall field_ok fs -> refuses lk' m (map (exchange_field f) fs) r ->
  exists r', refuses lk m fs r'.
Proof.
  intros L F R.
  assert (V : forall y v, value_of lk' (exchange_field f y) = Some v -> value_of lk y = Some v).
  { intros y v H. destruct y; try discriminate H; cbn [exchange_field value_of] in *; rewrite <- ?L; exact H. }
  assert (C : forall (os : list string) z o, In (o, z) (combine os (map (exchange_field f) fs)) -> exists y, z = exchange_field f y /\ In (o, y) (combine os fs)).
  { clear. induction fs as [|y fs IH]; intros os z o H; destruct os as [|c os]; cbn [combine map] in *; try contradiction.
    destruct H as [H|H].
    - exists y. split; [congruence | left; congruence].
    - destruct (IH _ _ _ H) as (y' & Ey & I). exists y'. split; [exact Ey | right; exact I]. }
  destruct R as [row label Rw I N|row y v Rw O Ev H|row y v Rw O Ev H|N]; try apply (row_exchanged f m fs _ E F) in Rw.
  - eexists. eapply refuses_label; [exact Rw| |rewrite <- L; exact N]. apply in_map_iff in I. destruct I as (z & Ez & I).
    destruct z; try discriminate Ez. cbn [exchange_field] in Ez. rewrite <- Ez. exact I.
  - destruct row as [[pattern name] os]. destruct (C _ _ _ O) as (z & -> & Oz). eexists. eapply refuses_byte; [exact Rw|exact Oz|apply V; exact Ev|exact H].
  - destruct row as [[pattern name] os]. destruct (C _ _ _ O) as (z & -> & Oz). eexists. eapply refuses_nibble; [exact Rw|exact Oz|apply V; exact Ev|exact H].
  - eexists. apply refuses_unknown. intros row Rw. apply (row_exchanged f m fs _ E F) in Rw. exact (N row Rw).
Qed.

Lemma fields_at p i l m fs : Forall node_ok p -> nth_error p i = Some (NInstruction l m fs) -> Forall field_ok fs.
Proof. intros F H. apply nth_error_In in H. rewrite Forall_forall in F. specialize (F _ H). apply F. Qed.

Lemma reported_exchanged p e : Forall node_ok p -> reported p e -> exists e', reported (map (exchange f) p) e' /\ same_error e e'.
Proof.
  intros F [(i & V & U)|(V & i & (l & m & fs & r & H & R & ->) & U)].
  - exists e. split; [|apply same_itself]. left. exists i. split; [apply violates_exchanged; exact V|].
    intros j e' J W. apply (proj1 (violates_exchanged p _ _)) in W. exact (U j e' J W).
  - assert (Fs := fields_at _ _ _ _ _ F H).
    destruct (refuses_exchanged (lookup p) (lookup (map (exchange f) p)) l m fs r (lookup_exchanged p) Fs R) as (r' & R' & Sm).
    exists (AssemblyFailed l r'). split; [|exact Sm]. right. split; [intros j e' W; apply (proj1 (violates_exchanged p _ _)) in W; exact (V j e' W)|].
    exists i. split.
    + exists l, m, (map (exchange_field f) fs), r'. split; [rewrite nth_exchanged, H; reflexivity|]. split; [exact R' | reflexivity].
    + intros j e' J (l2 & m2 & fs2 & r2 & H2 & R2 & ->). rewrite nth_exchanged in H2. destruct (nth_error p j) as [n|] eqn:Hn; [|discriminate H2].
      destruct n as [l0 id0 args0|l0 id0|l0 m0 fs0]; try discriminate H2. cbn [option_map exchange] in H2. injection H2 as -> -> <-.
      destruct (refuses_before (lookup p) _ _ _ _ (lookup_exchanged p) (fields_at _ _ _ _ _ F Hn) R2) as (r3 & R3).
      apply (U j (AssemblyFailed l2 r3) J). exists l2, m2, fs0, r3. split; [exact Hn|]. split; [exact R3 | reflexivity].
Qed.

Lemma encodes_lookup lk lk' m fs w : (forall x, lk' x = lk x) -> encodes lk m fs w -> encodes lk' m fs w.
Proof. intros L H. apply (encodes_ext lk); [intros; symmetry; apply L | exact H]. Qed.

Lemma bytes_exchanged lk lk' n bs : (forall x, lk' x = lk x) -> node_ok n -> node_bytes lk n bs ->
  node_bytes lk' (exchange f n) (exchange_bytes f n bs).
Proof.
  intros L F H. destruct H as [l m fs w H|l id args bytes H|l id args a H|l id args c H|l id]; cbn [exchange exchange_bytes].
  - replace (w / 256 * 256 + w mod 256) with w by lia. constructor. apply (encodes_lookup lk); [exact L|]. apply encodes_exchanged; [exact E|apply F|exact H].
  - apply nb_db. exact H.
  - eapply nb_org. exact H.
  - eapply nb_equ. exact H.
  - constructor.
Qed.

Lemma well_formed_exchanged p : Forall node_ok p -> well_formed p -> well_formed (map (exchange f) p).
Proof.
  intros F [W1 W2 W3 W4 W5]. split.
  - intros l id args I. apply in_map_iff in I. destruct I as (n & En & I). destruct n as [l0 id0 args0|l0 id0|l0 m0 fs0]; try discriminate En.
    injection En as -> -> ->. exact (W1 _ _ _ I).
  - intros i l id args c H M. rewrite labelled_exchanged. rewrite nth_exchanged in H. destruct (nth_error p i) as [n|] eqn:Hn; [|discriminate H].
    destruct n as [l0 id0 args0|l0 id0|l0 m0 fs0]; try discriminate H. injection H as -> -> ->. exact (W2 _ _ _ _ _ Hn M).
  - rewrite labels_exchanged. exact W3.
  - intros i n H. rewrite address_exchanged. rewrite nth_exchanged in H. destruct (nth_error p i) as [n0|] eqn:Hn; [|discriminate H].
    injection H as <-. rewrite size_exchanged. exact (W4 _ _ Hn).
  - intros l m fs I. apply in_map_iff in I. destruct I as (n & En & I). destruct n as [l0 id0 args0|l0 id0|l0 m0 fs0]; try discriminate En.
    injection En as -> -> <-. destruct (W5 _ _ _ I) as (w & H). exists (exchange_word f w). apply (encodes_lookup (lookup p)); [apply lookup_exchanged|].
    apply encodes_exchanged; [exact E| |exact H]. rewrite Forall_forall in F. exact (proj2 (F _ I)).
Qed.

Lemma exchanged_errors p e : Forall node_ok p -> assemble p = Done (Err e) ->
  exists e', assemble (map (exchange f) p) = Done (Err e') /\ same_error e e'.
Proof.
  intros F A. apply (assemble_err p e F) in A. destruct (reported_exchanged p e F A) as (e' & R & Sm). exists e'. split; [|exact Sm].
  apply assemble_err; [apply program_exchanged; assumption | exact R].
Qed.

Lemma exchanged_accepts p : Forall node_ok p ->
  ((exists rs, assemble p = Done (Ok rs)) <-> exists rs, assemble (map (exchange f) p) = Done (Ok rs)).
Proof.
  intros F. split.
  - intros A. apply (assemble_accepts p F) in A. apply assemble_accepts; [apply program_exchanged; assumption | apply well_formed_exchanged; assumption].
  - intros (rs & A). destruct (assemble_spec p F) as [(rs0 & A0 & _)|(e & A0 & _)]; [eauto|]. exfalso.
    destruct (exchanged_errors p e F A0) as (e' & A' & _). rewrite A in A'. discriminate A'.
Qed.

Lemma image_exchanged p : forall a bs, length p = length bs ->
  OutputProofs.image a (map (exchange f) p) bs = OutputProofs.image a p bs.
Proof.
  induction p as [|n p IH]; intros a bs L; destruct bs as [|b bs]; try discriminate L; cbn [map OutputProofs.image]; [reflexivity|].
  rewrite after_exchanged. f_equal. apply IH. cbn [length] in L. lia.
Qed.

Lemma no_violation_wf p : well_formed p -> no_violation p.
Proof. intros W i e V. exact (violation_not_wf p i e W V). Qed.

Definition exchange_all (p : list node) (bs : list (list byte)) : list (list byte) :=
  map (fun nb => exchange_bytes f (fst nb) (snd nb)) (combine p bs).

Lemma all_exchanged lk lk' p bs : (forall x, lk' x = lk x) -> Forall node_ok p -> Forall2 (node_bytes lk) p bs ->
  Forall2 (node_bytes lk') (map (exchange f) p) (exchange_all p bs).
Proof.
  intros L F H. unfold exchange_all. induction H as [|n b p bs Hn Hp IH]; cbn [map combine fst snd]; constructor.
  - apply (bytes_exchanged lk); [exact L| |exact Hn]. inversion F; assumption.
  - apply IH. inversion F; assumption.
Qed.

Lemma exchange_bytes_length n bs : length (exchange_bytes f n bs) = length bs.
Proof. destruct n; cbn [exchange_bytes]; try reflexivity. destruct bs as [|a [|b [|c bs]]]; reflexivity. Qed.

Lemma exchange_all_length p bs : length p = length bs -> length (concat (exchange_all p bs)) = length (concat bs).
Proof.
  unfold exchange_all. revert bs. induction p as [|n p IH]; intros bs L; destruct bs as [|b bs]; try discriminate L; [reflexivity|].
  cbn [combine map fst snd concat]. rewrite !app_length, exchange_bytes_length, IH; [reflexivity|]. cbn [length] in L. lia.
Qed.

Definition exchange_section (s : N * list node) : N * list node := (fst s, map (exchange f) (snd s)).

Lemma split_exchanged p : split_sections (map (exchange f) p) =
  (map (exchange f) (fst (split_sections p)), map exchange_section (snd (split_sections p))).
Proof.
  induction p as [|n p IH]; [reflexivity|]. cbn [map split_sections]. rewrite IH. destruct (split_sections p) as [x y]. cbn [fst snd].
  rewrite origin_exchanged. destruct (origin n); reflexivity.
Qed.

Lemma sections_exchanged p : sections (map (exchange f) p) = map exchange_section (sections p).
Proof. unfold sections. rewrite split_exchanged. destruct (split_sections p) as [x y]. reflexivity. Qed.

Lemma split_ok p : Forall node_ok p -> Forall node_ok (fst (split_sections p)) /\ Forall (fun s => Forall node_ok (snd s)) (snd (split_sections p)).
Proof.
  induction 1 as [|n p Hn Hp [I1 I2]]; cbn [split_sections]; [split; constructor|]. destruct (split_sections p) as [x y]. cbn [fst snd] in *.
  destruct (origin n); cbn [fst snd]; split; try constructor; assumption.
Qed.

Lemma sections_ok p : Forall node_ok p -> Forall (fun s => Forall node_ok (snd s)) (sections p).
Proof. intros F. destruct (split_ok p F) as [A B]. unfold sections. destruct (split_sections p) as [x y]. constructor; assumption. Qed.

Lemma filter_places rs rs' : Forall2 same_place rs rs' -> Forall2 same_place (filter nonempty rs) (filter nonempty rs').
Proof.
  induction 1 as [|r r' rs rs' [A B] _ IH]; [constructor|]. cbn [filter].
  assert (Q : nonempty r' = nonempty r) by (unfold nonempty; rewrite B; reflexivity). rewrite Q.
  destruct (nonempty r); [|exact IH]. constructor; [split; assumption | exact IH].
Qed.

Lemma output_exchanged p rs : Forall node_ok p -> output p rs -> exists rs', output (map (exchange f) p) rs' /\ Forall2 same_place rs rs'.
Proof.
  intros F (all & H & ->). assert (G : exists all', Forall2 (section_block (lookup (map (exchange f) p))) (map exchange_section (sections p)) all' /\
    Forall2 same_place all all').
  { assert (Fs := sections_ok p F). revert Fs H. generalize (sections p). clear F. intros ss Fs H.
    induction H as [|s r ss rs (A & bs & B & D) _ IH]; [exists []; split; constructor|].
    inversion Fs as [|? ? Fo Fr]; subst. destruct (IH Fr) as (rs' & H' & P'). exists (mk_range (fst s) (concat (exchange_all (snd s) bs)) :: rs').
    cbn [map]. split; constructor; try assumption.
    - split; [reflexivity|]. exists (exchange_all (snd s) bs). split; [|reflexivity]. cbn [snd exchange_section].
      apply (all_exchanged (lookup p)); [apply lookup_exchanged | exact Fo | exact B].
    - split; cbn [dr_start dr_data]; [symmetry; exact A|]. rewrite D. apply exchange_all_length. eapply OutputProofs.forall2_len. exact B. }
  destruct G as (all' & H' & P'). exists (filter nonempty all'). split; [|apply filter_places; exact P'].
  exists all'. rewrite sections_exchanged. split; [exact H' | reflexivity].
Qed.

Lemma all_det p q b b' : Forall node_ok p -> no_violation p -> Forall node_ok q -> Forall2 (node_bytes (lookup p)) q b -> Forall2 (node_bytes (lookup p)) q b' -> b = b'.
Proof.
  intros F NV Q H. revert b'. induction H as [|n x q b Hn _ IH]; intros b' H'; inversion H' as [|? x' ? b2 Hn' H2]; subst; [reflexivity|].
  inversion Q as [|? ? Qn Qr]; subst. f_equal; [exact (node_bytes_det _ _ _ _ F NV Qn Hn Hn') | apply IH; assumption].
Qed.

Lemma exchanged_memory p rs : Forall node_ok p -> assemble p = Done (Ok rs) ->
  exists rs' bs, assemble (map (exchange f) p) = Done (Ok rs') /\ Forall2 same_place rs rs' /\ Forall2 (node_bytes (lookup p)) p bs /\
    memory rs = OutputProofs.image 0 p bs /\ memory rs' = OutputProofs.image 0 p (exchange_all p bs).
Proof.
  intros F A. apply (assemble_ok p rs F) in A. destruct A as [W O]. destruct (output_exchanged p rs F O) as (rs' & O' & P).
  destruct (OutputProofs.output_image p rs W O) as (bs & B & M). assert (F' := program_exchanged f p E F). assert (W' := well_formed_exchanged p F W).
  destruct (OutputProofs.output_image _ rs' W' O') as (bs' & B' & M').
  assert (Eb : bs' = exchange_all p bs).
  { eapply (all_det (map (exchange f) p)); [exact F'|apply no_violation_wf; exact W'|exact F'|exact B'|].
    apply (all_exchanged (lookup p)); [apply lookup_exchanged | exact F | exact B]. }
  exists rs', bs. split; [apply assemble_ok; [exact F' | split; assumption]|]. split; [exact P|]. split; [exact B|]. split; [exact M|].
  rewrite M', Eb. apply image_exchanged. unfold exchange_all. rewrite map_length, combine_length, <- (OutputProofs.forall2_len _ _ _ _ _ B). lia.
Qed.

(** ** Running *)

Lemma denotes_exchanged lk lk' c x o : (forall z, lk' z = lk z) -> field_ok x -> denotes lk c x o ->
  denotes lk' c (exchange_field f x) (exchange_operand f o).
Proof.
  intros L F [Fi D]. split; [apply (fits_exchanged f c x E F); exact Fi|].
  destruct x; cbn [exchange_field] in *; try (subst o; reflexivity). destruct D as (v & Ev & ->). exists v. split; [rewrite L; exact Ev | reflexivity].
Qed.

Lemma says_exchanged lk lk' m fs i : (forall z, lk' z = lk z) -> Forall field_ok fs -> statement_says lk m fs i ->
  statement_says lk' m (map (exchange_field f) fs) (exchange_meaning f i).
Proof.
  intros L F (pattern & name & cs & os & I & N & D & ->). exists pattern, name, cs, (map (exchange_operand f) os).
  split; [exact I|]. split; [exact N|]. split; [|reflexivity]. clear I.
  induction D as [|c cs x xs o os Dx _ IH]; cbn [map]; constructor; inversion F; subst.
  - apply (denotes_exchanged lk); assumption.
  - apply IH. assumption.
Qed.

Lemma step_exchanged (P : processor) (g : state P -> state P) p s s' : Forall node_ok p ->
  (forall s, pc P (g s) = pc P s) ->
  (forall l m fs i s, In (NInstruction l m fs) p -> statement_says (lookup p) m fs i -> exec P (exchange_meaning f i) (g s) = g (exec P i s)) ->
  program_step P p s s' -> program_step P (map (exchange f) p) (g s) (g s').
Proof.
  intros F Hpc Hex (k & l & m & fs & i & H & A & Sy & ->). exists k, l, m, (map (exchange_field f) fs), (exchange_meaning f i).
  split; [rewrite nth_exchanged, H; reflexivity|]. split; [rewrite Hpc, address_exchanged; exact A|].
  split; [apply (says_exchanged (lookup p)); [apply lookup_exchanged | exact (fields_at _ _ _ _ _ F H) | exact Sy]|].
  symmetry. eapply Hex; [eapply nth_error_In; exact H | exact Sy].
Qed.

End exchanged.
