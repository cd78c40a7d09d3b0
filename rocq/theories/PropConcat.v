(** * PropConcat: property C62, with an instance. *)

From Verif Require Import Base Text U12 Location Token Scanner Parser Directive Opcode Instruction DataRange Assembler
  IHex Main SpecLex SpecGrammar SpecErase SpecCode SpecOpcode SpecRefusal SpecLayout SpecMeta SpecConcat SpecUtf8 BaseFacts
  LexTheorems ParseProofs LexAppend GrammarLines LayoutProofs EmitProofs PipelineProofs TextProofs TextCode FirstProofs
  MetaProofs SectionProofs ConcatProofs PropOutput PropText PropRewrite PropLayout.
Open Scope string_scope.
Open Scope list_scope.
Open Scope N_scope.

Lemma section_or_error : forall q, Forall node_ok q -> section_starts q ->
  is_section q \/ (peek_constant q = None /\ exists e, forall m a, define_labels_loop m a q = Err e).
Proof.
  intros q O (l & id & a & rest & -> & U). inversion O as [|? ? A _]; subst. cbn [node_ok] in A.
  assert (N : names id "ORG" = true) by (unfold names; apply str_eqb_eq; exact U).
  destruct (directive_from id [LNumeric a]) as [d|e] eqn:E.
  - left. apply (proj1 (directive_means _ _ _ A)) in E. inversion E as [? ? N' | ? ? N' | ? ? N']; subst;
      try (exfalso; unfold names in N'; apply str_eqb_eq in N'; rewrite U in N'; discriminate).
    exists l, id, [LNumeric a], a, rest. split; [reflexivity|]. apply (directive_means _ _ _ A). exact E.
  - right. split.
    + cbn [peek_constant]. rewrite E. reflexivity.
    + eexists. intros m b. cbn [define_labels_loop]. rewrite E. cbn [map_err rbind]. reflexivity.
Qed.

Lemma concat_bad : forall p q e, peek_constant q = None -> (forall m a, define_labels_loop m a q = Err e) ->
  assemble q = Done (Err e) /\
  (assemble (p ++ q) = Done (Err e) \/ exists e', assemble (p ++ q) = Done (Err e') /\ assemble p = Done (Err e')).
Proof.
  intros p q e Pq D. unfold assemble, define_labels. split; [rewrite D; reflexivity|].
  rewrite (define_app (length p) q p [] 0 Pq (le_n _)). pose proof (walk_define p [] 0) as W.
  destruct (walk (length p) [] 0 p) as [[m' a']|]; [left; rewrite D; reflexivity|].
  right. destruct W as (e' & ->). exists e'. split; reflexivity.
Qed.

(** ** C62: independent programs may be put one after the other. *)

Theorem C62_ranges : forall p q rs, Forall node_ok q -> section_starts q -> independent p q ->
  (assemble (p ++ q) = Done (Ok rs) <->
   exists rp rq, assemble p = Done (Ok rp) /\ assemble q = Done (Ok rq) /\ rs = rp ++ rq).
Proof.
  intros p q rs O S I. destruct (section_or_error q O S) as [Sq|(Pq & e & D)].
  - rewrite (assemble_concat p q Sq I). unfold assemble.
    destruct (define_labels p) as [mp|x]; [|split; [discriminate | intros (rp & rq & H & _); discriminate]].
    destruct (define_labels q) as [mq|x]; [|split; [discriminate | intros (rp & rq & _ & H & _); discriminate]].
    destruct (emit_data_ranges p mp) as [[rp|x]|c];
      try (split; [discriminate | intros (r1 & r2 & H & _); discriminate]).
    destruct (emit_data_ranges q mq) as [[rq|x]|c]; cbn [on_ok];
      try (split; [discriminate | intros (r1 & r2 & _ & H & _); discriminate]).
    split.
    + intros H. injection H as <-. exists rp, rq. auto.
    + intros (r1 & r2 & H1 & H2 & ->). injection H1 as <-. injection H2 as <-. reflexivity.
  - destruct (concat_bad p q e Pq D) as [H [H'|(e' & H' & _)]]; rewrite H'; (split; [discriminate|]);
      intros (rp & rq & _ & X & _); rewrite H in X; discriminate.
Qed.
Print Assumptions C62_ranges.

(** If the whole is refused, then for the reason one of the two is. *)
Theorem C62_error : forall p q e, Forall node_ok q -> section_starts q -> independent p q ->
  assemble (p ++ q) = Done (Err e) -> assemble p = Done (Err e) \/ assemble q = Done (Err e).
Proof.
  intros p q e O S I. destruct (section_or_error q O S) as [Sq|(Pq & x & D)].
  - rewrite (assemble_concat p q Sq I). unfold assemble.
    destruct (define_labels p) as [mp|x]; [|auto]. destruct (define_labels q) as [mq|x]; [|auto].
    destruct (emit_data_ranges p mp) as [[rp|x]|c]; auto.
    destruct (emit_data_ranges q mq) as [[rq|x]|c]; cbn [on_ok]; auto; discriminate.
  - destruct (concat_bad p q x Pq D) as [H [H'|(e' & H' & H2)]]; rewrite H'; intros E; injection E as <-; auto.
Qed.
Print Assumptions C62_error.

(** The text of the one, which ends with a line, followed by the text of the other. *)
Theorem C62_text : forall file s1 s2 p q, lined s1 -> parsed file s1 p -> parsed file s2 q ->
  exists r, parsed file (s1 ++ s2) r /\ same_program r (p ++ q).
Proof.
  intros file s1 s2 p q N (ts1 & S1 & P1) (ts2 & S2 & P2).
  destruct (scan_total file (s1 ++ s2)) as (ts & S).
  apply scan_lexes in S1. apply scan_lexes in S2. pose proof (proj1 (scan_lexes _ _ _) S) as L.
  apply parse_program in P1. apply parse_program in P2. pose proof (program_errors _ _ P1) as E1.
  destruct (lexes_lines _ _ _ _ S1 N s2 ts L) as [(ts2' & ->)|(x & l & y & E & _)].
  - destruct (boundary_cut _ _ _ _ S1 E1 _ _ L) as [_ L2]. cbn [app] in L2.
    destruct (lexes_moved _ _ _ _ S2 file s1) as (t & L2' & T). rewrite (lexes_det _ _ _ _ L2 _ L2') in *.
    destruct (program_same _ _ P2 t (same_sym _ _ T)) as (q' & Q & Sm).
    exists (p ++ q'). split.
    + exists (ts1 ++ t). split; [exact S|]. apply parse_program. apply program_app; assumption.
    + unfold same_program in *. rewrite !map_app, Sm. reflexivity.
  - exfalso. subst ts1. rewrite existsb_app in E1. cbn in E1. rewrite orb_true_r in E1. discriminate.
Qed.
Print Assumptions C62_text.

(** ** The HEX file *)

Definition last_record : str := u ":00000001FF" ++ [LF].

Lemma records_app : forall a b r, range_records (a ++ b) = Done r ->
  exists ra rb, range_records a = Done ra /\ range_records b = Done rb /\ r = ra ++ rb.
Proof.
  induction a as [|x a IH]; intros b r H; cbn [app range_records] in *.
  - exists [], r. auto.
  - destruct (data_records (fst (address_range x)) (chunks 16 (dr_data x))) as [d|]; cbn [bind] in *; [|discriminate].
    destruct (range_records (a ++ b)) as [r'|] eqn:E; cbn [bind] in H; [|discriminate]. injection H as <-.
    destruct (IH _ _ E) as (ra & rb & -> & Eb & ->). exists (d ++ ra), rb. cbn [bind]. rewrite <- app_assoc. auto.
Qed.

Lemma all_some_app : forall (A : Type) (a b : list (option A)) l, all_some (a ++ b) = Some l ->
  exists la lb, all_some a = Some la /\ all_some b = Some lb /\ l = la ++ lb.
Proof.
  induction a as [|[x|] a IH]; intros b l H; cbn [app all_some] in *; [exists [], l; auto| |discriminate].
  destruct (all_some (a ++ b)) as [l'|] eqn:E; [|discriminate]. injection H as <-.
  destruct (IH _ _ E) as (la & lb & -> & Eb & ->). exists (x :: la), lb. auto.
Qed.

Lemma join_ends : forall ls, ls <> [] -> join [10] ls ++ [10] = flat_map (fun l => l ++ [10]) ls.
Proof.
  induction ls as [|l ls IH]; intros N; [contradiction|]. destruct ls as [|l' ls]; [cbn; rewrite app_nil_r; reflexivity|].
  change (join [10] (l :: l' :: ls)) with (l ++ [10] ++ join [10] (l' :: ls)).
  change (flat_map (fun l => l ++ [10]) (l :: l' :: ls)) with ((l ++ [10]) ++ flat_map (fun l => l ++ [10]) (l' :: ls)).
  rewrite <- IH by discriminate. rewrite <- !app_assoc. reflexivity.
Qed.

(** The records of some ranges, one per line. *)
Definition record_lines (rs : list data_range) (x : str) : Prop :=
  exists r ls, range_records rs = Done r /\ all_some (map record_string r) = Some ls /\ x = flat_map (fun l => l ++ [10]) ls.

Lemma representation_lines : forall rs text, ihex_representation rs = Done text ->
  exists x, record_lines rs x /\ text = x ++ last_record.
Proof.
  intros rs text H. unfold ihex_representation in H. destruct (assert_ _) as [?|]; cbn [bind] in H; [|discriminate].
  destruct (range_records rs) as [r|] eqn:R; cbn [bind] in H; [|discriminate].
  unfold create_object_file in H. rewrite rev_app_distr in H. cbn [rev app] in H.
  destruct (existsb is_eof (rev r)); cbn [unwrap bind] in H; [discriminate|].
  destruct (all_some (map record_string (r ++ [REndOfFile]))) as [ls|] eqn:A; cbn [unwrap bind] in H; [|discriminate].
  injection H as <-. rewrite map_app in A. apply all_some_app in A. destruct A as (la & lb & A & B & ->).
  exists (flat_map (fun l => l ++ [10]) la). split; [exists r, la; auto|].
  rewrite join_ends by (intros E; apply app_eq_nil in E; destruct E as [_ ->]; vm_compute in B; discriminate).
  rewrite flat_map_app. f_equal. revert B. vm_compute. intros B. injection B as <-. reflexivity.
Qed.

Lemma record_lines_app : forall a b x, record_lines (a ++ b) x ->
  exists xa xb, record_lines a xa /\ record_lines b xb /\ x = xa ++ xb.
Proof.
  intros a b x (r & ls & R & A & ->). apply records_app in R. destruct R as (ra & rb & Ra & Rb & ->).
  rewrite map_app in A. apply all_some_app in A. destruct A as (la & lb & A & B & ->). rewrite flat_map_app.
  exists (flat_map (fun l => l ++ [10]) la), (flat_map (fun l => l ++ [10]) lb).
  split; [exists ra, la; auto|]. split; [exists rb, lb; auto | reflexivity].
Qed.

Lemma no_eof : forall rs r, range_records rs = Done r -> existsb is_eof (rev r) = false.
Proof.
  assert (D : forall cs a r, data_records a cs = Done r -> forall x, In x r -> is_eof x = false).
  { induction cs as [|c cs IH]; intros a r H x I; cbn [data_records] in H; [injection H as <-; destruct I|].
    destruct (_ <? 65536); [|discriminate]. destruct (data_records _ cs) as [r'|] eqn:E; cbn [bind] in H; [|discriminate].
    injection H as <-. destruct I as [<-|I]; [reflexivity | exact (IH _ _ E _ I)]. }
  assert (G : forall rs r, range_records rs = Done r -> forall x, In x r -> is_eof x = false).
  { induction rs as [|y rs IH]; intros r H x I; cbn [range_records] in H; [injection H as <-; destruct I|].
    destruct (data_records _ _) as [d|] eqn:E; cbn [bind] in H; [|discriminate].
    destruct (range_records rs) as [r'|]; cbn [bind] in H; [|discriminate]. injection H as <-.
    apply in_app_iff in I. destruct I as [I|I]; [exact (D _ _ _ E _ I) | exact (IH _ eq_refl _ I)]. }
  intros rs r H. destruct (existsb is_eof (rev r)) eqn:E; [|reflexivity]. exfalso.
  apply existsb_exists in E. destruct E as (x & I & X). apply in_rev in I. rewrite (G _ _ H _ I) in X. discriminate.
Qed.

Lemma lines_representation : forall rs x, record_lines rs x -> find_overlapping_ranges rs = [] ->
  ihex_representation rs = Done (x ++ last_record).
Proof.
  intros rs x (r & ls & R & A & ->) N. unfold ihex_representation. rewrite N. cbn [length Nat.eqb assert_ bind].
  rewrite R. cbn [bind]. unfold create_object_file. rewrite rev_app_distr. cbn [rev app]. rewrite (no_eof _ _ R), map_app.
  assert (G : all_some (map record_string r ++ map record_string [REndOfFile]) = Some (ls ++ [u ":00000001FF"])).
  { clear R. revert ls A. induction r as [|a r IH]; intros ls A; cbn [map app all_some] in *.
    - injection A as <-. vm_compute. reflexivity.
    - destruct (record_string a) as [l|]; [|discriminate]. destruct (all_some (map record_string r)) as [l'|]; [|discriminate].
      injection A as <-. rewrite (IH _ eq_refl). reflexivity. }
  rewrite G. cbn [unwrap bind]. rewrite join_ends by (intros E; apply app_eq_nil in E; destruct E; discriminate).
  rewrite flat_map_app. cbn [flat_map]. rewrite app_nil_r. reflexivity.
Qed.

Lemma overlaps_app : forall a b, find_overlapping_ranges (a ++ b) = [] ->
  find_overlapping_ranges a = [] /\ find_overlapping_ranges b = [].
Proof.
  induction a as [|r a IH]; intros b H; [auto|]. cbn [app find_overlapping_ranges] in *.
  apply app_eq_nil in H. destruct H as [F H]. destruct (IH _ H) as [Ha Hb]. rewrite Ha, app_nil_r. split; [|exact Hb].
  apply map_eq_nil in F. rewrite filter_app in F. apply app_eq_nil in F. destruct F as [F _]. rewrite F. reflexivity.
Qed.

Lemma representation_app : forall a b text, ihex_representation (a ++ b) = Done text ->
  exists x y, ihex_representation a = Done (x ++ last_record) /\ ihex_representation b = Done (y ++ last_record) /\
    text = x ++ y ++ last_record.
Proof.
  intros a b text H. pose proof (representation_lines _ _ H) as (z & L & ->).
  destruct (record_lines_app _ _ _ L) as (x & y & La & Lb & ->).
  assert (N : find_overlapping_ranges (a ++ b) = []).
  { unfold ihex_representation in H. destruct (find_overlapping_ranges (a ++ b)); [reflexivity | discriminate]. }
  apply overlaps_app in N. destruct N as [Na Nb]. exists x, y.
  split; [apply lines_representation; assumption|]. split; [apply lines_representation; assumption|].
  rewrite <- app_assoc. reflexivity.
Qed.

Lemma text_ranges : forall e file s p text, parsed file s p ->
  (assemble_text e file s = Done (Ok text) <->
   exists rs, assemble p = Done (Ok rs) /\ ihex_representation rs = Done text).
Proof.
  intros e file s p text (ts & S & P). unfold assemble_text. rewrite S. cbn [bind]. rewrite P. cbn [bind].
  destruct (assemble p) as [[rs|x]|c]; cbn [bind];
    try (split; [discriminate | intros (r & H & _); discriminate]).
  split.
  - destruct (Nat.ltb 0 _); [destruct (overlap_report _ _); discriminate|].
    destruct (ihex_representation rs) as [t|] eqn:I; cbn [bind]; [|discriminate]. intros H. injection H as <-. eauto.
  - intros (r & E & I). injection E as <-.
    assert (N : find_overlapping_ranges rs = []).
    { unfold ihex_representation in I. destruct (find_overlapping_ranges rs); [reflexivity | discriminate]. }
    rewrite N. cbn [length Nat.ltb Nat.leb]. rewrite I. reflexivity.
Qed.

(** If the text of both is accepted, so is each by itself, and the HEX file has the
    records of the one, those of the other, and the record at the end. *)
Theorem C62_file : forall e file s1 s2 p q text, lined s1 -> parsed file s1 p -> parsed file s2 q ->
  section_starts q -> independent p q -> assemble_text e file (s1 ++ s2) = Done (Ok text) ->
  exists x y, assemble_text e file s1 = Done (Ok (x ++ last_record)) /\
    assemble_text e file s2 = Done (Ok (y ++ last_record)) /\ text = x ++ y ++ last_record.
Proof.
  intros e file s1 s2 p q text N P Q S I H. destruct (C62_text file s1 s2 p q N P Q) as (r & R & Sm).
  apply (text_ranges e _ _ _ _ R) in H. destruct H as (rs & A & T).
  apply (assemble_same_ok _ _ _ Sm) in A.
  assert (O : Forall node_ok q) by (destruct Q as (ts & L & Q); exact (parsed_node_ok _ _ _ _ L Q)).
  apply (C62_ranges p q rs O S I) in A. destruct A as (rp & rq & Ap & Aq & ->).
  destruct (representation_app _ _ _ T) as (x & y & X & Y & ->). exists x, y.
  split; [apply (text_ranges e _ _ _ _ P); eauto|]. split; [apply (text_ranges e _ _ _ _ Q); eauto | reflexivity].
Qed.
Print Assumptions C62_file.

Definition part_one : str := lines [".org $200"; "go: ld v0, 1"; "jp go"].
Definition part_two : str := lines [".org $300"; "x: .equ 7"; "ld v1, x"; ".db ""ab"""].

Example C62_instance :
  lined part_one /\ parsed (u "f") part_one (nodes part_one) /\ parsed (u "f") part_two (nodes part_two) /\
  section_starts (nodes part_two) /\ independent (nodes part_one) (nodes part_two) /\
  assemble_text sample_env (u "f") (part_one ++ part_two) =
    Done (Ok (lines [":040200006001120087"; ":0403000061076162CE"; ":00000001FF"])).
Proof.
  split; [right; exists (removelast part_one); vm_compute; reflexivity|].
  split; [eexists; split; [vm_compute; reflexivity | vm_compute; reflexivity]|].
  split; [eexists; split; [vm_compute; reflexivity | vm_compute; reflexivity]|].
  split; [vm_compute; do 4 eexists; split; reflexivity|].
  split; [|vm_compute; reflexivity].
  assert (M1 : forall x, mentioned (nodes part_one) x -> x = u "go").
  { intros x (n & I & M). revert I M. vm_compute.
    intros I M. repeat (destruct I as [<-|I]; [try contradiction; try (subst x; auto; fail);
      repeat (destruct M as [M|M]; [try discriminate M; injection M as <-; auto|]); contradiction|]). contradiction. }
  assert (M2 : forall x, mentioned (nodes part_two) x -> x = u "x").
  { intros x (n & I & M). revert I M. vm_compute.
    intros I M. repeat (destruct I as [<-|I]; [try contradiction; try (subst x; auto; fail);
      repeat (destruct M as [M|M]; [try discriminate M; injection M as <-; auto|]); contradiction|]). contradiction. }
  assert (D : forall p x, defines p x -> mentioned p x).
  { intros p x (l & I). exists (NLabel l x). split; [exact I | reflexivity]. }
  intros x. split; intros X Y; apply D in X.
  - apply M1 in X. apply M2 in Y. subst x. discriminate Y.
  - apply M2 in X. apply M1 in Y. subst x. discriminate Y.
Qed.

(** A label of the one used in the other: each is refused, the two together are not. *)
Example C62_dependent :
  let p := nodes (u "jp x" ++ [LF]) in let q := nodes (u ".org $300" ++ [LF] ++ u "x: cls" ++ [LF]) in
  section_starts q /\ (exists e, assemble p = Done (Err e)) /\ exists rs, assemble (p ++ q) = Done (Ok rs).
Proof.
  cbv zeta. split; [vm_compute; do 4 eexists; split; reflexivity|]. split; eexists; vm_compute; reflexivity.
Qed.
