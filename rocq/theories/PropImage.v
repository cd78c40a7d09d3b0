(** * PropImage: property C65, with an instance. *)

From Verif Require Import Base Text U12 Location Token Scanner Parser Directive Opcode Instruction DataRange Assembler
  IHex Main SpecLex SpecGrammar SpecErase SpecCode SpecWrite SpecOpcode SpecRefusal SpecLayout SpecHex SpecUtf8 SpecTool
  SpecImage BaseFacts LexTheorems ParseProofs LexProofs LayoutProofs EmitProofs PipelineProofs DataRangeProofs HexProofs
  MainProofs TextProofs TextCode OutputProofs PropOutput PropText.
Open Scope string_scope.
Open Scope list_scope.
Open Scope N_scope.

Definition nowhere_ : loc := mk_loc [] 0 0 0.

Definition block_nodes (r : data_range) : list node :=
  [NDirective nowhere_ (u "org") [LNumeric (dr_start r)];
   NDirective nowhere_ (u "db") (map LNumeric (dr_data r))].

Definition image_nodes (rs : list data_range) : list node := flat_map block_nodes rs.

Lemma image_written : forall rs, write (image_nodes rs) = image_text rs.
Proof.
  induction rs as [|r rs IH]; [reflexivity|]. unfold image_nodes, image_text, write in *. cbn [flat_map].
  rewrite flat_map_app, IH. f_equal. unfold block_nodes, block_text. cbn [flat_map write_node map separated write_literal].
  rewrite map_map, app_nil_r. cbn [write_literal]. rewrite <- !app_assoc. reflexivity.
Qed.

Lemma name_ok : forall s, match LexProofs.find KIdentifier s with Some m => str_eqb m s | None => false end = true -> name s.
Proof.
  intros s H. destruct (LexProofs.find KIdentifier s) as [m|] eqn:E; [|discriminate]. apply str_eqb_eq in H. subst m.
  destruct (LexProofs.find_lexeme _ _ _ E) as (r & _ & _ & R & _). left. exact R.
Qed.

Lemma image_writable : forall rs, Forall possible rs -> Forall writable_node (image_nodes rs).
Proof.
  intros rs F. unfold image_nodes. apply Forall_flat_map. eapply Forall_impl; [|exact F].
  intros r (Ne & B & L). unfold block_nodes. constructor; [|constructor; [|constructor]]; cbn [writable_node].
  - split; [apply name_ok; vm_compute; reflexivity|]. constructor; [|constructor]. cbn [writable_literal]. lia.
  - split; [apply name_ok; vm_compute; reflexivity|]. apply Forall_map. eapply Forall_impl; [|exact B].
    intros b Hb. cbn beta in Hb. cbn [writable_literal]. lia.
Qed.

Lemma block_org : forall r, possible r -> directive_from (u "org") [LNumeric (dr_start r)] = Ok (Org (dr_start r)).
Proof.
  intros r (_ & _ & L). apply directive_means; [repeat constructor|]. constructor; [vm_compute; reflexivity | lia].
Qed.

Lemma block_db : forall r, possible r -> directive_from (u "db") (map LNumeric (dr_data r)) = Ok (Db (dr_data r)).
Proof.
  intros r (Ne & B & _). apply directive_means; [repeat constructor|].
  assert (E : flat_map literal_bytes (map LNumeric (dr_data r)) = dr_data r).
  { induction (dr_data r) as [|b l IH]; [reflexivity|]. cbn [map flat_map literal_bytes app].
    destruct l as [|b' l]; [reflexivity|]. rewrite IH; [reflexivity | discriminate | inversion B; assumption]. }
  rewrite <- E at 2. constructor; [vm_compute; reflexivity | |].
  - destruct (dr_data r); [contradiction | discriminate].
  - apply Forall_map. eapply Forall_impl; [|exact B]. intros b Hb. cbn beta in Hb. cbn [byte_literal]. lia.
Qed.

Lemma image_labels : forall rs, Forall possible rs -> forall m a, a <= 4095 -> define_labels_loop m a (image_nodes rs) = Ok m.
Proof.
  intros rs F. induction F as [|r rs P F IH]; intros m a A; [reflexivity|].
  unfold image_nodes in *. cbn [flat_map block_nodes app]. cbn [define_labels_loop].
  rewrite (block_org r P). cbn [map_err rbind directive_size]. change (u12_failable_into 0) with (Some 0). cbn [ok_or rbind].
  unfold u12_checked_add at 1, u12_max. destruct (N.leb_spec (a + 0) 0xFFF) as [_|]; [|lia]. cbn [ok_or rbind].
  rewrite (block_db r P). cbn [map_err rbind directive_size]. destruct P as (_ & _ & L).
  unfold u12_failable_into, u12_max.
  destruct (N.leb_spec (N.of_nat (length (dr_data r))) 0xFFF) as [_|]; [|lia]. cbn [ok_or rbind].
  unfold u12_checked_add, u12_max. destruct (N.leb_spec (dr_start r + N.of_nat (length (dr_data r))) 0xFFF) as [_|]; [|lia].
  cbn [ok_or rbind]. apply IH. exact L.
Qed.

Lemma image_emitted : forall labels rs, Forall possible rs -> forall ranges current,
  emit_loop labels ranges current (image_nodes rs) = Done (Ok (push_range ranges current ++ rs)).
Proof.
  intros labels rs F. induction F as [|r rs P F IH]; intros ranges current; [cbn; rewrite app_nil_r; reflexivity|].
  unfold image_nodes in *. cbn [flat_map block_nodes app]. cbn [emit_loop]. rewrite (block_org r P), (block_db r P).
  cbn [directive_into_vec]. pose proof P as (Ne & _ & L).
  rewrite append_fits; unfold range_len, range_new; cbn [dr_start dr_data length]; [|lia | lia].
  cbn [bind app]. rewrite IH. f_equal. f_equal. unfold push_range at 1. unfold range_len. cbn [dr_data].
  replace (0 <? N.of_nat (length (dr_data r))) with true by (destruct (dr_data r); [contradiction | cbn [length]; lia]).
  rewrite <- app_assoc. destruct r. reflexivity.
Qed.

Lemma hex_digit_scalar : forall d, scalar (hex_digit d).
Proof.
  intros d. unfold hex_digit. left.
  destruct (nth_in_or_default (N.to_nat d) (u "0123456789ABCDEF") 0) as [J|E]; [|rewrite E; lia].
  revert J. generalize (nth (N.to_nat d) (u "0123456789ABCDEF") 0). intros x J. vm_compute in J.
  repeat (destruct J as [<-|J]; [lia|]). contradiction.
Qed.

Lemma image_scalar : forall rs, Forall scalar (image_text rs).
Proof.
  intros rs. unfold image_text, block_text, write_number. apply Forall_flat_map. rewrite Forall_forall. intros r Ir.
  assert (Hs : forall l, Forall (Forall scalar) l -> Forall scalar (separated l)).
  { induction l as [|x l IH]; intros Fl; [constructor|]. inversion Fl; subst. destruct l as [|y l]; [assumption|].
    change (separated (x :: y :: l)) with (x ++ u ", " ++ separated (y :: l)).
    apply Forall_app. split; [assumption|]. apply Forall_app. split; [|apply IH; assumption].
    repeat constructor. }
  assert (Hn : forall v, Forall scalar (write_number v)).
  { intros v. unfold write_number. constructor; [left; vm_compute; reflexivity|].
    repeat (constructor; [apply hex_digit_scalar|]). constructor. }
  apply Forall_app. split; [repeat constructor|]. apply Forall_app. split; [apply Hn|].
  apply Forall_app. split; [repeat constructor|]. apply Forall_app. split; [repeat constructor|].
  apply Forall_app. split; [|repeat constructor]. apply Hs, Forall_map. rewrite Forall_forall. intros b _. apply Hn.
Qed.

(** ** C65: exactly the possible contents of memory can be produced. *)

Theorem C65_every : forall file rs, Forall possible rs ->
  exists p, parsed file (image_text rs) p /\ assemble p = Done (Ok rs).
Proof.
  intros file rs F. destruct (C14_round_trip file (image_nodes rs) (image_writable rs F)) as (p & P & S).
  rewrite image_written in P. exists p. split; [exact P|].
  apply (assemble_same_ok _ _ _ S). unfold assemble, define_labels. rewrite (image_labels rs F) by lia.
  unfold emit_data_ranges. rewrite (image_emitted [] rs F). reflexivity.
Qed.
Print Assumptions C65_every.

Theorem C65_only : forall file s p rs, Forall scalar s -> parsed file s p -> assemble p = Done (Ok rs) -> Forall possible rs.
Proof.
  intros file s p rs Sc (ts & S & P) A. pose proof (parsed_node_ok _ _ _ _ S P) as F.
  apply (assemble_ok _ _ F) in A. destruct A as [W O].
  apply scan_lexes in S. apply parse_program in P.
  pose proof (program_scalar ts p P (lexes_scalar _ _ _ _ S Sc)) as Fs.
  pose proof (output_writable p rs F Fs W O) as Wr. destruct (memory_bounds p rs W O) as [_ B].
  destruct O as (all & _ & ->). rewrite Forall_forall in *. intros r I. specialize (Wr r I). specialize (B r I). cbn beta in B.
  apply filter_In in I. destruct I as [_ Ne]. unfold nonempty in Ne. split; [|split; [apply Wr | exact B]].
  intros E. rewrite E in Ne. discriminate.
Qed.
Print Assumptions C65_only.

(** The bytes that can be written to addresses, in terms of the HEX file: any at all, at
    distinct addresses other than the last. *)
Theorem C65_image : forall e file image,
  ((exists s text, Forall scalar s /\ assemble_text e file s = Done (Ok text) /\ read_hex text = Some image) <->
   NoDup (map fst image) /\ Forall (fun x => fst x < 4095 /\ snd x < 256) image).
Proof.
  intros e file image. split.
  - intros (s & text & Sc & A & R).
    destruct (assemble_text_spec e file s Sc) as [(t & rs & E & C & I)|(m & E & _)]; rewrite A in E; [|discriminate].
    injection E as <-. destruct (compiles_writable _ _ _ Sc C) as [W N]. destruct (ihex_loads rs W N) as (t & I' & R').
    rewrite I in I'. injection I' as <-. rewrite R in R'. injection R' as ->.
    destruct C as (ts & p & L & P & Wf & O & D). split; [exact D|].
    destruct (memory_bounds p rs Wf O) as [M _]. unfold memory in *. rewrite Forall_flat_map in *.
    rewrite Forall_forall in *. intros r Ir. specialize (M r Ir). specialize (W r Ir). destruct W as [_ W]. clear - M W.
    revert M W. generalize (dr_start r). induction (dr_data r) as [|b bs IH]; intros a M W; [constructor|].
    cbn [place] in *. inversion M; subst. inversion W; subst. constructor; [cbn [fst snd] in *; auto | apply IH; assumption].
  - intros [D F]. set (rs := map (fun x => mk_range (fst x) [snd x]) image).
    assert (M : memory rs = image).
    { unfold memory, rs. rewrite flat_map_concat_map, map_map. cbn [dr_start dr_data place]. clear.
      induction image as [|[a b] image IH]; [reflexivity|]. cbn [map concat fst snd app]. f_equal. exact IH. }
    assert (P : Forall possible rs).
    { unfold rs. apply Forall_map. eapply Forall_impl; [|exact F]. intros [a b] [A B]. cbn [fst snd] in *.
      split; [discriminate|]. cbn [dr_data dr_start length]. split; [constructor; [exact B | constructor] | lia]. }
    destruct (C65_every file rs P) as (p & (ts & S & Pp) & A). exists (image_text rs).
    assert (N : find_overlapping_ranges rs = []).
    { apply no_overlap_nodup; [|rewrite M; exact D]. eapply Forall_impl; [|exact P]. intros r (_ & _ & L). exact L. }
    assert (W : Forall writable rs).
    { eapply Forall_impl; [|exact P]. intros r (_ & B & L). split; [|exact B]. unfold range_len. lia. }
    destruct (ihex_loads rs W N) as (text & I & R). exists text. rewrite M in R.
    split; [|split; [|exact R]].
    + apply image_scalar.
    + unfold assemble_text. rewrite S. cbn [bind]. rewrite Pp. cbn [bind]. rewrite A. cbn [bind].
      rewrite N. cbn [length Nat.ltb Nat.leb]. rewrite I. reflexivity.
Qed.
Print Assumptions C65_image.

Example C65_instance :
  let rs := [mk_range 0x200 [1; 255]; mk_range 0xFFE [7]] in
  Forall possible rs /\ image_text rs = lines [".org $200"; ".db $001, $0FF"; ".org $FFE"; ".db $007"] /\
  assemble_text sample_env (u "f") (image_text rs) =
    Done (Ok (lines [":0202000001FFFC"; ":010FFE0007EB"; ":00000001FF"])).
Proof.
  cbv zeta. split; [|split; vm_compute; reflexivity].
  assert (B : forall b, b <? 256 = true -> b < 256) by (intros; lia).
  constructor; [|constructor; [|constructor]]; (split; [discriminate|]); cbn [dr_data dr_start length];
    (split; [repeat constructor; apply B; vm_compute; reflexivity | lia]).
Qed.
