(** * PropHexFile: property C95, with instances. *)

From Verif Require Import Base Text U12 Location Token Scanner Parser Directive Opcode Instruction DataRange Assembler
  IHex Main SpecLex SpecGrammar SpecErase SpecCode SpecWrite SpecOpcode SpecRefusal SpecLayout SpecHex SpecUtf8 SpecTool
  SpecImage SpecRecords SpecHexFile BaseFacts LexTheorems ParseProofs LexProofs LayoutProofs EmitProofs PipelineProofs
  DataRangeProofs HexProofs MainProofs TextProofs TextCode OutputProofs RecordProofs PropOutput PropText PropImage.
Open Scope string_scope.
Open Scope list_scope.
Open Scope N_scope.

(** ** The records of blocks *)

Lemma block_fits : forall a l ls, block_lines a l ls -> Forall (fun b => b < 256) l -> a + N.of_nat (length l) <= 4095 ->
  exists ps, Forall2 line_of ps ls /\ memory ps = memory [mk_range a l] /\ Forall record_fits ps.
Proof.
  induction 1 as [a data line Ln D|a data rest line ls Ln Ne D B IH]; intros V L.
  - exists [mk_range a data]. split; [constructor; [exact D | constructor]|]. split; [reflexivity|].
    constructor; [|constructor]. split; [|apply Ln]. split; [|split; [exact V | exact L]].
    cbn [dr_data]. intros E. rewrite E in Ln. cbn [length] in Ln. lia.
  - rewrite app_length in L. apply Forall_app in V. destruct V as [V1 V2]. destruct IH as (ps & F & M & P); [exact V2 | lia|].
    exists (mk_range a data :: ps). split; [constructor; [exact D | exact F]|]. split.
    { unfold memory in *. cbn [flat_map dr_start dr_data] in *. rewrite M, place_app, <- app_assoc.
      replace (N.of_nat (length data)) with 16 by lia. reflexivity. }
    constructor; [|exact P]. split; [|cbn [dr_data]; lia]. split; [|split; [exact V1 | cbn [dr_start dr_data]; lia]].
    cbn [dr_data]. intros E. rewrite E in Ln. cbn [length] in Ln. lia.
Qed.

Lemma memory_app : forall a b, memory (a ++ b) = memory a ++ memory b.
Proof. intros a b. unfold memory. apply flat_map_app. Qed.

Lemma blocks_fit : forall rs ls, blocks rs ls -> Forall possible rs ->
  exists ps, Forall2 line_of ps ls /\ memory ps = memory rs /\ Forall record_fits ps.
Proof.
  induction 1 as [|r rs ls E B IH|r rs ls ls' B _ IH]; intros F.
  - exists []. split; [constructor|]. split; [reflexivity | constructor].
  - inversion F as [|x y (Ne & _) _]; subst. contradiction.
  - inversion F as [|x y (Ne & V & L) F']; subst. destruct (IH F') as (ps' & A' & M' & P').
    destruct (block_fits _ _ _ B V L) as (ps & A & M & P). exists (ps ++ ps').
    split; [apply Forall2_app; assumption|]. split; [|apply Forall_app; split; assumption].
    rewrite memory_app, M, M'. unfold memory. cbn [flat_map dr_start dr_data]. rewrite app_nil_r. reflexivity.
Qed.

Lemma records_blocks : forall ps ls, Forall2 line_of ps ls -> Forall record_fits ps -> blocks ps ls.
Proof.
  induction 1 as [|r line ps ls D _ IH]; intros F; [constructor|]. inversion F as [|x y [(Ne & V & L) S] F']; subst.
  change (line :: ls) with ([line] ++ ls). apply blocks_cons; [|exact (IH F')].
  apply block_last; [|exact D]. destruct (dr_data r); [contradiction | cbn [length] in *; lia].
Qed.

Lemma blocks_det : forall rs ls, blocks rs ls -> Forall record_fits rs -> Forall2 line_of rs ls.
Proof.
  induction 1 as [|r rs ls E B IH|r rs ls ls' B _ IH]; intros F; [constructor| |]; inversion F as [|x y [(Ne & V & L) S] F']; subst.
  - contradiction.
  - inversion B as [a data line Ln D|a data rest line ls1 Ln Nr D B1]; subst.
    + constructor; [exact D | exact (IH F')].
    + exfalso. match goal with E : _ ++ rest = dr_data r |- _ => rewrite <- E in S end. rewrite app_length in S.
      destruct rest; [contradiction | cbn [length] in S; lia].
Qed.

(** ** C95: the HEX files are exactly these. *)

(** A source for the records: an '.org' and a '.db' for each. *)
Theorem C95_source : forall e file records text, Forall record_fits records -> NoDup (map fst (memory records)) ->
  hex_file records text -> assemble_text e file (image_text records) = Done (Ok text).
Proof.
  intros e file rs text F D (ls & T & ->).
  assert (P : Forall possible rs) by (eapply Forall_impl; [|exact F]; intros r [Pr _]; exact Pr).
  destruct (C65_every file rs P) as (p & (ts & S & Pp) & A).
  assert (N : find_overlapping_ranges rs = []).
  { apply no_overlap_nodup; [|exact D]. eapply Forall_impl; [|exact P]. intros r (_ & _ & L). exact L. }
  assert (W : Forall writable rs).
  { eapply Forall_impl; [|exact P]. intros r (_ & B & L). split; [|exact B]. unfold range_len. lia. }
  destruct (ihex_exact rs W N) as (ls' & I & B).
  pose proof (lines_of_records _ _ T _ (blocks_det _ _ B F)) as ->.
  unfold assemble_text. rewrite S. cbn [bind]. rewrite Pp. cbn [bind]. rewrite A. cbn [bind].
  rewrite N. cbn [length Nat.ltb Nat.leb]. rewrite I. reflexivity.
Qed.
Print Assumptions C95_source.

(** What the tool writes are those records. *)
Theorem C95_records : forall e file s text, Forall scalar s -> assemble_text e file s = Done (Ok text) ->
  exists records, Forall record_fits records /\ NoDup (map fst (memory records)) /\ hex_file records text.
Proof.
  intros e file s text Sc A.
  destruct (assemble_text_spec e file s Sc) as [(t & rs & E & C & I)|(m & E & _)]; rewrite A in E; [|discriminate E].
  injection E as <-. destruct (compiles_writable _ _ _ Sc C) as [W N].
  destruct C as (ts & p & L & P & Wf & O & D).
  assert (Pp : Forall possible rs).
  { apply scan_lexes in L. apply parse_program in P.
    apply (C65_only file s p rs Sc); [exists ts; split; assumption|].
    apply assemble_ok; [exact (parsed_node_ok _ _ _ _ L P) | split; assumption]. }
  destruct (ihex_exact rs W N) as (ls & I' & B). rewrite I in I'. injection I' as ->.
  destruct (blocks_fit _ _ B Pp) as (ps & T & M & F). exists ps. rewrite M. split; [exact F|]. split; [exact D|].
  exists ls. split; [exact T | reflexivity].
Qed.
Print Assumptions C95_records.

Theorem C95_exact : forall e file text,
  ((exists s, Forall scalar s /\ assemble_text e file s = Done (Ok text)) <->
   exists records, Forall record_fits records /\ NoDup (map fst (memory records)) /\ hex_file records text).
Proof.
  intros e file text. split.
  - intros (s & Sc & A). exact (C95_records e file s text Sc A).
  - intros (rs & F & D & H). exists (image_text rs). split; [apply image_scalar | exact (C95_source e file rs text F D H)].
Qed.
Print Assumptions C95_exact.

(** Every source can be replaced by one of '.org' and '.db' lines which gives the very same file. *)
Theorem C95_again : forall e file s text, Forall scalar s -> assemble_text e file s = Done (Ok text) ->
  exists records, Forall record_fits records /\ hex_file records text /\
    forall e' file', assemble_text e' file' (image_text records) = Done (Ok text).
Proof.
  intros e file s text Sc A. destruct (C95_records e file s text Sc A) as (rs & F & D & H).
  exists rs. split; [exact F|]. split; [exact H|]. intros e' file'. exact (C95_source e' file' rs text F D H).
Qed.
Print Assumptions C95_again.

(** The records of a file are its own. *)
Theorem C95_unique : forall records records' text, Forall record_fits records -> Forall record_fits records' ->
  hex_file records text -> hex_file records' text -> records = records'.
Proof.
  intros rs rs' text F F' (ls & T & ->) (ls' & T' & E).
  assert (V : forall l, Forall record_fits l -> Forall (fun r => dr_data r <> [] /\ dr_start r < 65536) l).
  { intros l. apply Forall_impl. intros r [(Ne & _ & L) _]. split; [exact Ne | lia]. }
  assert (U : forall l k, Forall2 line_of l k -> Forall record_fits l -> Forall (fun x => ~ In 10 x) (k ++ [end_line])).
  { intros l k H Fl. apply Forall_app. split; [|constructor; [apply end_line_read | constructor]].
    induction H as [|r line l k D _ IH]; [constructor|]. inversion Fl as [|x y [(_ & _ & L) _] Fl']; subst.
    constructor; [|exact (IH Fl')]. apply (data_line_read (dr_start r) (dr_data r) line); [lia | exact D]. }
  assert (X : SpecHex.lines (end_lines (ls ++ [end_line])) = SpecHex.lines (end_lines (ls' ++ [end_line]))) by (rewrite E; reflexivity).
  rewrite !lines_end in X; [|exact (U _ _ T' F')|exact (U _ _ T F)]. injection X as X.
  apply app_inj_tail in X. destruct X as [<- _]. exact (records_of_lines _ _ T _ T' (V _ F) (V _ F')).
Qed.
Print Assumptions C95_unique.

(** Adjacent records of fewer than 16 bytes, out of order. *)
Example C95_instance :
  let records := [mk_range 0x202 [7]; mk_range 0x200 [1; 255]] in
  Forall record_fits records /\ NoDup (map fst (memory records)) /\
  hex_file records (lines [":0102020007F4"; ":0202000001FFFC"; ":00000001FF"]) /\
  image_text records = lines [".org $202"; ".db $007"; ".org $200"; ".db $001, $0FF"].
Proof.
  cbv zeta. assert (B : forall b, b <? 256 = true -> b < 256) by (intros; lia).
  split; [|split; [|split; [|vm_compute; reflexivity]]].
  - constructor; [|constructor; [|constructor]]; (split; [split; [discriminate|]|cbn [dr_data length]; lia]); cbn [dr_data dr_start length];
      (split; [repeat constructor; apply B; vm_compute; reflexivity | lia]).
  - assert (E : map fst (memory [mk_range 0x202 [7]; mk_range 0x200 [1; 255]]) = [0x202; 0x200; 0x201]) by (vm_compute; reflexivity).
    rewrite E. constructor; [|constructor; [|constructor; [|constructor]]]; cbn [In]; lia.
  - assert (V : forall l, forallb (fun b => b <? 256) l = true -> Forall (fun b => b < 256) l).
    { intros l H. apply Forall_forall. rewrite forallb_forall in H. intros b I. apply B. exact (H b I). }
    destruct (record_data_line 0x202 [7] ltac:(lia) (V [7] eq_refl) ltac:(cbn [length]; lia)) as (l1 & E1 & D1).
    destruct (record_data_line 0x200 [1; 255] ltac:(lia) (V [1; 255] eq_refl) ltac:(cbn [length]; lia)) as (l2 & E2 & D2).
    vm_compute in E1, E2. injection E1 as <-. injection E2 as <-.
    eexists. split; [constructor; [exact D1 | constructor; [exact D2 | constructor]]|]. vm_compute. reflexivity.
Qed.

(** No file has a record of the last byte of memory, or one of 17 bytes. *)
Example C95_not :
  ~ record_fits (mk_range 0xFFF [1]) /\ ~ record_fits (mk_range 0x200 (repeat 0 17)).
Proof.
  split; [intros [(_ & _ & L) _]; cbn [dr_start dr_data length] in L; lia |
          intros [_ L]; cbn [dr_data] in L; rewrite repeat_length in L; lia].
Qed.
