(** * PropSize: property C75, with instances. *)

From Coq Require FinFun.
From Verif Require Import Accessors Base Text U12 Location Token Scanner Parser Directive Opcode Instruction DataRange Assembler
  IHex Main SpecLex SpecGrammar SpecErase SpecCode SpecWrite SpecOpcode SpecRefusal SpecLayout SpecHex SpecUtf8 SpecTool
  SpecImage SpecSize BaseFacts LexTheorems LexProofs ScanProofs ParseProofs LayoutProofs EmitProofs PipelineProofs DataRangeProofs HexProofs
  MainProofs TextProofs TextCode OutputProofs SizeProofs PropOutput PropText PropImage.
Open Scope string_scope.
Open Scope list_scope.
Open Scope N_scope.

(** ** C75: nothing is larger than the text it comes from, and the HEX file has a largest size. *)

(** No more tokens than characters, and no more statements than tokens. *)
Theorem C75_counts : forall file s ts, scan file s = Done ts ->
  (length ts <= length s)%nat /\ forall p, parse ts = Done (Ok p) -> (length p <= length ts)%nat.
Proof.
  intros file s ts S. split.
  - apply scan_lexes in S. eapply lexes_count. exact S.
  - intros p P. apply parse_program in P. apply program_count. exact P.
Qed.
Print Assumptions C75_counts.

(** An assembled text has at least a byte for every byte it emits, and there are no empty blocks. *)
Theorem C75_bytes : forall file s p rs, parsed file s p -> assemble p = Done (Ok rs) ->
  N.of_nat (length rs) <= bytes_in rs /\ bytes_in rs <= N.of_nat (length (utf8 s)).
Proof.
  intros file s p rs (ts & S & P) A. pose proof (parsed_node_ok _ _ _ _ S P) as F.
  apply (assemble_ok _ _ F) in A. destruct A as [W O]. apply scan_lexes in S. apply parse_program in P. split.
  - apply nonempty_count. destruct (memory_image p rs W O) as (_ & _ & _ & Ne). exact Ne.
  - pose proof (output_bulk p rs W O). apply program_weight in P. apply lexes_weight in S. lia.
Qed.
Print Assumptions C75_bytes.

(** The size of the HEX file, and its bound. *)
Theorem C75_output : forall e file s text, Forall scalar s -> assemble_text e file s = Done (Ok text) ->
  exists rs, compiles file s rs /\
    N.of_nat (length text) = 12 * records_in rs + 2 * bytes_in rs + 12 /\
    records_in rs <= bytes_in rs /\ bytes_in rs <= 4095 /\ N.of_nat (length text) <= 57342.
Proof.
  intros e file s text Sc A.
  destruct (assemble_text_spec e file s Sc) as [(t & rs & E & C & I)|(m & E & _)]; rewrite A in E; [|discriminate].
  injection E as <-. exists rs. split; [exact C|]. destruct (compiles_writable _ _ _ Sc C) as [W N].
  pose proof (ihex_length rs text W I) as L. pose proof (records_bytes rs) as R.
  destruct C as (ts & p & _ & _ & Wf & O & D). destruct (memory_bounds p rs Wf O) as [M _].
  pose proof (bytes_bound rs D M) as B. split; [exact L|]. split; [exact R|]. split; [exact B|]. lia.
Qed.
Print Assumptions C75_output.

(** One byte in each block, at the addresses from [a]. *)
Definition scattered (a : N) (n : nat) : list data_range := map (fun i => mk_range (a + N.of_nat i) [0]) (seq 0 n).

Lemma scattered_sizes : forall a n, bytes_in (scattered a n) = N.of_nat n /\ records_in (scattered a n) = N.of_nat n.
Proof.
  intros a n. unfold scattered. generalize 0%nat. induction n as [|n IH]; intros k; [split; reflexivity|].
  cbn [seq map bytes_in records_in dr_data length]. destruct (IH (S k)) as [B R]. rewrite B, R.
  change ((N.of_nat 1 + 15) / 16) with 1. lia.
Qed.

Lemma scattered_memory : forall a n, map fst (memory (scattered a n)) = map (fun i => a + N.of_nat i) (seq 0 n).
Proof.
  intros a n. unfold scattered. generalize 0%nat. induction n as [|n IH]; intros k; [reflexivity|].
  cbn [seq map]. rewrite memory_cons. cbn [dr_start dr_data place app map fst]. f_equal. apply IH.
Qed.

(** The bound is reached. *)
Theorem C75_attained : forall e file, exists s text, Forall scalar s /\ assemble_text e file s = Done (Ok text) /\
  N.of_nat (length text) = 57342.
Proof.
  intros e file. set (n := N.to_nat 4095). set (rs := scattered 0 n).
  assert (P : Forall possible rs).
  { apply Forall_map. apply Forall_forall. intros i I. apply in_seq in I. split; [discriminate|].
    cbn [dr_data dr_start length]. split; [constructor; [reflexivity | constructor] | unfold n in I; lia]. }
  assert (N : find_overlapping_ranges rs = []).
  { apply no_overlap_nodup.
    - eapply Forall_impl; [|exact P]. intros r (_ & _ & L). exact L.
    - unfold rs. rewrite scattered_memory. apply FinFun.Injective_map_NoDup; [|apply seq_NoDup]. intros x y E. lia. }
  assert (W : Forall writable rs).
  { eapply Forall_impl; [|exact P]. intros r (_ & B & L). split; [|exact B]. unfold range_len. lia. }
  destruct (C65_every file rs P) as (p & (ts & S & Pp) & A).
  destruct (ihex_loads rs W N) as (text & I & _). exists (image_text rs), text.
  split; [apply image_scalar|]. split.
  - unfold assemble_text. rewrite S. cbn [bind]. rewrite Pp. cbn [bind]. rewrite A. cbn [bind].
    rewrite N. cbn [length Nat.ltb Nat.leb]. rewrite I. reflexivity.
  - rewrite (ihex_length rs text W I). destruct (scattered_sizes 0 n) as [B R]. unfold rs. rewrite B, R. unfold n. lia.
Qed.
Print Assumptions C75_attained.

(** The report of overlaps has at most a pair for every two blocks. *)
Theorem C75_overlaps : forall rs, (2 * length (find_overlapping_ranges rs) <= length rs * (length rs - 1))%nat.
Proof. exact overlaps_count. Qed.
Print Assumptions C75_overlaps.

(** ... and for every number of blocks there is a text with that many pairs: its report grows with the square
    of the text. *)
Theorem C75_overlaps_attained : forall file n, exists s p rs, length s = (19 * n)%nat /\
  parsed file s p /\ assemble p = Done (Ok rs) /\ length rs = n /\
  (2 * length (find_overlapping_ranges rs) = n * (n - 1))%nat.
Proof.
  intros file n. set (r := mk_range 0 [0]). set (rs := repeat r n).
  assert (P : Forall possible rs).
  { apply Forall_forall. intros x X. apply repeat_spec in X. subst x. split; [discriminate|].
    cbn [r dr_data dr_start length]. split; [constructor; [reflexivity | constructor] | lia]. }
  destruct (C65_every file rs P) as (p & Pp & A). exists (image_text rs), p, rs.
  split; [|split; [exact Pp|split; [exact A|split; [apply repeat_length | apply overlaps_all; reflexivity]]]].
  unfold rs. clear. induction n as [|n IH]; [reflexivity|]. cbn [repeat]. unfold image_text in *. cbn [flat_map].
  rewrite app_length, IH. change (length (block_text r)) with 19%nat. lia.
Qed.
Print Assumptions C75_overlaps_attained.

(** What directives and instructions announce as their size is what they emit; an instruction is as
    long as the first pass takes it to be. *)
Theorem C75_announced : (forall id args d, directive_from id args = Ok d ->
     directive_size d = N.of_nat (length (directive_into_vec d))) /\
  forall o bytes, instruction_into_vec o = Done bytes ->
    instruction_size o = N.of_nat (length bytes) /\ bytes_per_instruction = N.of_nat (length bytes).
Proof.
  split.
  - intros id args d _. destruct d; reflexivity.
  - intros o bytes H. unfold instruction_into_vec in H. destruct (as_instruction o) as [w|c]; [|discriminate H].
    cbn [bind] in H. injection H as <-. split; reflexivity.
Qed.
Print Assumptions C75_announced.

(** A text that emits more than half as many bytes as it has, of which a string and an instruction
    emit as many as they can. *)
Example C75_instance :
  let s := lines ["CLS"; ".db ""abcdefghijklmnopqrst"""] in
  length s = 31%nat /\
  assemble_text sample_env (u "f") s =
    Done (Ok (lines [":1000000000E06162636465666768696A6B6C6D6E67"; ":060010006F707172737441"; ":00000001FF"])) /\
  bytes_in [mk_range 0 (repeat 0 22)] = 22 /\ records_in [mk_range 0 (repeat 0 22)] = 2.
Proof. cbv zeta. split; [vm_compute; reflexivity|]. split; [vm_compute; reflexivity|]. split; vm_compute; reflexivity. Qed.
