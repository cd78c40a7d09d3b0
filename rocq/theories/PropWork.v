(** * PropWork: property C100, with instances. *)

From Verif Require Import Base Text U12 Location Token Scanner Parser Directive Opcode Instruction DataRange Assembler
  IHex Main Work SpecLex SpecGrammar SpecOpcode SpecLayout SpecHex SpecUtf8 SpecTool SpecSize SpecImage SpecErase SpecCode SpecWrite SpecRefusal SpecRegex SpecWork
  BaseFacts LexProofs ScanProofs LexTheorems ParseProofs LayoutProofs EmitProofs PipelineProofs DataRangeProofs HexProofs OutputProofs TextProofs TextCode MainProofs SizeProofs WorkProofs IoProofs PropOutput PropText PropLayout PropSize.
Open Scope string_scope.
Open Scope list_scope.
Open Scope N_scope.

(** ** C100: how many steps it takes to assemble a text. *)

Definition bytes_of (s : str) : N := N.of_nat (length (utf8 s)).

(** The steps main.rs:52-82 take for the text [s]. *)
Definition steps_for (e : env) (file s : str) : N := snd (assemble_text_w e file s).

(** Counting changes no result. *)
Theorem C100_same : forall e file s, fst (assemble_text_w e file s) = assemble_text e file s.
Proof. exact assemble_text_same. Qed.
Print Assumptions C100_same.

(** What is counted for a search is what the pattern written in scanner.rs makes it look at. *)
Theorem C100_search :
  looks "^[^\S\n]+" look_whitespace /\ looks "^""(?:[^""\\]|\\.)*""" look_string /\ looks "^[\$\#][0-9a-fA-F]{1,3}" look_hex /\
  looks "^%[01\.]+" look_bin /\ looks "^[0-9]{1,}" look_decimal /\ looks "^[_a-zA-Z][_a-zA-Z0-9]{0,}" look_identifier.
Proof.
  split; [exact whitespace_looks|]. split; [exact string_looks|]. split; [exact hex_looks|]. split; [exact binary_looks|].
  split; [exact decimal_looks | exact identifier_looks].
Qed.
Print Assumptions C100_search.

(** Each part but the last takes steps in proportion to the text: scanning, ... *)
Theorem C100_scan : forall file s, snd (scan_w file s) <= 20 + 60 * N.of_nat (length s).
Proof. exact scan_cost. Qed.
Print Assumptions C100_scan.

(** ... parsing, ... *)
Lemma scanned_loads : forall file s ts, scan file s = Done ts -> loads ts <= 2 * bytes_of s.
Proof.
  intros file s ts E. apply scan_lexes in E. pose proof (lexes_weight _ _ _ _ E). pose proof (lexes_count _ _ _ _ E). pose proof (loads_weights ts).
  pose proof (utf8_long s). unfold bytes_of, amount in *. lia.
Qed.

Theorem C100_parse : forall file s ts, scan file s = Done ts -> snd (parse_w ts) <= 65 + 80 * bytes_of s.
Proof. intros file s ts E. pose proof (parse_cost ts). pose proof (scanned_loads file s ts E). lia. Qed.
Print Assumptions C100_parse.

(** ... and assembling. *)
Theorem C100_assemble : forall file s p, parsed file s p -> snd (assemble_w p) <= 8 + 360 * bytes_of s.
Proof.
  intros file s p (ts & E & P). pose proof (assemble_cost p (parsed_node_ok _ _ _ _ E P)). pose proof (scanned_loads file s ts E).
  apply parse_program in P. pose proof (program_load ts p P). lia.
Qed.
Print Assumptions C100_assemble.

(** Then every block is compared with every other.  There is no number of steps for each byte that is enough. *)
Lemma utf8_short : forall s, (length (utf8 s) <= 4 * length s)%nat.
Proof.
  induction s as [|c s IH]; [reflexivity|]. change (c :: s) with ([c] ++ s). rewrite utf8_app, !app_length.
  assert (length (utf8 [c]) <= 4)%nat.
  { unfold utf8. cbn [flat_map]. rewrite app_nil_r. unfold utf8_char. destruct (c <? 0x80); [cbn; lia|].
    destruct (c <? 0x800); [cbn; lia|]. destruct (c <? 0x10000); cbn; lia. }
  cbn [length]. lia.
Qed.

Theorem C100_refuted : forall a e file, exists s, a * (1 + bytes_of s) < steps_for e file s.
Proof.
  intros a e file. destruct (C75_overlaps_attained file (N.to_nat (30 * a + 30))) as (s & p & rs & L & (ts & E & P) & A & Ln & _).
  exists s. pose proof (utf8_short s) as U. unfold steps_for, assemble_text_w.
  pose proof (scan_same file s) as Sm. destruct (scan_w file s) as [x k]. cbn [fst] in Sm. subst x. rewrite E. cbn [afterwards].
  pose proof (parse_same_w ts) as Sm. destruct (parse_w ts) as [x k1]. cbn [fst] in Sm. subst x. rewrite P. cbn [afterwards].
  pose proof (assemble_same p) as Sm. destruct (assemble_w p) as [x k2]. cbn [fst] in Sm. subst x. rewrite A. cbn [afterwards].
  destruct (overlapping_cost rs) as [C _]. pose proof (overlapping_same rs) as Sm. destruct (find_overlapping_ranges_w rs) as [x k3]. cbn [fst snd] in *. subst x.
  cbn [afterwards]. assert (B : bytes_of s <= 76 * (30 * a + 30)) by (unfold bytes_of; lia).
  assert (D : 4 * (30 * a + 30) * (30 * a + 29) <= k3).
  { unfold amount in C. rewrite Ln, N2Nat.id in C. replace (30 * a + 30 - 1) with (30 * a + 29) in C by lia. exact C. }
  match goal with |- _ < snd (let '(r, n') := ?x in (r, k + n')) => destruct x as [r n] eqn:Q end. cbn [snd].
  assert (k3 <= n); [|nia]. revert Q. clear.
  match goal with |- context [if ?b then ?x else ?y] => generalize (if b then x else y) end.
  intros [r1 n1] Q. inversion Q. lia.
Qed.
Print Assumptions C100_refuted.

(** With [r] blocks, [r] times [r] is enough for the rest.  What is missing is the proportion: only texts with
    blocks are that slow. *)
Theorem C100_partial : forall e file s, Forall scalar s -> exists r,
  steps_for e file s <= 150 + 620 * bytes_of s + 10 * r * r /\ r <= bytes_of s /\
  (r <> 0 -> exists p rs, parsed file s p /\ assemble p = Done (Ok rs) /\ r = N.of_nat (length rs)).
Proof.
  intros e file s Sc. destruct (text_cost e file s Sc) as (r & L & B & H). exists r. split; [exact L|]. split; [exact B|].
  intros Ne. destruct (H Ne) as (ts & p & rs & E & P & A & R). exists p, rs. split; [exists ts; auto|]. auto.
Qed.
Print Assumptions C100_partial.

(** A text that is assembled has no more blocks than there are bytes in memory, and then there is such a number of
    steps; it is that of the blocks, for the most part. *)
Theorem C100_accepted : forall e file s text, Forall scalar s -> assemble_text e file s = Done (Ok text) ->
  steps_for e file s <= 150 + 41570 * bytes_of s.
Proof.
  intros e file s text Sc A. destruct (C100_partial e file s Sc) as (r & L & B & H).
  enough (r <= 4095) by nia. destruct (N.eq_dec r 0) as [->|Ne]; [lia|]. destruct (H Ne) as (p & rs & (ts & E & P) & As & ->).
  destruct (C75_bytes file s p rs (ex_intro _ ts (conj E P)) As) as [Nb _].
  assert (N0 : find_overlapping_ranges rs = []).
  { unfold assemble_text in A. rewrite E in A. cbn [bind] in A. rewrite P in A. cbn [bind] in A. rewrite As in A. cbn [bind] in A.
    destruct (find_overlapping_ranges rs) as [|x l]; [reflexivity|]. cbn [length Nat.ltb Nat.leb] in A.
    destruct (overlap_report e (x :: l)); discriminate A. }
  apply (assemble_ok _ _ (parsed_node_ok _ _ _ _ E P)) in As. destruct As as [W O]. destruct (memory_bounds p rs W O) as [M M'].
  apply no_overlap_nodup in N0; [|exact M']. pose proof (bytes_bound rs N0 M). lia.
Qed.
Print Assumptions C100_accepted.

(** The searches look beyond what they find by one character, or by the rest of a string that is not closed. *)
Example C100_instance_search :
  look_string (u """ab"" cd") = 5 /\ look_string (u """ab cd") = 7 /\ look_hex (u "$1234") = 5 /\ look_identifier (u "abc ") = 4 /\
  viable "^""(?:[^""\\]|\\.)*""" (u """ab cd") /\ ~ viable "^""(?:[^""\\]|\\.)*""" (u """ab"" ").
Proof.
  split; [reflexivity|]. split; [reflexivity|]. split; [reflexivity|]. split; [reflexivity|]. split.
  - apply (string_looks (u """ab cd") 6%nat); vm_compute; [repeat constructor | reflexivity].
  - intros V. apply (string_looks (u """ab"" ") 5%nat) in V; vm_compute in V |- *; [discriminate V | repeat constructor].
Qed.

(** One text, then twice and three times as much of it; and with a block for every line. *)
Definition straight (n : nat) : str := flat_map (fun _ => u "ld v0, 1" ++ nl) (repeat tt n).
Definition scattered_text (n : nat) : str := flat_map (fun _ => u ".org 0" ++ nl ++ u "cls" ++ nl) (repeat tt n).

Example C100_instance :
  map (fun n => steps_for sample_env (u "f") (straight n)) [1; 2; 3]%nat = [492; 894; 1296] /\
  map (fun n => steps_for sample_env (u "f") (scattered_text n)) [1; 2; 3]%nat = [579; 1004; 1522].
Proof. vm_compute. split; reflexivity. Qed.
