(** * PropLayout: properties C27-C35, with an instance of each. *)

From Verif Require Import Base Text U12 Location Token Scanner Parser Directive Opcode Instruction DataRange Assembler
  SpecLex SpecGrammar SpecOpcode SpecRefusal SpecLayout BaseFacts LexTheorems ParseProofs InstructionTheorems
  LayoutProofs EmitProofs PipelineProofs DataRangeProofs OutputProofs AddressProofs.
Open Scope N_scope.

Ltac evaluate := cbv zeta; repeat match goal with |- _ /\ _ => split end; try (vm_compute; reflexivity).

(** The program of a text, for the instances. *)
Definition nodes (s : str) : list node :=
  match scan (u "f") s with
  | Done ts => match parse ts with Done (Ok ns) => ns | _ => [] end
  | Crash _ => []
  end.

Lemma nodes_ok : forall s, Forall node_ok (nodes s).
Proof.
  intros s. unfold nodes. destruct (scan (u "f") s) as [ts|] eqn:S; [|constructor].
  destruct (parse ts) as [[ns|]|] eqn:P; try constructor. exact (parsed_node_ok _ _ _ _ S P).
Qed.

Definition nl : str := [LF].

(** Two sections, a forward reference, a constant. *)
Definition sample_program : list node := nodes (
  u "jp start" ++ nl ++
  u ".org $200" ++ nl ++
  u "five: .equ 5" ++ nl ++
  u "data: .db 1, ""ab""" ++ nl ++
  u "start:" ++ nl ++
  u "ld i, data" ++ nl ++
  u "ld v0, five" ++ nl).

Example sample_output :
  length sample_program = 9%nat /\
  assemble sample_program =
    Done (Ok [mk_range 0 [0x12; 0x03]; mk_range 0x200 [1; 97; 98; 0xA2; 0x00; 0x60; 0x05]]).
Proof. split; vm_compute; reflexivity. Qed.

(** ** C27: label values. *)
Theorem C27_table : forall p labels, Forall node_ok p -> define_labels p = Ok labels ->
  forall i l id, nth_error p i = Some (NLabel l id) ->
  label_get labels id = Some (
    match nth_error p (S i) with
    | Some n => match constant n with Some c => c | None => address p i end
    | None => address p i
    end).
Proof.
  intros p labels F D i l id H. pose proof (define_labels_spec p F) as S. rewrite D in S.
  destruct S as [NV LG]. rewrite LG. rewrite (lookup_at p i l id (nodup_violates p NV) H).
  f_equal. unfold label_value. generalize (address p i). clear. revert p. induction i as [|i IH]; intros [|a p] v; try reflexivity.
  - destruct p; reflexivity.
  - exact (IH p v).
Qed.
Print Assumptions C27_table.

(** The address of a statement: the last '.org' before it, and the sizes since. *)
Theorem C27_address : forall p i before since,
  (i <= length p)%nat -> firstn i p = before ++ since -> Forall (fun n => origin n = None) since ->
  (before = [] -> address p i = total_size since) /\
  (forall b o a, before = b ++ [o] -> origin o = Some a -> address p i = a + total_size since).
Proof. exact address_closed. Qed.
Print Assumptions C27_address.

Example C27_instance :
  (exists labels, define_labels sample_program = Ok labels /\
     label_get labels (u "five") = Some 5 /\ label_get labels (u "data") = Some 0x200 /\
     label_get labels (u "start") = Some 0x203) /\
  address sample_program 6 = 0x203.
Proof. split; [|vm_compute; reflexivity]. eexists. split; [|split; [|split]]; vm_compute; reflexivity. Qed.

(** ** C28: labels are defined once. *)
Theorem C28_redefinition : forall p i l id, Forall node_ok p ->
  nth_error p i = Some (NLabel l id) -> In id (labels_of (firstn i p)) ->
  (forall j e, (j < i)%nat -> ~ violates p j e) ->
  assemble p = Done (Err (RedefinitionOfLabel l id)).
Proof.
  intros p i l id F H I N. apply assemble_err; [exact F|]. left. exists i. split; [|exact N].
  apply violates_label; assumption.
Qed.
Print Assumptions C28_redefinition.

Theorem C28_accepted : forall p rs, Forall node_ok p -> assemble p = Done (Ok rs) ->
  NoDup (labels_of p) /\
  exists labels, define_labels p = Ok labels /\
    forall id, label_get labels id <> None <-> exists l, In (NLabel l id) p.
Proof.
  intros p rs F H. apply assemble_ok in H; [|exact F]. destruct H as [W O]. split; [apply W|].
  pose proof (define_labels_spec p F) as D. destruct (define_labels p) as [labels|e].
  - exists labels. split; [reflexivity|]. intros id. destruct D as [_ LG]. rewrite LG, lookup_defined.
    apply labels_of_in.
  - destruct D as (i & V & _). exfalso. exact (violation_not_wf _ _ _ W V).
Qed.
Print Assumptions C28_accepted.

Example C28_instance :
  let p := nodes (u "a: cls" ++ nl ++ u "b: ret" ++ nl ++ u "a: nop" ++ nl) in
  nth_error p 4 = Some (NLabel (mk_loc (u "f") 3 1 1) (u "a")) /\ In (u "a") (labels_of (firstn 4 p)) /\
  assemble p = Done (Err (RedefinitionOfLabel (mk_loc (u "f") 3 1 1) (u "a"))).
Proof. evaluate. vm_compute. left. reflexivity. Qed.

(** Nothing before it is wrong. *)
Example C28_instance_first :
  let p := nodes (u "a: cls" ++ nl ++ u "b: ret" ++ nl ++ u "a: nop" ++ nl) in
  Forall node_ok p /\ forall j e, (j < 4)%nat -> ~ violates p j e.
Proof.
  cbv zeta. split; [apply nodes_ok|]. pose proof (proj2 (proj2 C28_instance)) as A. cbv zeta in A.
  apply assemble_err in A; [|apply nodes_ok]. destruct A as [(i & V & N)|(_ & i & (l & m & fields & r & _ & _ & E) & _)]; [|discriminate E].
  inversion V as [| | | | |l id H I E]. subst l id. clear V I.
  destruct i as [|[|[|[|i]]]]; [vm_compute in H; discriminate H ..|]. intros j e L. apply N. lia.
Qed.

(** ** C29: acceptance. *)
Theorem C29_accepts : forall p, Forall node_ok p ->
  ((exists rs, assemble p = Done (Ok rs)) <-> well_formed p).
Proof. exact assemble_accepts. Qed.
Print Assumptions C29_accepts.

(** The programs which the scanner and parser produce are all covered. *)
Theorem C29_parsed : forall file s ts ns, scan file s = Done ts -> parse ts = Done (Ok ns) ->
  Forall node_ok ns.
Proof. exact parsed_node_ok. Qed.
Print Assumptions C29_parsed.

Example C29_instance :
  well_formed sample_program /\
  ~ well_formed (nodes (u ".equ 5" ++ nl)) /\
  ~ well_formed (nodes (u "jp nowhere" ++ nl)).
Proof.
  split; [|split].
  - apply C29_accepts; [apply nodes_ok|]. eexists. exact (proj2 sample_output).
  - intros W. apply C29_accepts in W; [|apply nodes_ok]. destruct W as (rs & E). vm_compute in E. discriminate.
  - intros W. apply C29_accepts in W; [|apply nodes_ok]. destruct W as (rs & E). vm_compute in E. discriminate.
Qed.

(** ** C30: the first error is reported. *)
Theorem C30_reported : forall p e, Forall node_ok p ->
  (assemble p = Done (Err e) <-> reported p e).
Proof. exact assemble_err. Qed.
Print Assumptions C30_reported.

(** The errors carry the location of their statement. *)
Definition node_location (n : node) : loc :=
  match n with NDirective l _ _ => l | NLabel l _ => l | NInstruction l _ _ => l end.
Definition error_location (e : semantic_error) : loc :=
  match e with
  | DirectiveInvalid l _ | DirectiveTooLarge l _ | DirectiveWouldOverflow l _ | InstructionWouldOverflow l
  | RedefinitionOfLabel l _ | AssemblyFailed l _ | ConstantWithoutLabel l => l
  end.

Theorem C30_location : forall p e, Forall node_ok p -> assemble p = Done (Err e) ->
  exists i n, nth_error p i = Some n /\ error_location e = node_location n /\
    (first (violates p) i e \/ first (unencodable p) i e).
Proof.
  intros p e F H. apply assemble_err in H; [|exact F]. destruct H as [(i & V)|(_ & i & U)].
  - exists i. pose proof V as V'. destruct V' as [V' _].
    destruct V' as [l id args e H R|l id args d H M S|l id args d H M S A|l id args c H M L|l m fs H A|l id H I];
      eexists; (split; [exact H|]); (split; [reflexivity | left; exact V]).
  - exists i. pose proof U as U'. destruct U' as [(l & m & fs & r & H & R & ->) _].
    eexists. split; [exact H|]. split; [reflexivity | right; exact U].
Qed.
Print Assumptions C30_location.

Example C30_instance :
  assemble (nodes (u "jp nowhere" ++ nl ++ u ".db 256" ++ nl ++ u ".org ""x""" ++ nl))
  = Done (Err (DirectiveInvalid (mk_loc (u "f") 2 2 2) (AllNumericParametersMustBeByteLiterals (u "db") 256))) /\
  assemble (nodes (u "cls" ++ nl ++ u "jp nowhere" ++ nl ++ u "ld v0" ++ nl))
  = Done (Err (AssemblyFailed (mk_loc (u "f") 2 1 2) (UnableToResolveLabel (u "nowhere")))).
Proof. split; vm_compute; reflexivity. Qed.

(** ** C31: assembly does not panic. *)
Theorem C31_total : forall p, Forall node_ok p ->
  (exists rs, assemble p = Done (Ok rs)) \/ (exists e, assemble p = Done (Err e)).
Proof. intros p F. destruct (assemble_spec p F) as [(rs & E & _)|(e & E & _)]; eauto. Qed.
Print Assumptions C31_total.

Example C31_instance : Forall node_ok sample_program.
Proof. apply nodes_ok. Qed.

(** ** C32: the memory image. *)
Theorem C32_output : forall p rs, Forall node_ok p ->
  (assemble p = Done (Ok rs) <-> well_formed p /\ output p rs).
Proof. exact assemble_ok. Qed.
Print Assumptions C32_output.

Theorem C32_image : forall p rs, Forall node_ok p -> assemble p = Done (Ok rs) ->
  exists bs, Forall2 (node_bytes (lookup p)) p bs /\
    memory rs = concat (map (fun i => place (address p i) (nth i bs [])) (seq 0 (length p))) /\
    Forall (fun r => dr_data r <> []) rs.
Proof. intros p rs F H. apply assemble_ok in H; [|exact F]. destruct H. apply memory_image; assumption. Qed.
Print Assumptions C32_image.

Example C32_instance : exists rs, assemble sample_program = Done (Ok rs) /\
  memory rs = [(0, 0x12); (1, 0x03); (0x200, 1); (0x201, 97); (0x202, 98); (0x203, 0xA2); (0x204, 0);
               (0x205, 0x60); (0x206, 5)].
Proof. eexists. split; [exact (proj2 sample_output) | vm_compute; reflexivity]. Qed.

(** ** C33: references land on the labelled statement. *)
Theorem C33_lands : forall p rs i l id k l' m fs j n,
  Forall node_ok p -> assemble p = Done (Ok rs) ->
  nth_error p i = Some (NLabel l id) ->
  (forall q, nth_error p (S i) = Some q -> constant q = None) ->
  nth_error p k = Some (NInstruction l' m fs) -> refers m fs id ->
  nothing_between p i j -> nth_error p j = Some n ->
  exists hi lo b,
    In (address p k, hi) (memory rs) /\ In (address p k + 1, lo) (memory rs) /\
    node_bytes (lookup p) n b /\
    forall off x, nth_error b off = Some x -> In ((256 * hi + lo) mod 4096 + N.of_nat off, x) (memory rs).
Proof.
  intros p rs i l id k l' m fs j n F H. apply assemble_ok in H; [|exact F]. destruct H.
  apply reference_lands; assumption.
Qed.
Print Assumptions C33_lands.

(** 'ld i, data', the label 'data' and its '.db'. *)
Example C33_instance :
  nth_error sample_program 4 = Some (NLabel (mk_loc (u "f") 4 1 4) (u "data")) /\
  nth_error sample_program 7 = Some (NInstruction (mk_loc (u "f") 6 1 2) (u "ld") [FIndex; FIdentifier (u "data")]) /\
  refers (u "ld") [FIndex; FIdentifier (u "data")] (u "data") /\
  nothing_between sample_program 4 5 /\
  nth_error sample_program 5 = Some (NDirective (mk_loc (u "f") 4 8 2) (u "db") [LNumeric 1; LString (u "ab")]).
Proof.
  evaluate; [constructor; reflexivity|].
  split; [lia|]. intros t n T H. assert (t = 4%nat) by lia. subst t. vm_compute in H. injection H as <-.
  split; reflexivity.
Qed.

(** ** C34: memory is not exceeded. *)
Theorem C34_bounds : forall p rs, Forall node_ok p -> assemble p = Done (Ok rs) ->
  Forall (fun x => fst x < 4095) (memory rs) /\
  Forall (fun r => dr_start r + range_len r <= 4095 /\
                   address_range r = (dr_start r, dr_start r + range_len r)) rs.
Proof.
  intros p rs F H. apply assemble_ok in H; [|exact F]. destruct H as [W O].
  destruct (memory_bounds p rs W O) as [M B]. split; [exact M|].
  eapply Forall_impl; [|exact B]. intros r L. cbn beta in L. split; [exact L|].
  unfold address_range, u12_wrapping_add, u12_unchecked_into. f_equal.
  rewrite (N.mod_small (range_len r)) by lia. rewrite N.mod_small by lia. reflexivity.
Qed.
Print Assumptions C34_bounds.

Example C34_instance :
  assemble (nodes (u ".org $FFD" ++ nl ++ u "cls" ++ nl)) = Done (Ok [mk_range 0xFFD [0; 0xE0]]).
Proof. vm_compute. reflexivity. Qed.

(** ** C35: using all of memory.

    The claim: overflow is reported only when a byte would lie beyond $FFF.  It fails
    at $FFF itself, which cannot be used. *)
Definition overflow (e : semantic_error) : bool :=
  match e with
  | DirectiveTooLarge _ _ | DirectiveWouldOverflow _ _ | InstructionWouldOverflow _ => true
  | _ => false
  end.

Definition C35_claim : Prop := forall p e, Forall node_ok p -> assemble p = Done (Err e) -> overflow e = true ->
  exists i n, nth_error p i = Some n /\ 0xFFF < address p i + size n - 1.

Theorem C35_refuted : exists p e, Forall node_ok p /\ assemble p = Done (Err e) /\ overflow e = true /\
  length p = 2%nat /\ forall i n, nth_error p i = Some n -> address p i + size n - 1 <= 0xFFF.
Proof.
  exists (nodes (u ".org $FFF" ++ nl ++ u ".db 1" ++ nl)). eexists. split; [apply nodes_ok|].
  split; [vm_compute; reflexivity|]. split; [vm_compute; reflexivity|]. split; [vm_compute; reflexivity|].
  intros i n H. destruct i as [|[|i]].
  - vm_compute in H. injection H as <-. vm_compute. discriminate.
  - vm_compute in H. injection H as <-. vm_compute. discriminate.
  - exfalso. vm_compute in H. destruct i; discriminate H.
Qed.
Print Assumptions C35_refuted.

Theorem C35_claim_refuted : ~ C35_claim.
Proof.
  intros C. destruct C35_refuted as (p & e & F & A & O & _ & B). destruct (C p e F A O) as (i & n & H & L).
  specialize (B i n H). lia.
Qed.
Print Assumptions C35_claim_refuted.

(** What holds: the last usable byte is $FFE. *)
Theorem C35_partial : forall p e, Forall node_ok p -> assemble p = Done (Err e) -> overflow e = true ->
  exists i n, nth_error p i = Some n /\ 0xFFF < address p i + size n.
Proof.
  intros p e F H O. apply assemble_err in H; [|exact F]. destruct H as [(i & V & _)|(_ & i & (l & m & fs & r & _ & _ & ->) & _)].
  2: discriminate.
  exists i. destruct V as [l id args e H R|l id args d H M S|l id args d H M S A|l id args c H M L|l m fs H A|l id H I];
    try discriminate; eexists; (split; [exact H|]); try lia. exact A.
Qed.
Print Assumptions C35_partial.
