(** * PropData: property C84, with instances. *)

From Verif Require Import Base Text U12 Location Token Scanner Parser Directive Opcode Instruction DataRange Assembler IHex Main
  SpecLex SpecErase SpecCode SpecOpcode SpecRefusal SpecDisasm SpecInverse SpecLayout BaseFacts InverseProofs LayoutProofs EmitProofs
  LocalProofs PipelineProofs TextProofs PropOutput PropText PropRewrite PropConcat PropLocal PropConstant.
Open Scope string_scope.
Open Scope list_scope.
Open Scope N_scope.

(** ** C84: instructions are two bytes of data, and such data are instructions. *)

(** A '.db' of the two bytes of a word. *)
Definition as_data (l : loc) (id : str) (w : N) : node := NDirective l id [LNumeric (w / 256); LNumeric (w mod 256)].

Lemma as_data_bytes : forall look l id w, names id "DB" = true -> w < 65536 ->
  node_bytes look (as_data l id w) [w / 256; w mod 256].
Proof.
  intros look l id w N Lt. apply nb_db. apply (means_db id [LNumeric (w / 256); LNumeric (w mod 256)]); [exact N | discriminate|].
  constructor; [cbn [byte_literal]; lia|]. constructor; [cbn [byte_literal]; lia | constructor].
Qed.

Lemma as_data_size : forall l id w, names id "DB" = true -> size (as_data l id w) = 2.
Proof. intros l id w N. cbn [size as_data]. rewrite N. reflexivity. Qed.

(** Two statements of the same bytes may be exchanged. *)
Lemma exchange : forall a n n' b rs bs, Forall node_ok (a ++ n :: b) -> node_ok n' -> size n = size n' -> 0 < size n ->
  node_bytes (lookup (a ++ n :: b)) n bs -> node_bytes (lookup (a ++ n :: b)) n' bs ->
  assemble (a ++ n :: b) = Done (Ok rs) -> assemble (a ++ n' :: b) = Done (Ok rs).
Proof.
  intros a n n' b rs bs F O' S Pos B B' A.
  destruct (C64_bytes a n n' b rs bs F O' S Pos A B') as (before & s & d & bs2 & e & after & -> & A' & B2 & _).
  apply (assemble_ok _ _ F) in A. destruct A as [W _].
  assert (bs2 = bs); [|subst bs2; exact A'].
  apply (node_bytes_det (a ++ n :: b) n); [exact F | intros i x; apply violation_not_wf; exact W | | exact B2 | exact B].
  rewrite Forall_forall in F. apply F. apply in_or_app. right. left. reflexivity.
Qed.

(** An instruction may be written as a '.db', in every place and under every spelling of it. *)
Theorem C84_data : forall a l m fs b rs, Forall node_ok (a ++ NInstruction l m fs :: b) ->
  assemble (a ++ NInstruction l m fs :: b) = Done (Ok rs) ->
  exists w, w < 65536 /\ encodes (lookup (a ++ NInstruction l m fs :: b)) m fs w /\
    forall l' id, ascii id -> names id "DB" = true -> assemble (a ++ as_data l' id w :: b) = Done (Ok rs).
Proof.
  intros a l m fs b rs F A. pose proof (proj1 (assemble_ok _ _ F) A) as [W _].
  assert (I : In (NInstruction l m fs) (a ++ NInstruction l m fs :: b)) by (apply in_or_app; right; left; reflexivity).
  destruct (wf_instructions _ W _ _ _ I) as (w & E).
  assert (Fi : Forall field_ok fs) by (rewrite Forall_forall in F; exact (proj2 (F _ I))).
  destruct (encodes_read_back _ _ _ _ Fi E) as (p & n & os & R & M & Lt & _).
  exists w. split; [exact Lt|]. split; [exact E|]. intros l' id Ai N.
  apply (exchange a (NInstruction l m fs) (as_data l' id w) b rs [w / 256; w mod 256]);
    [exact F | exact Ai | rewrite as_data_size by exact N; reflexivity | reflexivity | | | exact A].
  - apply nb_instruction. exact E.
  - apply as_data_bytes; assumption.
Qed.
Print Assumptions C84_data.

(** And two bytes of data which are a word of the table may be written as an instruction. *)
Theorem C84_instruction : forall a l id w b rs, in_table w -> w < 65536 -> names id "DB" = true ->
  Forall node_ok (a ++ as_data l id w :: b) -> assemble (a ++ as_data l id w :: b) = Done (Ok rs) ->
  exists m fs, forall l', assemble (a ++ NInstruction l' m fs :: b) = Done (Ok rs).
Proof.
  intros a l id w b rs (p & n & os & I & M & Y) Lt N F A.
  pose proof (encodes_written (lookup (a ++ as_data l id w :: b)) w p n os Lt I M Y) as E.
  exists (u n), (map (written w) os). intros l'.
  apply (exchange a (as_data l id w) (NInstruction l' (u n) (map (written w) os)) b rs [w / 256; w mod 256]);
    [exact F | | rewrite as_data_size by exact N; reflexivity | rewrite as_data_size by exact N; reflexivity | | | exact A].
  - split; [|apply written_ok].
    assert (C : forallb (fun row => forallb (fun c => c <? 128) (u (snd (fst row)))) table = true) by (vm_compute; reflexivity).
    rewrite forallb_forall in C. specialize (C _ I). cbn [fst snd] in C. rewrite forallb_forall in C.
    apply Forall_forall. intros c Ic. apply N.ltb_lt, C, Ic.
  - apply as_data_bytes; assumption.
  - apply nb_instruction. exact E.
Qed.
Print Assumptions C84_instruction.

(** All the instructions of a program at once. *)
Definition is_instruction (n : node) : bool := match n with NInstruction _ _ _ => true | _ => false end.

Inductive instruction_as_data : node -> node -> Prop :=
| iad_same : forall n, is_instruction n = false -> instruction_as_data n n
| iad_data : forall l m fs l' w, instruction_as_data (NInstruction l m fs) (as_data l' (u "db") w).

Theorem C84_program : forall p rs, Forall node_ok p -> assemble p = Done (Ok rs) ->
  exists p', Forall2 instruction_as_data p p' /\ assemble p' = Done (Ok rs).
Proof.
  assert (X : forall p done rs, Forall node_ok (done ++ p) -> assemble (done ++ p) = Done (Ok rs) ->
    exists p', Forall2 instruction_as_data p p' /\ assemble (done ++ p') = Done (Ok rs)).
  { induction p as [|n p IH]; intros dn rs F A; [exists []; split; [constructor | exact A]|].
    assert (Y : exists n', instruction_as_data n n' /\ node_ok n' /\ assemble (dn ++ n' :: p) = Done (Ok rs)).
    { destruct (is_instruction n) eqn:In_.
      - destruct n as [| |l m fs]; try discriminate In_. destruct (C84_data dn l m fs p rs F A) as (w & Lt & _ & D).
        assert (Ad : ascii (u "db")) by (repeat constructor).
        exists (as_data l (u "db") w). split; [apply iad_data|]. split; [exact Ad|]. apply D; [exact Ad | reflexivity].
      - exists n. split; [apply iad_same; exact In_|]. split; [|exact A].
        rewrite Forall_forall in F. apply F. apply in_or_app. right. left. reflexivity. }
    destruct Y as (n' & D & O' & A'). destruct (IH (dn ++ [n']) rs) as (p' & F2 & A2).
    - apply Forall_app in F. destruct F as [F1 F2]. inversion F2; subst. rewrite <- app_assoc. apply Forall_app. split; [exact F1|].
      constructor; assumption.
    - rewrite <- app_assoc. exact A'.
    - exists (n' :: p'). split; [constructor; assumption|]. rewrite <- app_assoc in A2. exact A2. }
  intros p rs F A. exact (X p [] rs F A).
Qed.
Print Assumptions C84_program.

(** For texts, in any layout. *)
Theorem C84_text : forall e file file' s s' a l m fs b y text, parsed file s (a ++ NInstruction l m fs :: b) ->
  assemble_text e file s = Done (Ok text) ->
  exists w, w < 65536 /\ forall l' id, ascii id -> names id "DB" = true ->
    parsed file' s' y -> same_program y (a ++ as_data l' id w :: b) -> assemble_text e file' s' = Done (Ok text).
Proof.
  intros e file file' s s' a l m fs b y text P H. pose proof P as (ts & L & Pt). pose proof (parsed_node_ok _ _ _ _ L Pt) as O.
  pose proof H as H2. apply (text_ranges e _ _ _ _ P) in H2. destruct H2 as (rs & A & T).
  destruct (C84_data a l m fs b rs O A) as (w & Lt & _ & D). exists w. split; [exact Lt|].
  intros l' id Ai N P' S. apply (text_ranges e _ _ _ _ P'). exists rs. split; [|exact T].
  apply (assemble_same_ok _ _ _ (eq_sym S)). apply D; assumption.
Qed.
Print Assumptions C84_text.

(** A jump to a label, as data and back. *)
Definition jump_sample : list node := read_nodes (lines [".org $200"; "x: ld v0, 1"; "jp x"; ".db 9"]).

Example C84_instance :
  let a := firstn 3 jump_sample in let b := skipn 4 jump_sample in
  let n := nth 3 jump_sample (NLabel (mk_loc [] 0 0 0) []) in
  is_instruction n = true /\ jump_sample = a ++ n :: b /\
  assemble (a ++ n :: b) = Done (Ok [mk_range 0x200 [0x60; 0x01; 0x12; 0x00; 9]]) /\
  assemble (a ++ as_data (mk_loc [] 0 0 0) (u "Db") 0x1200 :: b) = Done (Ok [mk_range 0x200 [0x60; 0x01; 0x12; 0x00; 9]]) /\
  in_table 0x1200 /\
  assemble_text sample_env (u "in.s") (lines [".org $200"; "x: ld v0, 1"; "jp x"; ".db 9"]) =
  assemble_text sample_env (u "in.s") (lines [".org $200"; "x: ld v0, 1"; ".db $12, $00"; ".db 9"]).
Proof.
  cbv zeta. split; [vm_compute; reflexivity|]. split; [vm_compute; reflexivity|]. split; [vm_compute; reflexivity|].
  split; [vm_compute; reflexivity|]. split; [|vm_compute; reflexivity].
  exists "1nnn", "JP", ["addr"]. split; [apply (nth_error_In table 2); reflexivity|]. split; [vm_compute; reflexivity|].
  intros I. exfalso. revert I. vm_compute. intuition discriminate.
Qed.
