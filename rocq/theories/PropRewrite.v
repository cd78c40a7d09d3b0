(** * PropRewrite: properties C50 to C54, with an instance of each. *)

From Verif Require Import Base Text U12 Location Token Scanner Parser Directive Opcode Instruction DataRange
  Assembler IHex Main SpecUtf8 SpecLex SpecGrammar SpecOpcode SpecRefusal SpecLayout SpecErase SpecCode SpecTool
  SpecMeta SpecNumeral SpecRewrite
  BaseFacts LayoutProofs EmitProofs MainProofs PropLayout PropOutput TextProofs TextCode PropText
  MetaProofs SectionProofs NumeralProofs RewriteProofs.
Open Scope string_scope.
Open Scope list_scope.
Open Scope N_scope.

(** ** C50: how a number is written does not matter. *)

Theorem C50_reading : forall file a m m' b v ts1 ts2 ts2', v <= 4095 -> writes v m -> writes v m' -> number_ends b ->
  cut_at file a (m ++ b) ts1 ts2 -> cut_at file a (m' ++ b) ts1 ts2' ->
  same_reading file (a ++ m ++ b) (a ++ m' ++ b).
Proof. intros *. rewrite !cut_boundary, alike_same. apply notation_same. Qed.
Print Assumptions C50_reading.

Theorem C50_output : forall e file a m m' b v ts1 ts2 ts2' text, v <= 4095 -> writes v m -> writes v m' -> number_ends b ->
  cut_at file a (m ++ b) ts1 ts2 -> cut_at file a (m' ++ b) ts1 ts2' ->
  Forall scalar (a ++ m ++ b) -> Forall scalar (a ++ m' ++ b) ->
  (assemble_text e file (a ++ m ++ b) = Done (Ok text) <-> assemble_text e file (a ++ m' ++ b) = Done (Ok text)).
Proof.
  intros e file a m m' b v ts1 ts2 ts2' text L W W' E B B' Sc Sc'. apply C15_output; [exact Sc | exact Sc'|].
  eapply C50_reading; eassumption.
Qed.
Print Assumptions C50_output.

Example C50_instance : exists ts1 ts2 ts3 ts4,
  writes 31 (u "$01f") /\ writes 31 (u "0031") /\ writes 31 (u "%.11111") /\ number_ends (lines [" ; x"]) /\
  cut_at (u "a.s") (u "ld v0,") (u "$01f" ++ lines [" ; x"]) ts1 ts2 /\
  cut_at (u "a.s") (u "ld v0,") (u "0031" ++ lines [" ; x"]) ts1 ts3 /\
  cut_at (u "a.s") (u "ld v0,") (u "%.11111" ++ lines [" ; x"]) ts1 ts4 /\
  assemble_text sample_env (u "a.s") (u "ld v0," ++ u "%.11111" ++ lines [" ; x"]) =
    Done (Ok (lines [":02000000601F7F"; ":00000001FF"])).
Proof.
  do 4 eexists.
  split; [apply (writes_hexadecimal 31 (c_ "$") (u "01f")); [reflexivity | cbn; lia | reflexivity | reflexivity]|].
  split; [apply writes_decimal; [discriminate | reflexivity | reflexivity]|].
  split; [apply (writes_binary 31 (u ".11111")); [discriminate | reflexivity | reflexivity]|].
  split; [reflexivity|].
  split; [unfold cut_at; split; [vm_compute; reflexivity | split; [vm_compute; reflexivity | reflexivity]]|].
  split; [unfold cut_at; split; [vm_compute; reflexivity | split; [vm_compute; reflexivity | reflexivity]]|].
  split; [unfold cut_at; split; [vm_compute; reflexivity | split; [vm_compute; reflexivity | reflexivity]]|].
  vm_compute. reflexivity.
Qed.

(** ** C51: labels may be replaced by their values. *)

(** The outcome is the same but for the operands listed in a message. *)
Theorem C51_outcome : forall p p', Forall node_ok p -> Forall2 (inlined (lookup p)) p p' ->
  operands_aside (assemble p') = operands_aside (assemble p).
Proof. exact assemble_inlined. Qed.
Print Assumptions C51_outcome.

Theorem C51_ranges : forall p p' rs, Forall node_ok p -> Forall2 (inlined (lookup p)) p p' ->
  (assemble p' = Done (Ok rs) <-> assemble p = Done (Ok rs)).
Proof.
  intros p p' rs O F. pose proof (C51_outcome p p' O F) as H. split; intros E; rewrite E in H; cbn [operands_aside] in H.
  - destruct (assemble p) as [[?|[]]|?]; cbn [operands_aside] in H; try discriminate; [|destruct reason; discriminate].
    injection H as <-. reflexivity.
  - destruct (assemble p') as [[?|[]]|?]; cbn [operands_aside] in H; try discriminate; [|destruct reason; discriminate].
    injection H as <-. reflexivity.
Qed.
Print Assumptions C51_ranges.

Definition with_labels : list node := nodes (u "five: .equ 5" ++ nl ++ u "top: ld v0, five" ++ nl ++ u "jp top" ++ nl ++ u "jp far" ++ nl ++ u "far: ret" ++ nl).
Definition with_values : list node := map (fun n => match n with
  | NInstruction l m [FRegister r; FIdentifier _] => NInstruction l m [FRegister r; FNumeric 5]
  | NInstruction l m [FIdentifier (102 :: _)] => NInstruction l m [FNumeric 6]
  | _ => n end) with_labels.

Example C51_instance : Forall node_ok with_labels /\ Forall2 (inlined (lookup with_labels)) with_labels with_values /\
  with_values <> with_labels /\
  assemble with_values = Done (Ok [mk_range 0 [0x60; 0x05; 0x10; 0x00; 0x10; 0x06; 0x00; 0xEE]]).
Proof.
  split; [apply nodes_ok|]. split; [|split; [vm_compute; discriminate | vm_compute; reflexivity]].
  assert (F : lookup with_labels (u "five") = Some 5) by (vm_compute; reflexivity).
  assert (R : lookup with_labels (u "far") = Some 6) by (vm_compute; reflexivity).
  revert F R. generalize (lookup with_labels). vm_compute. intros lk F R.
  repeat match goal with |- Forall2 (inlined _) (_ :: _) _ => constructor end; try apply inlined_same; [| | constructor].
  - apply inlined_operands. constructor; [apply replaced_same|]. constructor; [|constructor]. apply replaced_label. exact F.
  - apply inlined_operands. constructor; [|constructor]. apply replaced_label. exact R.
Qed.

(** ** C52: an '.org' to the next address changes nothing in memory. *)

(** [q] does not start with an '.equ', which belongs to a label before it. *)
Theorem C52_memory : forall p q l id, Forall node_ok p -> Forall node_ok q -> ascii id -> names id "ORG" = true ->
  (forall n r, q = n :: r -> constant n = None) ->
  same_memory (assemble (p ++ q)) (assemble (p ++ NDirective l id [LNumeric (address (p ++ q) (length p))] :: q)).
Proof. intros p q l id. rewrite address_here. apply assemble_here_same. Qed.
Print Assumptions C52_memory.

Example C52_instance : let p := firstn 6 PropLayout.sample_program in let q := skipn 6 PropLayout.sample_program in
  Forall node_ok p /\ Forall node_ok q /\ ascii (u "oRg") /\ names (u "oRg") "ORG" = true /\
  (forall n r, q = n :: r -> constant n = None) /\
  exists rs rs', assemble (p ++ q) = Done (Ok rs) /\
    assemble (p ++ NDirective (mk_loc (u "f") 1 1 1) (u "oRg") [LNumeric (address (p ++ q) (length p))] :: q) = Done (Ok rs') /\
    length rs' = S (length rs).
Proof.
  cbv zeta. assert (O : Forall node_ok PropLayout.sample_program) by apply nodes_ok.
  rewrite <- (firstn_skipn 6 PropLayout.sample_program) in O. apply Forall_app in O.
  split; [apply O|]. split; [apply O|]. split; [repeat constructor|]. split; [reflexivity|]. split.
  - vm_compute. intros n r E. injection E as <- <-. reflexivity.
  - do 2 eexists. split; [vm_compute; reflexivity|]. split; [vm_compute; reflexivity | reflexivity].
Qed.

(** ** C53: statements added at the end do not mend errors, but for labels not defined yet. *)

(** Errors of the first pass are reported unchanged. *)
Theorem C53_first : forall p q e, assemble p = Done (Err e) -> about_instruction e = false ->
  assemble (p ++ q) = Done (Err e).
Proof. exact first_pass_stable. Qed.
Print Assumptions C53_first.

Theorem C53_stuck : forall p q e, assemble p = Done (Err e) -> about_undefined e = false -> Forall node_ok q ->
  (forall n r, q = n :: r -> constant n = None) ->
  assemble (p ++ q) = Done (Err e) \/
  exists e', assemble (p ++ q) = Done (Err e') /\ about_instruction e' = false.
Proof. exact second_pass_stuck. Qed.
Print Assumptions C53_stuck.

(** Any beginning of an accepted program is accepted, or uses a label defined later. *)
Theorem C53_beginning : forall p q rs, Forall node_ok (p ++ q) -> (forall n r, q = n :: r -> constant n = None) ->
  assemble (p ++ q) = Done (Ok rs) ->
  (exists rs', assemble p = Done (Ok rs')) \/
  exists l id, assemble p = Done (Err (AssemblyFailed l (UnableToResolveLabel id))).
Proof.
  intros p q rs O C H. pose proof O as O'. apply Forall_app in O'. destruct O' as [Op Oq].
  destruct (assemble_spec p Op) as [(rs' & E & _)|(e & E & _)]; [left; eauto|]. right.
  destruct (about_undefined e) eqn:U.
  - destruct e; try discriminate. destruct reason; try discriminate. eauto.
  - exfalso. destruct (C53_stuck p q e E U Oq C) as [B|(e' & B & _)]; congruence.
Qed.
Print Assumptions C53_beginning.

Example C53_instance : let p := nodes (u "x: drw v0, v1, 16" ++ nl) in let q := nodes (u "y: jp x" ++ nl) in
  let p' := nodes (u "jp y" ++ nl) in let p'' := nodes (u "x: x: ret" ++ nl) in
  (exists e, assemble p = Done (Err e) /\ about_undefined e = false /\ assemble (p ++ q) = Done (Err e)) /\
  (exists e, assemble p'' = Done (Err e) /\ about_instruction e = false) /\
  Forall node_ok q /\ (forall n r, q = n :: r -> constant n = None) /\
  (exists e rs, assemble p' = Done (Err e) /\ about_undefined e = true /\
    assemble (p' ++ nodes (u "y: ret" ++ nl)) = Done (Ok rs)).
Proof.
  cbv zeta. split; [eexists; split; [vm_compute; reflexivity | split; [reflexivity | vm_compute; reflexivity]]|].
  split; [eexists; split; [vm_compute; reflexivity | reflexivity]|].
  split; [apply nodes_ok|]. split; [vm_compute; intros n r E; injection E as <- <-; reflexivity|].
  do 2 eexists. split; [vm_compute; reflexivity|]. split; [reflexivity | vm_compute; reflexivity].
Qed.

(** ** C54: the same for whole texts. *)

(** If one program is accepted with the ranges of another, texts for them give the same output. *)
Theorem C54_output : forall e file file' s s' p p' text, parsed file s p -> parsed file' s' p' ->
  (forall rs, assemble p = Done (Ok rs) -> assemble p' = Done (Ok rs)) ->
  assemble_text e file s = Done (Ok text) -> assemble_text e file' s' = Done (Ok text).
Proof.
  intros e file file' s s' p p' text (ts & L & P) (ts' & L' & P') H. unfold assemble_text.
  rewrite L, L'. cbn [bind]. rewrite P, P'. cbn [bind].
  destruct (assemble p) as [[rs|x]|c]; cbn [bind]; try discriminate.
  rewrite (H rs eq_refl). cbn [bind]. trivial.
Qed.
Print Assumptions C54_output.

Lemma changed_output : forall e file file' s s' p p' x text, parsed file s p -> parsed file' s' p' -> same_program p' x ->
  (forall rs, assemble x = Done (Ok rs) <-> assemble p = Done (Ok rs)) ->
  (assemble_text e file s = Done (Ok text) <-> assemble_text e file' s' = Done (Ok text)).
Proof.
  intros e file file' s s' p p' x text P P' S H. split.
  - apply (C54_output e _ _ _ _ p p' text P P'). intros rs A. apply H in A.
    eapply assemble_same_ok; [symmetry; exact S | exact A].
  - apply (C54_output e _ _ _ _ p' p text P' P). intros rs A. apply H. eapply assemble_same_ok; [exact S | exact A].
Qed.

(** The text [s'] is that of [s] with labels renamed, and laid out in any way. *)
Theorem C54_renamed : forall e file file' s s' p p' f text, parsed file s p -> parsed file' s' p' ->
  keeps_apart f p -> same_program p' (map (rename f) p) ->
  (assemble_text e file s = Done (Ok text) <-> assemble_text e file' s' = Done (Ok text)).
Proof.
  intros e file file' s s' p p' f text P P' K S. apply (changed_output e _ _ _ _ p p' _ text P P' S).
  intros rs. apply assemble_renamed. exact K.
Qed.
Print Assumptions C54_renamed.

(** With some labels replaced by their values. *)
Theorem C54_inlined : forall e file file' s s' p p' x text, parsed file s p -> parsed file' s' p' ->
  Forall2 (inlined (lookup p)) p x -> same_program p' x ->
  (assemble_text e file s = Done (Ok text) <-> assemble_text e file' s' = Done (Ok text)).
Proof.
  intros e file file' s s' p p' x text P P' K S. apply (changed_output e _ _ _ _ p p' _ text P P' S).
  intros rs. apply C51_ranges; [|exact K]. destruct P as (ts & L & P). exact (PipelineProofs.parsed_node_ok _ _ _ _ L P).
Qed.
Print Assumptions C54_inlined.

(** With a label nobody uses. *)
Theorem C54_unused : forall e file file' s s' p q p' l id text, parsed file s (p ++ q) -> parsed file' s' p' ->
  ~ mentioned (p ++ q) id -> (forall n r, q = n :: r -> constant n = None) -> same_program p' (p ++ NLabel l id :: q) ->
  (assemble_text e file s = Done (Ok text) <-> assemble_text e file' s' = Done (Ok text)).
Proof.
  intros e file file' s s' p q p' l id text P P' U C S. apply (changed_output e _ _ _ _ (p ++ q) p' _ text P P' S).
  destruct P as (ts & L & P). pose proof (PipelineProofs.parsed_node_ok _ _ _ _ L P) as O. apply Forall_app in O.
  intros rs. rewrite assemble_insert; [reflexivity | exact U | apply O | exact C].
Qed.
Print Assumptions C54_unused.

(** With the literals of a '.db' split over two. *)
Theorem C54_split : forall e file file' s s' p q p' l id a b l1 l2 text, parsed file s (p ++ NDirective l id (a ++ b) :: q) ->
  parsed file' s' p' -> names id "DB" = true -> a <> [] -> b <> [] ->
  same_program p' (p ++ NDirective l1 id a :: NDirective l2 id b :: q) ->
  (assemble_text e file s = Done (Ok text) <-> assemble_text e file' s' = Done (Ok text)).
Proof.
  intros e file file' s s' p q p' l id a b l1 l2 text P P' N Na Nb S.
  apply (changed_output e _ _ _ _ (p ++ NDirective l id (a ++ b) :: q) p' _ text P P' S).
  destruct P as (ts & L & P). pose proof (PipelineProofs.parsed_node_ok _ _ _ _ L P) as O. apply Forall_app in O.
  destruct O as [_ O]. inversion O as [|? ? A _]; subst. cbn [node_ok] in A.
  intros rs. apply assemble_split_db; assumption.
Qed.
Print Assumptions C54_split.

Definition text_one : str := lines ["a: .equ $0A"; "d: .db 1, 2"; "ld v0, a"; "ld i, d"].
Definition text_two : str := lines ["first:"; "  .equ 10 ; ten"; "second: .db 1,2"; "ld V0, first"; "ld I, second"].
Definition renaming (x : str) : str := if str_eqb x (u "a") then u "first" else u "second".
Definition text_one_hex : str := lines [":060000000102600AA000ED"; ":00000001FF"].

(** The syntax list of a text. *)
Definition listed (file s : str) : list node :=
  match scan file s with Done ts => match parse ts with Done (Ok p) => p | _ => [] end | _ => [] end.

Ltac listed := eexists; (split; [vm_compute; reflexivity | vm_compute; reflexivity]).

Example C54_instance :
  let p := listed (u "f") text_one in let p' := listed (u "g") text_two in
  parsed (u "f") text_one p /\ parsed (u "g") text_two p' /\ keeps_apart renaming p /\
  same_program p' (map (rename renaming) p) /\ length p' = 6%nat /\ ~ same_program p p' /\
  assemble_text sample_env (u "f") text_one = Done (Ok text_one_hex) /\
  assemble_text sample_env (u "g") text_two = Done (Ok text_one_hex).
Proof.
  split; [listed|]. split; [listed|]. split.
  - assert (M : forall x, mentioned (listed (u "f") text_one) x -> x = u "a" \/ x = u "d").
    { intros x (n & I & M). revert I M. vm_compute.
      intros I M. repeat (destruct I as [<-|I]; [try contradiction; try (subst x; auto; fail);
        repeat (destruct M as [M|M]; [try discriminate M; injection M as <-; auto|]); contradiction|]). contradiction. }
    intros x y X Y. destruct (M x X) as [Ex|Ex], (M y Y) as [Ey|Ey]; rewrite Ex, Ey; vm_compute; intros; congruence.
  - split; [vm_compute; reflexivity|]. split; [vm_compute; reflexivity|]. split; [vm_compute; discriminate|].
    split; vm_compute; reflexivity.
Qed.

(** The constant [a] in place as $0A, the label [d] as the address it is of. *)
Definition text_three : str := lines ["a: .equ 10"; "d: .db 1, 2"; "ld v0, $0A"; "ld i, 0"].

Example C54_instance_inlined :
  let p := listed (u "f") text_one in let p' := listed (u "g") text_three in
  parsed (u "f") text_one p /\ parsed (u "g") text_three p' /\
  (exists x, Forall2 (inlined (lookup p)) p x /\ same_program p' x) /\ ~ same_program p p' /\
  assemble_text sample_env (u "g") text_three = Done (Ok text_one_hex).
Proof.
  split; [listed|]. split; [listed|]. split; [|split; [vm_compute; discriminate | vm_compute; reflexivity]].
  assert (A : lookup (listed (u "f") text_one) (u "a") = Some 10) by (vm_compute; reflexivity).
  assert (B : lookup (listed (u "f") text_one) (u "d") = Some 0) by (vm_compute; reflexivity).
  generalize dependent (lookup (listed (u "f") text_one)). intros look A B.
  let p := eval vm_compute in (listed (u "f") text_one) in change (listed (u "f") text_one) with p.
  eexists. split.
  - repeat (apply Forall2_cons; [first
      [ apply inlined_operands; apply Forall2_cons; [apply replaced_same|];
        apply Forall2_cons; [apply replaced_label; first [exact A | exact B] | apply Forall2_nil]
      | apply inlined_same ]|]).
    apply Forall2_nil.
  - vm_compute. reflexivity.
Qed.

(** A label [unused] before the data. *)
Definition text_four : str := lines ["a: .equ $0A"; "unused: d: .db 1, 2"; "ld v0, a"; "ld i, d"].

Example C54_instance_unused :
  let p := firstn 2 (listed (u "f") text_one) in let q := skipn 2 (listed (u "f") text_one) in
  let p' := listed (u "g") text_four in
  parsed (u "f") text_one (p ++ q) /\ parsed (u "g") text_four p' /\ ~ mentioned (p ++ q) (u "unused") /\
  (forall n r, q = n :: r -> constant n = None) /\ same_program p' (p ++ NLabel nowhere (u "unused") :: q) /\
  length p = 2%nat /\ length q = 4%nat /\
  assemble_text sample_env (u "g") text_four = Done (Ok text_one_hex).
Proof.
  split; [listed|]. split; [listed|]. split.
  { rewrite firstn_skipn. intros (n & I & M). revert I M.
    let p := eval vm_compute in (listed (u "f") text_one) in change (listed (u "f") text_one) with p.
    vm_compute. intros I M. repeat (destruct I as [<-|I]; [try contradiction; try discriminate M;
      repeat (destruct M as [M|M]; [try discriminate M|]); contradiction|]). contradiction. }
  split; [intros n r E; vm_compute in E; injection E as <- _; reflexivity|].
  repeat split; vm_compute; reflexivity.
Qed.

(** The literals of the '.db' over two. *)
Definition text_five : str := lines ["a: .equ $0A"; "d: .db 1"; ".db 2"; "ld v0, a"; "ld i, d"].

Example C54_instance_split : exists p q l id a b p',
  parsed (u "f") text_one (p ++ NDirective l id (a ++ b) :: q) /\ parsed (u "g") text_five p' /\
  names id "DB" = true /\ a <> [] /\ b <> [] /\
  same_program p' (p ++ NDirective nowhere id a :: NDirective nowhere id b :: q) /\
  assemble_text sample_env (u "g") text_five = Done (Ok text_one_hex).
Proof.
  exists (firstn 3 (listed (u "f") text_one)), (skipn 4 (listed (u "f") text_one)).
  exists (mk_loc (u "f") 2 5 2). exists (u "db").
  exists [LNumeric 1]. exists [LNumeric 2]. exists (listed (u "g") text_five).
  split; [listed|]. split; [listed|]. split; [vm_compute; reflexivity|]. split; [discriminate|]. split; [discriminate|].
  split; vm_compute; reflexivity.
Qed.
