(** * PropSafe: property C98, with instances. *)

From Verif Require Import Base Text U12 Location Token Scanner Parser Directive Opcode Instruction DataRange
  Assembler IHex Main SpecUtf8 SpecLex SpecGrammar SpecOpcode SpecDisasm SpecLayout SpecHex SpecTool SpecErase BaseFacts
  LexProofs ParseProofs LayoutProofs EmitProofs AddressProofs PipelineProofs MainProofs PropLayout PropOutput SpecRun RunProofs
  PropRun SpecSafe SafeProofs GoldenTests.
Open Scope string_scope.
Open Scope list_scope.
Open Scope N_scope.

(** ** C98: contained programs stay among their instructions.

    [contained] is about the program only: whatever an instruction leads to is an instruction.
    The processor is any which goes where the README says. *)

(** A step from an instruction ends at an instruction. *)
Theorem C98_stays : forall P stack p rs s s', Forall node_ok p -> assemble p = Done (Ok rs) -> obedient P stack ->
  contained p -> safe P stack p (memory rs) s -> ~ leaving P stack s -> machine_step P s s' ->
  code_loaded P p (memory rs) s' -> safe P stack p (memory rs) s'.
Proof. intros P stack p rs s s' F H. apply assemble_ok in H; [|exact F]. destruct H. apply safe_step; assumption. Qed.
Print Assumptions C98_stays.

(** At every step there is an instruction to execute. *)
Theorem C98_goes : forall P stack p rs s, Forall node_ok p -> assemble p = Done (Ok rs) ->
  safe P stack p (memory rs) s -> exists s', machine_step P s s' /\ forall s'', machine_step P s s'' -> s'' = s'.
Proof.
  intros P stack p rs s F H (L & At & _). apply assemble_ok in H; [|exact F]. destruct H.
  apply (code_goes P p rs); assumption.
Qed.
Print Assumptions C98_goes.

(** So the processor runs the program that was written, for as long as it does not write over
    its instructions, and until it returns from where it was not called. *)
Theorem C98_runs : forall P stack p rs s s', Forall node_ok p -> assemble p = Done (Ok rs) -> obedient P stack ->
  contained p -> safe P stack p (memory rs) s ->
  runs (machine_step P) (fun s => ~ leaving P stack s /\ spares P p (memory rs) s) s s' ->
  safe P stack p (memory rs) s' /\ runs (program_step P p) (safe P stack p (memory rs)) s s'.
Proof.
  intros P stack p rs s s' F H Ob C Sf R. apply assemble_ok in H; [|exact F]. destruct H.
  apply (safe_runs P stack p rs F); assumption.
Qed.
Print Assumptions C98_runs.

(** Programs which store nothing do not write over their instructions. *)
Theorem C98_harmless : forall P stack p rs s s', Forall node_ok p -> assemble p = Done (Ok rs) -> obedient P stack ->
  contained p -> harmless p -> safe P stack p (memory rs) s ->
  runs (machine_step P) (fun s => ~ leaving P stack s) s s' ->
  safe P stack p (memory rs) s' /\ runs (program_step P p) (safe P stack p (memory rs)) s s'.
Proof.
  intros P stack p rs s s' F H Ob C Hm Sf R. pose proof H as H'. apply assemble_ok in H'; [|exact F]. destruct H' as [W O].
  induction R as [s|s s' s'' Nl M R IH]; [split; [exact Sf | constructor]|].
  destruct Sf as (L & At & St). pose proof (harmless_spares P stack p rs s F W O Ob Hm L At) as Sp.
  assert (Sf : safe P stack p (memory rs) s) by (split; [exact L | split; assumption]).
  pose proof (C98_stays P stack p rs s s' F H Ob C Sf Nl M (Sp s' M)) as Sf'.
  destruct (IH Sf') as [S2 R2]. split; [exact S2|]. econstructor; [exact Sf | | exact R2].
  apply (code_step P p rs s s' F W O L At). exact M.
Qed.
Print Assumptions C98_harmless.

(** Both can be computed. *)
Theorem C98_check : forall p, (contained_check p = true <-> contained p) /\ (harmless_check p = true <-> harmless p).
Proof. intros p. split; [apply check_spec | apply harmless_spec]. Qed.
Print Assumptions C98_check.

(** From the source file to the processor. *)
Theorem C98_tool : forall e f input output s rs, asks e input output ->
  reads e f input s -> compiles input s rs -> output <> u "-" ->
  e_create_error e = None -> e_write_error e = None ->
  exists p text image, stands_for input s p /\ main e f = Done (mk_outcome [] 0 (fs_set f output text)) /\
    read_hex text = Some image /\
    (contained p -> harmless p -> forall P stack, obedient P stack -> forall st st',
       loaded P image st -> instruction_at p (pc P st) -> stack st = [] ->
       runs (machine_step P) (fun st => ~ leaving P stack st) st st' ->
       instruction_at p (pc P st') /\ runs (program_step P p) (fun _ => True) st st').
Proof.
  intros e f input output s rs A R C D Ec Ew.
  destruct (C42_file e f input output s rs A R C D Ec Ew) as (text & _ & L & M).
  destruct C as (ts & p & Lx & G & W & O & _). exists p, text, (memory rs).
  split; [exists ts; split; assumption|]. split; [exact M|]. split; [exact L|].
  pose proof (program_node_ok ts p G (lexes_token_ok _ _ _ _ Lx)) as F.
  intros Cp Hp P stack Ob st st' Ld At E Rn.
  assert (H : assemble p = Done (Ok rs)) by (apply assemble_ok; [exact F | split; assumption]).
  destruct (C98_harmless P stack p rs st st' F H Ob Cp Hp) as [(_ & At' & _) Rp]; [|exact Rn|].
  - split; [apply loaded_code; exact Ld|]. split; [exact At|]. rewrite E. constructor.
  - split; [exact At'|]. revert Rp. apply runs_mono; auto.
Qed.
Print Assumptions C98_tool.

(** What comes next, if nothing that takes space or moves the address is in between. *)
Theorem C98_next : forall p k l m fields j l' m' fields',
  nth_error p k = Some (NInstruction l m fields) -> nth_error p j = Some (NInstruction l' m' fields') ->
  nothing_between p (S k) j -> instruction_at p (address p k + 2).
Proof. exact instruction_after. Qed.
Print Assumptions C98_next.

(** A label before an instruction is a place to jump to. *)
Theorem C98_label : forall p rs i l id j l' m fields, Forall node_ok p -> assemble p = Done (Ok rs) ->
  nth_error p i = Some (NLabel l id) -> (forall q, nth_error p (S i) = Some q -> constant q = None) ->
  nth_error p j = Some (NInstruction l' m fields) -> nothing_between p i j ->
  exists a, lookup p id = Some a /\ instruction_at p a.
Proof.
  intros p rs i l id j l' m fields F H. apply assemble_ok in H; [|exact F]. destruct H as [W _].
  apply instruction_labelled. exact (wf_labels p W).
Qed.
Print Assumptions C98_label.

(** ** Nothing less will do *)

(** A processor which does nothing else than going where instructions lead. *)
Record walker : Type := mk_walker { w_pc : N; w_stack : list N; w_skips : bool; w_mem : N -> byte }.

Definition walk (i : meaning) (s : walker) : walker :=
  match flow_of i with
  | Onward | Waiting => mk_walker (w_pc s + 2) (w_stack s) (w_skips s) (w_mem s)
  | Skipping => mk_walker (if w_skips s then w_pc s + 4 else w_pc s + 2) (w_stack s) (w_skips s) (w_mem s)
  | Jumping a => mk_walker a (w_stack s) (w_skips s) (w_mem s)
  | Calling a => mk_walker a (w_pc s + 2 :: w_stack s) (w_skips s) (w_mem s)
  | Returning =>
      match w_stack s with
      | a :: rest => mk_walker a rest (w_skips s) (w_mem s)
      | [] => mk_walker 0xFFFF [] (w_skips s) (w_mem s)
      end
  | Elsewhere => mk_walker 0xFFFF (w_stack s) (w_skips s) (w_mem s)
  end.

Definition walking : processor := mk_processor walker w_pc w_mem walk.

Lemma walking_obeys : obedient walking w_stack.
Proof.
  split.
  - intros i s. cbn [pc exec walking]. unfold walk. destruct (flow_of i); cbn [w_pc w_stack]; auto.
    + intros _. destruct (w_skips s); auto.
    + intros a rest ->. cbn [w_pc w_stack]. auto.
  - intros i s _ a. cbn [mem exec walking]. unfold walk. destruct (flow_of i); try reflexivity. destruct (w_stack s); reflexivity.
Qed.

(** Some memory with [image] in it. *)
Definition memory_with (image : list (N * byte)) (a : N) : byte :=
  match List.find (fun ab => fst ab =? a) image with Some ab => snd ab | None => 0 end.

Lemma memory_with_in : forall image a b, NoDup (map fst image) -> In (a, b) image -> memory_with image a = b.
Proof.
  induction image as [|[a' b'] image IH]; intros a b D I0; [destruct I0|]. destruct I0 as [E|I].
  - injection E as -> ->. unfold memory_with. cbn [List.find fst]. rewrite N.eqb_refl. reflexivity.
  - inversion D as [|? ? Ni D']; subst. specialize (IH a b D' I). unfold memory_with in *. cbn [List.find fst].
    destruct (a' =? a) eqn:E; [|exact IH]. apply N.eqb_eq in E. subst a'. exfalso. apply Ni.
    apply in_map_iff. exists (a, b). auto.
Qed.

(** The programs that stay among their instructions on every processor are the contained ones. *)
Theorem C98_exact : forall p rs, Forall node_ok p -> assemble p = Done (Ok rs) -> NoDup (map fst (memory rs)) ->
  (contained p <-> forall P stack, obedient P stack -> forall s s', safe P stack p (memory rs) s ->
     ~ leaving P stack s -> machine_step P s s' -> code_loaded P p (memory rs) s' -> safe P stack p (memory rs) s').
Proof.
  intros p rs F H D. split; [intros C P stack Ob s s' Sf Nl M L; apply (C98_stays P stack p rs s s'); assumption|].
  intros G k l m fields i N Si. pose proof H as H'. apply assemble_ok in H'; [|exact F]. destruct H' as [W O].
  set (at_k := fun c => mk_walker (address p k) [] c (memory_with (memory rs))).
  assert (At : instruction_at p (address p k)) by (exists k, l, m, fields; auto).
  assert (L : forall s : walker, w_mem s = memory_with (memory rs) -> code_loaded walking p (memory rs) s).
  { intros s E a b I _. cbn [mem walking]. rewrite E. apply memory_with_in; assumption. }
  assert (Wd : forall c, word_says (256 * mem walking (at_k c) (pc walking (at_k c)) + mem walking (at_k c) (pc walking (at_k c) + 1)) i
    /\ forall i', word_says (256 * mem walking (at_k c) (pc walking (at_k c)) + mem walking (at_k c) (pc walking (at_k c) + 1)) i' -> i' = i).
  { intros c. destruct (word_there walking p rs (at_k c) k l m fields F W O (L (at_k c) eq_refl) N eq_refl) as (w & i' & Lt & E & Si' & Wi).
    rewrite E, (statement_says_one _ _ _ _ _ Si Si'). split; [exact Wi|]. intros i'' Wi''. apply (word_says_one w); assumption. }
  assert (Gc : flow_of i <> Returning -> forall c, safe walking w_stack p (memory rs) (walk i (at_k c))).
  { intros Nr c. apply (G walking w_stack walking_obeys (at_k c)).
    - split; [apply L; reflexivity|]. split; [exact At | constructor].
    - intros [_ (i' & Wi' & R)]. apply Nr. rewrite <- (proj2 (Wd c) i' Wi'). exact R.
    - exists i. split; [apply Wd | reflexivity].
    - apply L. unfold walk. destruct (flow_of i); reflexivity. }
  unfold leads, walk in *. destruct (flow_of i) eqn:Fl.
  - exact (proj1 (proj2 (Gc ltac:(discriminate) true))).
  - exact (proj1 (proj2 (Gc ltac:(discriminate) true))).
  - split; [exact (proj1 (proj2 (Gc ltac:(discriminate) false))) | exact (proj1 (proj2 (Gc ltac:(discriminate) true)))].
  - exact (proj1 (proj2 (Gc ltac:(discriminate) true))).
  - destruct (Gc ltac:(discriminate) true) as (_ & A & St). cbn [w_pc w_stack pc walking at_k] in *. inversion St; subst. auto.
  - exact Logic.I.
  - destruct (Gc ltac:(discriminate) true) as (_ & A & _). apply (instruction_space p _ W) in A. cbn [pc walking w_pc] in A. lia.
Qed.
Print Assumptions C98_exact.

(** ** Instances *)

(** A processor with registers, timers left out, as the README describes it and without use of
    [flow_of] and [stores]. *)
Record chip : Type := mk_chip { c_pc : N; c_stack : list N; c_i : N; c_v : N -> N; c_key : option N; c_mem : N -> byte }.

Definition set {A : Type} (f : N -> A) (x : N) (v : A) : N -> A := fun y => if y =? x then v else f y.

Definition at_pc (s : chip) (a : N) : chip := mk_chip a (c_stack s) (c_i s) (c_v s) (c_key s) (c_mem s).
Definition next (s : chip) : chip := at_pc s ((c_pc s + 2) mod 4096).
Definition skip_if (b : bool) (s : chip) : chip := if b then at_pc s ((c_pc s + 4) mod 4096) else next s.
Definition set_v (s : chip) (x v : N) : chip := mk_chip (c_pc s) (c_stack s) (c_i s) (set (c_v s) x v) (c_key s) (c_mem s).
Definition set_i (s : chip) (a : N) : chip := mk_chip (c_pc s) (c_stack s) a (c_v s) (c_key s) (c_mem s).
Definition set_mem (s : chip) (m : N -> byte) : chip := mk_chip (c_pc s) (c_stack s) (c_i s) (c_v s) (c_key s) m.

Definition compare (s : chip) (os : list operand) : bool :=
  match os with
  | [Register x; Number n] => c_v s x =? n
  | [Register x; Register y] => c_v s x =? c_v s y
  | _ => false
  end.

Definition pressed (s : chip) (os : list operand) : bool :=
  match os, c_key s with [Register x], Some k => c_v s x =? k | _, _ => false end.

Definition bcd (s : chip) (x : N) : N -> byte :=
  set (set (set (c_mem s) (c_i s) (c_v s x / 100)) (c_i s + 1) (c_v s x / 10 mod 10)) (c_i s + 2) (c_v s x mod 10).

Definition chip_load (os : list operand) (s : chip) : chip :=
  match os with
  | [Register x; Number n] => next (set_v s x n)
  | [Register x; Register y] => next (set_v s x (c_v s y))
  | [Register x; Fixed k] =>
      if String.eqb k "K" then match c_key s with Some key => next (set_v s x key) | None => s end
      else if String.eqb k "[I]" then
        next (mk_chip (c_pc s) (c_stack s) (c_i s) (fun y => if y <=? x then c_mem s (c_i s + y) else c_v s y) (c_key s) (c_mem s))
      else next s
  | [Fixed o; Number a] => next (set_i s a)
  | [Fixed o; Register x] =>
      if String.eqb o "B" then next (set_mem s (bcd s x))
      else if String.eqb o "[I]" then
        next (set_mem s (fun a => if (c_i s <=? a) && (a <=? c_i s + x) then c_v s (a - c_i s) else c_mem s a))
      else next s
  | _ => next s
  end.

Definition chip_exec (i : meaning) (s : chip) : chip :=
  let '(name, os) := i in
  if String.eqb name "JP" then
    match os with
    | [Number a] => at_pc s a
    | [_; Number a] => at_pc s ((a + c_v s 0) mod 4096)
    | _ => next s
    end
  else if String.eqb name "CALL" then
    match os with
    | [Number a] => mk_chip a (c_pc s + 2 :: c_stack s) (c_i s) (c_v s) (c_key s) (c_mem s)
    | _ => next s
    end
  else if String.eqb name "RET" then
    match c_stack s with
    | a :: rest => mk_chip a rest (c_i s) (c_v s) (c_key s) (c_mem s)
    | [] => s
    end
  else if String.eqb name "SE" then skip_if (compare s os) s
  else if String.eqb name "SNE" then skip_if (negb (compare s os)) s
  else if String.eqb name "SKP" then skip_if (pressed s os) s
  else if String.eqb name "SKNP" then skip_if (negb (pressed s os)) s
  else if String.eqb name "TRAP" then at_pc s 0
  else if String.eqb name "LD" then chip_load os s
  else if String.eqb name "ADD" then
    match os with
    | [Register x; Number n] => next (set_v s x ((c_v s x + n) mod 256))
    | [Register x; Register y] => next (set_v s x ((c_v s x + c_v s y) mod 256))
    | [_; Register x] => next (set_i s (c_i s + c_v s x))
    | _ => next s
    end
  else next s.

Definition chip_processor : processor := mk_processor chip c_pc c_mem chip_exec.

Lemma skip_if_goes : forall b s, c_pc s + 4 < 4096 ->
  (c_pc (skip_if b s) = c_pc s + 2 \/ c_pc (skip_if b s) = c_pc s + 4) /\ c_stack (skip_if b s) = c_stack s.
Proof.
  intros b s L. unfold skip_if, next, at_pc. destruct b; cbn [c_pc c_stack]; rewrite N.mod_small by lia; auto.
Qed.

Lemma skip_if_keeps : forall b s a, c_mem (skip_if b s) a = c_mem s a.
Proof. intros [] s a; reflexivity. Qed.

Lemma next_goes : forall s s', c_pc s + 2 < 4096 -> c_pc s' = c_pc s -> c_stack s' = c_stack s ->
  c_pc (next s') = c_pc s + 2 /\ c_stack (next s') = c_stack s.
Proof. intros s s' L E E'. unfold next, at_pc. cbn [c_pc c_stack]. rewrite E, N.mod_small by exact L. auto. Qed.

Lemma load_flow : forall os, flow_of ("LD", os) = Onward \/ flow_of ("LD", os) = Waiting.
Proof.
  intros os. cbn [flow_of existsb String.eqb Ascii.eqb Bool.eqb orb]. destruct os as [|x [|[y|w|k] [|z os]]]; auto.
  destruct (String.eqb k "K"); auto.
Qed.

Lemma load_goes : forall os s, c_pc s + 2 < 4096 ->
  match flow_of ("LD", os) with
  | Onward => c_pc (chip_load os s) = c_pc s + 2 /\ c_stack (chip_load os s) = c_stack s
  | Waiting => (c_pc (chip_load os s) = c_pc s \/ c_pc (chip_load os s) = c_pc s + 2) /\ c_stack (chip_load os s) = c_stack s
  | _ => False
  end.
Proof.
  intros os s L. cbn [flow_of existsb String.eqb Ascii.eqb Bool.eqb orb].
  destruct os as [|[x|v|o] [|[y|w|k] [|z os]]]; cbn [chip_load];
    try (apply next_goes; [exact L | reflexivity | reflexivity]);
    try (destruct (String.eqb k "K"); [|try destruct (String.eqb k "[I]"); apply next_goes; (exact L || reflexivity)]).
  - destruct (c_key s); [|auto]. destruct (next_goes s (set_v s x n) L eq_refl eq_refl) as [-> ->]. auto.
  - destruct (next_goes s s L eq_refl eq_refl) as [-> ->]. auto.
  - destruct (String.eqb o "B"); [|destruct (String.eqb o "[I]")]; apply next_goes; (exact L || reflexivity).
  - destruct (next_goes s s L eq_refl eq_refl) as [-> ->]. auto.
Qed.

(** It obeys. *)
Theorem C98_chip : obedient chip_processor c_stack.
Proof.
  split.
  - intros [name os] s. cbn [pc exec chip_processor chip_exec].
    destruct (String.eqb name "JP") eqn:E1; [apply String.eqb_eq in E1; subst name|].
    { cbn [flow_of existsb String.eqb Ascii.eqb Bool.eqb orb]. destruct os as [|[] [|[] []]]; cbn; auto. }
    destruct (String.eqb name "CALL") eqn:E2; [apply String.eqb_eq in E2; subst name|].
    { cbn [flow_of existsb String.eqb Ascii.eqb Bool.eqb orb]. destruct os as [|[] []]; cbn; auto. }
    destruct (String.eqb name "RET") eqn:E3; [apply String.eqb_eq in E3; subst name|].
    { cbn [flow_of existsb String.eqb Ascii.eqb Bool.eqb orb]. intros a rest ->. auto. }
    destruct (String.eqb name "SE") eqn:E4; [apply String.eqb_eq in E4; subst name; exact (skip_if_goes _ s)|].
    destruct (String.eqb name "SNE") eqn:E5; [apply String.eqb_eq in E5; subst name; exact (skip_if_goes _ s)|].
    destruct (String.eqb name "SKP") eqn:E6; [apply String.eqb_eq in E6; subst name; exact (skip_if_goes _ s)|].
    destruct (String.eqb name "SKNP") eqn:E7; [apply String.eqb_eq in E7; subst name; exact (skip_if_goes _ s)|].
    destruct (String.eqb name "TRAP") eqn:E8; [apply String.eqb_eq in E8; subst name; exact Logic.I|].
    destruct (String.eqb name "LD") eqn:E9; [apply String.eqb_eq in E9; subst name|].
    { pose proof (load_goes os s) as G. destruct (load_flow os) as [Fl|Fl]; rewrite Fl in *; exact G. }
    cbn [flow_of existsb]. rewrite E1, E2, E3, E4, E5, E6, E7, E8, E9. cbn [orb].
    destruct (String.eqb name "TRAPRET"); [exact Logic.I|]. cbn [orb]. intros L.
    destruct (String.eqb name "ADD"); [|apply next_goes; (exact L || reflexivity)].
    destruct os as [|[x|v|o] [|[y|w|k] [|z os]]]; apply next_goes; (exact L || reflexivity).
  - intros [name os] s Z a. cbn [mem exec chip_processor chip_exec].
    destruct (String.eqb name "JP"); [destruct os as [|[] [|[] []]]; reflexivity|].
    destruct (String.eqb name "CALL"); [destruct os as [|[] []]; reflexivity|].
    destruct (String.eqb name "RET"); [destruct (c_stack s); reflexivity|].
    do 4 (match goal with |- c_mem (if ?b then _ else _) a = _ => destruct b; [apply skip_if_keeps|] end).
    destruct (String.eqb name "TRAP"); [reflexivity|].
    destruct (String.eqb name "LD") eqn:E9.
    + destruct os as [|[x|v|o] [|[y|w|k] [|z os]]]; cbn [chip_load]; try reflexivity.
      * destruct (String.eqb k "K"); [destruct (c_key s); reflexivity|]. destruct (String.eqb k "[I]"); reflexivity.
      * unfold stores in Z. rewrite E9 in Z. cbn [existsb andb] in Z. destruct (String.eqb o "B"); [discriminate Z|].
        cbn [orb] in Z. destruct (String.eqb o "[I]"); [discriminate Z | reflexivity].
    + destruct (String.eqb name "ADD"); [destruct os as [|[x|v|o] [|[y|w|k] [|z os]]]; reflexivity | reflexivity].
Qed.
Print Assumptions C98_chip.

(** A loop, a subroutine, and data. *)
Definition calling_text : str :=
  (u ".org $200" ++ nl ++ u "main: ld v0, 2" ++ nl ++ u "again: call less" ++ nl ++ u "se v0, 0" ++ nl ++ u "jp again" ++ nl ++
   u "stop: jp stop" ++ nl ++ u "less: add v0, 255" ++ nl ++ u "ret" ++ nl ++ u "text: .db ""ab""" ++ nl).

Definition calling : list node := Eval vm_compute in nodes calling_text.

Lemma calling_read : calling = nodes calling_text.
Proof. vm_compute. reflexivity. Qed.

(** The same, without the end of the loop. *)
Definition falling : list node := Eval vm_compute in nodes
  (u ".org $200" ++ nl ++ u "main: ld v0, 2" ++ nl ++ u "again: call less" ++ nl ++ u "se v0, 0" ++ nl ++ u "jp again" ++ nl ++
   u "text: .db ""ab""" ++ nl ++ u "less: add v0, 255" ++ nl ++ u "ret" ++ nl).

Example C98_instance : Forall node_ok calling /\ (exists rs, assemble calling = Done (Ok rs)) /\ contained calling /\ harmless calling /\
  forall rs, assemble calling = Done (Ok rs) -> NoDup (map fst (memory rs)) ->
    safe chip_processor c_stack calling (memory rs) (mk_chip 0x200 [] 0 (fun _ => 0) None (memory_with (memory rs))) /\
    ~ leaving chip_processor c_stack (mk_chip 0x200 [] 0 (fun _ => 0) None (memory_with (memory rs))).
Proof.
  split; [rewrite calling_read; apply nodes_ok|]. split; [eexists; vm_compute; reflexivity|].
  split; [apply check_spec; vm_compute; reflexivity|]. split.
  - apply harmless_spec. vm_compute. reflexivity.
  - intros rs H D. split.
    + split; [|split; [|constructor]].
      * intros a b I _. apply memory_with_in; assumption.
      * apply instruction_there. vm_compute. reflexivity.
    + intros [_ (i & (p & n & cs & I & M & ->) & Fl)]. revert M Fl.
      assert (E : exists rs', assemble calling = Done (Ok rs') /\
        256 * memory_with (memory rs') 0x200 + memory_with (memory rs') 0x201 = 0x6002) by (eexists; split; vm_compute; reflexivity).
      destruct E as (rs' & E & Wd). assert (rs' = rs) by congruence. subst rs'.
      cbn [mem pc chip_processor c_pc c_mem]. change (0x200 + 1) with 0x201. rewrite Wd. intros M Fl.
      assert (X : word_says 0x6002 ("LD", [Register 0; Number 2])).
      { exists "6xkk", "LD", ["Vx"; "nn"]. split; [apply (nth_error_In table 7); reflexivity|]. split; vm_compute; auto. }
      assert (Y : word_says 0x6002 (n, map (operand_in 0x6002) cs)) by (exists p, n, cs; auto).
      rewrite (word_says_one 0x6002 _ _ ltac:(lia) Y X) in Fl. discriminate Fl.
Qed.

(** The call after 'again', and what comes next. *)
Example C98_instance_next : exists l l' l'' m fields m' fields',
  nth_error calling 3 = Some (NLabel l (u "again")) /\ nth_error calling 4 = Some (NInstruction l' m fields) /\
  nothing_between calling 3 4 /\ (forall q, nth_error calling 4 = Some q -> constant q = None) /\
  nth_error calling 5 = Some (NInstruction l'' m' fields') /\ nothing_between calling 5 5 /\
  lookup calling (u "again") = Some 0x202 /\ address calling 4 = 0x202 /\ address calling 5 = 0x204.
Proof.
  do 7 eexists. split; [reflexivity|]. split; [reflexivity|]. split.
  { split; [lia|]. intros t n L H. assert (t = 3)%nat by lia. subst t. injection H as <-. split; reflexivity. }
  split; [intros q H; injection H as <-; reflexivity|]. split; [reflexivity|].
  split; [split; [lia|intros; lia]|]. split; [vm_compute; reflexivity|]. split; [vm_compute; reflexivity|vm_compute; reflexivity].
Qed.

Example C98_falls : (exists rs, assemble falling = Done (Ok rs)) /\ ~ contained falling.
Proof.
  split; [eexists; vm_compute; reflexivity|]. intros C. apply check_spec in C. vm_compute in C. discriminate C.
Qed.

(** The game in the tests directory is contained. *)
Goal True. (* contained_test_PONG *)
Proof. run_test (contained_check (nodes (u src_test_PONG))). Qed.
