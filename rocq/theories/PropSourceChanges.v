(** * C118: changes that do not matter, of the executed source.

    [object h input output s hex]: the text of main.rs, executed from [main] on any files
    where [input] holds the text [s], ends with status 0, prints nothing, and has written
    [hex] to [output] and no other file.  [reads_as file s p]: the text of the scanner and of
    the parser, executed on [s], ends with the syntax list [p].  What C15, C50, C54, C61,
    C62, C79, C94 and C106 say of the model is said here of the text. *)

From Coq Require Import String List NArith Bool Lia.
From Verif Require Import Base BaseFacts Text Location Token Scanner Parser DataRange Assembler IHex Main MainIO
  SpecUtf8 SpecLex SpecGrammar SpecLayout SpecHex SpecTool SpecArgs SpecOpcode SpecRefusal SpecErase SpecCode SpecMeta SpecNumeral SpecRewrite
  SpecConstant SpecConcat SpecDos SpecBlank SpecCapital SpecRegister
  LexTheorems ParseProofs UtfProofs GrammarLines LexAppend TextProofs TextCode FirstProofs MainProofs IoProofs
  PropOutput PropText PropRewrite PropDos PropConstant PropConcat PropCapital PropRegister
  SrcText SrcLex SrcParse SrcRun SrcCode SrcEnc SrcFacts SrcTool SrcMainProofs PropSourceMain PropSourceSpec PropSourceTool.
Import ListNotations.
Open Scope string_scope.
Open Scope list_scope.
Open Scope N_scope.

(** The tool is asked to assemble one file into another, and nothing fails outside of it. *)
Definition called (h : host) (input output : str) : Prop :=
  wants h input output /\ output <> u "-" /\
  h_open_error h = None /\ h_read_error h = None /\ h_create_error h = None /\ h_write_error h = None.
Definition object (h : host) (input output s hex : str) : Prop :=
  Forall scalar s /\
  forall f bytes, f input = Some bytes -> encoding s bytes -> leaves h f (mk_outcome [] 0 (fs_set f output hex)).
Definition reads_as (file s : str) (p : list Parser.node) : Prop :=
  parses_as file s (VCon "Ok" [("0", VVec (map e_node p))]).

Lemma reads_parsed file s p : reads_as file s p <-> parsed file s p.
Proof.
  unfold reads_as. rewrite C116_parses. split; intros (ts & L & P); exists ts.
  - split; [apply scan_lexes; exact L|apply parse_program; exact P].
  - split; [apply scan_lexes; exact L|apply parse_program; exact P].
Qed.

Lemma object_text h input output s hex : called h input output -> Forall scalar s ->
  (object h input output s hex <-> exists text, assemble_text (env_of h) input s = Done (Ok text) /\ hex = utf8 text).
Proof.
  intros (W & N & Ho & Hr & Hc & Hw) Sc. apply str_eqb_neq in N.
  assert (D : steady h) by (intros i _; exact Hw).
  assert (G : forall f bytes, f input = Some bytes -> encoding s bytes ->
    main (env_of h) f = (let* r := assemble_text (env_of h) input s in
      match r with Err message => Main.fail message f | Ok result => Done (mk_outcome [] 0 (fs_set f output (utf8 result))) end)).
  { intros f bytes F E. rewrite (main_asks _ _ _ _ (wants_asks _ _ _ W)). unfold assemble_file.
    destruct (read_input_spec (env_of h) f input) as [(s' & R & Rd)|(m & R & _ & Nr)].
    - rewrite R. assert (Rd' : reads (env_of h) f input s) by (split; [exact Ho|]; split; [exact Hr|]; exists bytes; auto).
      rewrite (reads_det _ _ _ _ _ Rd Rd'). unfold write_output. rewrite N. cbn [env_of e_create_error e_write_error].
      rewrite Hc, Hw. reflexivity.
    - exfalso. apply (Nr s). split; [exact Ho|]. split; [exact Hr|]. exists bytes. auto. }
  split.
  - intros (_ & O). pose (f := fs_set (fun _ => None) input (utf8 s)).
    assert (F : f input = Some (utf8 s)) by (unfold f, fs_set; rewrite str_eqb_refl; reflexivity).
    assert (E : encoding s (utf8 s)) by (apply encoding_utf8; auto).
    specialize (O f _ F E). apply C117_leaves in O; [|exact D]. destruct O as (o' & M & S & X & Fs).
    rewrite (G f _ F E) in M. destruct (assemble_text _ _ _) as [[t|t]|]; cbn [bind] in M; [| |discriminate].
    + exists t. split; [reflexivity|]. injection M as <-. specialize (Fs output). cbn [o_fs] in Fs.
      unfold fs_set in Fs. rewrite str_eqb_refl in Fs. congruence.
    + exfalso. unfold Main.fail in M. injection M as <-. cbn [o_exit] in X. discriminate.
  - intros (t & A & ->). split; [exact Sc|]. intros f bytes F E. apply C117_leaves; [exact D|].
    eexists. split; [rewrite (G f bytes F E), A; reflexivity|]. repeat split.
Qed.

Lemma hex_utf8 e file s text : Forall scalar s -> assemble_text e file s = Done (Ok text) -> utf8 text = text.
Proof.
  intros S A. destruct (assemble_text_spec e file s S) as [(t & rs & T & C & I)|(m & T & _)]; rewrite T in A; [|discriminate].
  injection A as ->. destruct (compiles_writable _ _ _ S C) as (W & N). exact (ihex_ascii rs text W N I).
Qed.

Lemma object_scalar h input output s hex : object h input output s hex -> Forall scalar s.
Proof. intros (S & _). exact S. Qed.

Lemma object_iff h input output s s' hex : called h input output -> Forall scalar s -> Forall scalar s' ->
  (forall text, assemble_text (env_of h) input s = Done (Ok text) <-> assemble_text (env_of h) input s' = Done (Ok text)) ->
  (object h input output s hex <-> object h input output s' hex).
Proof.
  intros C S S' E. rewrite (object_text h input output s hex C S), (object_text h input output s' hex C S').
  split; intros (t & A & X); exists t; (split; [apply E; exact A|exact X]).
Qed.

(** The texts are read as the same program, locations aside, or neither is read. *)
Definition read_alike (file s s' : str) : Prop :=
  (forall p, reads_as file s p -> exists p', reads_as file s' p' /\ same_program p p') /\
  (forall p', reads_as file s' p' -> exists p, reads_as file s p /\ same_program p p').
Lemma read_alike_same file s s' : read_alike file s s' <-> same_reading file s s'.
Proof.
  unfold read_alike, same_reading. split; intros (A & B); (split; [intros p P; apply reads_parsed in P; destruct (A p P) as (p' & P' & S)|
    intros p P; apply reads_parsed in P; destruct (B p P) as (p' & P' & S)]); exists p'; (split; [apply reads_parsed; exact P'|exact S]).
Qed.

(** The object file depends only on what is read. *)
Theorem C118_reading : forall h input output s s' hex, called h input output -> Forall scalar s -> Forall scalar s' ->
  read_alike input s s' -> (object h input output s hex <-> object h input output s' hex).
Proof.
  intros h input output s s' hex C S S' R. apply object_iff; auto. intro t. apply C15_output; auto.
  apply read_alike_same. exact R.
Qed.
Print Assumptions C118_reading.

(** White space and comments: blanks between tokens, idle lines, comments at ends of lines *)
Theorem C118_layout : forall h input output a b x ts1 ts2 hex, called h input output ->
  Forall scalar (a ++ b) -> Forall scalar x -> cut_at input a b ts1 ts2 ->
  (forallb blank x = true -> (object h input output (a ++ b) hex <-> object h input output (a ++ x ++ b) hex)) /\
  (forall c, b = LF :: c -> idle_line x -> (object h input output (a ++ b) hex <-> object h input output (a ++ LF :: x ++ c) hex)) /\
  (forall c, b = LF :: c -> trailing_comment x -> ~ open_directive ts1 ->
     (object h input output (a ++ b) hex <-> object h input output (a ++ x ++ b) hex)).
Proof.
  intros h input output a b x ts1 ts2 hex C S Sx K. apply Forall_app in S. destruct S as (Sa & Sb).
  assert (Sab : Forall scalar (a ++ b)) by (apply Forall_app; auto).
  assert (Saxb : Forall scalar (a ++ x ++ b)) by (apply Forall_app; split; [exact Sa|apply Forall_app; auto]).
  split; [|split].
  - intro B. apply C118_reading; auto. apply read_alike_same. exact (C15_blanks _ _ _ _ _ _ K B).
  - intros c -> I. apply C118_reading; auto.
    + inversion Sb; subst. apply Forall_app. split; [exact Sa|]. constructor; [assumption|]. apply Forall_app. auto.
    + apply read_alike_same. exact (C15_lines _ _ _ _ _ _ K I).
  - intros c -> T O. apply C118_reading; auto. apply read_alike_same. exact (C15_comment _ _ _ _ _ _ K T O).
Qed.
Print Assumptions C118_layout.

(** How a number is written *)
Theorem C118_numbers : forall h input output a m m' b v ts1 ts2 ts2' hex, called h input output ->
  v <= 4095 -> writes v m -> writes v m' -> number_ends b ->
  cut_at input a (m ++ b) ts1 ts2 -> cut_at input a (m' ++ b) ts1 ts2' ->
  Forall scalar (a ++ m ++ b) -> Forall scalar (a ++ m' ++ b) ->
  (object h input output (a ++ m ++ b) hex <-> object h input output (a ++ m' ++ b) hex).
Proof.
  intros h input output a m m' b v ts1 ts2 ts2' hex C L W W' E K K' S S'. apply object_iff; auto. intro t.
  exact (C50_output _ _ _ _ _ _ v ts1 ts2 ts2' t L W W' E K K' S S').
Qed.
Print Assumptions C118_numbers.

(** Names of labels; labels and their values; labels nothing refers to; one '.db' or two *)
Theorem C118_renamed : forall h input output s s' p p' f hex, called h input output -> Forall scalar s -> Forall scalar s' ->
  reads_as input s p -> reads_as input s' p' -> keeps_apart f p -> same_program p' (map (rename f) p) ->
  (object h input output s hex <-> object h input output s' hex).
Proof.
  intros h input output s s' p p' f hex C S S' P P' K E. apply reads_parsed in P. apply reads_parsed in P'.
  apply object_iff; auto. intro t. exact (C54_renamed _ _ _ _ _ _ _ f t P P' K E).
Qed.
Print Assumptions C118_renamed.

Theorem C118_inlined : forall h input output s s' p p' x hex, called h input output -> Forall scalar s -> Forall scalar s' ->
  reads_as input s p -> reads_as input s' p' -> Forall2 (inlined (lookup p)) p x -> same_program p' x ->
  (object h input output s hex <-> object h input output s' hex).
Proof.
  intros h input output s s' p p' x hex C S S' P P' K E. apply reads_parsed in P. apply reads_parsed in P'.
  apply object_iff; auto. intro t. exact (C54_inlined _ _ _ _ _ _ _ x t P P' K E).
Qed.
Print Assumptions C118_inlined.

Theorem C118_unused : forall h input output s s' p q p' l id hex, called h input output -> Forall scalar s -> Forall scalar s' ->
  reads_as input s (p ++ q) -> reads_as input s' p' -> ~ mentioned (p ++ q) id ->
  (forall n r, q = n :: r -> constant n = None) -> same_program p' (p ++ NLabel l id :: q) ->
  (object h input output s hex <-> object h input output s' hex).
Proof.
  intros h input output s s' p q p' l id hex C S S' P P' M K E. apply reads_parsed in P. apply reads_parsed in P'.
  apply object_iff; auto. intro t. exact (C54_unused _ _ _ _ _ _ _ _ l id t P P' M K E).
Qed.
Print Assumptions C118_unused.

Theorem C118_split : forall h input output s s' p q p' l id a b l1 l2 hex, called h input output ->
  Forall scalar s -> Forall scalar s' ->
  reads_as input s (p ++ NDirective l id (a ++ b) :: q) -> reads_as input s' p' -> map upper id = u "DB" -> a <> [] -> b <> [] ->
  same_program p' (p ++ NDirective l1 id a :: NDirective l2 id b :: q) ->
  (object h input output s hex <-> object h input output s' hex).
Proof.
  intros h input output s s' p q p' l id a b l1 l2 hex C S S' P P' I A B E. apply reads_parsed in P. apply reads_parsed in P'.
  apply object_iff; auto. intro t.
  refine (C54_split _ _ _ _ _ _ _ _ l id a b l1 l2 t P P' _ A B E). unfold names. rewrite I. apply str_eqb_refl.
Qed.
Print Assumptions C118_split.

(** Where a constant is defined *)
Theorem C118_constant : forall h input output s s' id v d p q p' q' y hex, called h input output ->
  Forall scalar s -> Forall scalar s' ->
  reads_as input s (p ++ d ++ q) -> reads_as input s' y -> same_program y (p' ++ d ++ q') -> defining id v d -> p ++ q = p' ++ q' ->
  ~ In id (labels_of (p ++ q)) -> free_to_insert q -> free_to_insert q' ->
  (object h input output s hex <-> object h input output s' hex).
Proof.
  intros h input output s s' id v d p q p' q' y hex C S S' P P' E D A N F F'. apply reads_parsed in P. apply reads_parsed in P'.
  apply object_iff; auto. intro t. exact (C79_text _ _ _ _ _ id v d p q p' q' y t P P' E D A N F F').
Qed.
Print Assumptions C118_constant.

Lemma forall_dos s : Forall scalar s -> Forall scalar (dos s).
Proof.
  intro S. unfold dos. induction S as [|c s Sc S IH]; [constructor|]. cbn [flat_map]. apply Forall_app. split; [|exact IH].
  destruct (c =? LF); [|apply Forall_cons; [exact Sc|apply Forall_nil]].
  apply Forall_cons; [left; reflexivity|]. apply Forall_cons; [left; reflexivity|apply Forall_nil].
Qed.

(** The ends of the lines *)
Theorem C118_dos : forall h input output s ts hex, called h input output -> Forall scalar s ->
  lexes input [] (dos s) ts -> one_line_strings ts ->
  (object h input output s hex <-> object h input output (dos s) hex).
Proof.
  intros h input output s ts hex C S L O. apply scan_lexes in L. apply object_iff; auto using forall_dos.
  intro t. exact (C61_output _ _ _ _ t S L O).
Qed.
Print Assumptions C118_dos.

(** Capitals *)
Theorem C118_capitals : forall h input output s ts hex, called h input output -> Forall scalar s -> Forall scalar (map upper s) ->
  ~ In QUOTE s -> lexes input [] s ts -> no_mixed_names ts -> (forall p, reads_as input s p -> keeps_apart (map upper) p) ->
  (object h input output s hex <-> object h input output (map upper s) hex).
Proof.
  intros h input output s ts hex C S S' Q L M K. apply scan_lexes in L. apply object_iff; auto. intro t.
  apply (C94_capitals _ _ _ ts t Q L M). intros p P. apply K. apply reads_parsed. exact P.
Qed.
Print Assumptions C118_capitals.

(** Other registers, at the same places *)
Theorem C118_registers : forall h input output s s' p p' f hex, called h input output -> exchanges f -> Forall scalar s' ->
  reads_as input s p -> reads_as input s' p' -> same_program p' (map (exchange f) p) -> object h input output s hex ->
  exists hex' bs, object h input output s' hex' /\ Forall2 (node_bytes (lookup p)) p bs /\
    read_hex hex = Some (concat (map (fun i => SpecLayout.place (address p i) (nth i bs [])) (seq 0 (length p)))) /\
    read_hex hex' = Some (concat (map (fun i => SpecLayout.place (address p i)
      (nth i (map (fun nb => exchange_bytes f (fst nb) (snd nb)) (combine p bs)) [])) (seq 0 (length p)))).
Proof.
  intros h input output s s' p p' f hex C X S' P P' E O. apply reads_parsed in P. apply reads_parsed in P'.
  pose proof (object_scalar _ _ _ _ _ O) as S. apply object_text in O; [|exact C|exact S]. destruct O as (t & A & ->).
  destruct (C106_text _ f _ _ _ _ _ _ t X S S' P P' E A) as (t' & bs & A' & N & R & R').
  exists (utf8 t'), bs. split; [apply object_text; eauto|]. split; [exact N|].
  rewrite (hex_utf8 _ _ _ _ S A), (hex_utf8 _ _ _ _ S' A'). auto.
Qed.
Print Assumptions C118_registers.

(** Two independent programs, one after the other *)
Theorem C118_joined : forall h input output s1 s2 p q hex, called h input output -> Forall scalar s1 -> Forall scalar s2 -> lined s1 ->
  reads_as input s1 p -> reads_as input s2 q -> section_starts q -> independent p q -> object h input output (s1 ++ s2) hex ->
  exists x y, object h input output s1 (x ++ u ":00000001FF" ++ [10]) /\ object h input output s2 (y ++ u ":00000001FF" ++ [10]) /\
    hex = x ++ y ++ u ":00000001FF" ++ [10].
Proof.
  intros h input output s1 s2 p q hex C S1 S2 L P Q B I O. apply reads_parsed in P. apply reads_parsed in Q.
  pose proof (object_scalar _ _ _ _ _ O) as S. apply object_text in O; [|exact C|exact S]. destruct O as (t & A & ->).
  destruct (C62_file _ _ _ _ _ _ t L P Q B I A) as (x & y & A1 & A2 & ->). exists x, y.
  split; [|split].
  - apply object_text; auto. eexists. split; [exact A1|]. symmetry. exact (hex_utf8 _ _ _ _ S1 A1).
  - apply object_text; auto. eexists. split; [exact A2|]. symmetry. exact (hex_utf8 _ _ _ _ S2 A2).
  - exact (hex_utf8 _ _ _ _ S A).
Qed.
Print Assumptions C118_joined.

(** ** Cases *)
Definition to_b : host := some_host [u "f"; u "-o"; u "b.hex"].
Lemma to_b_called : called to_b (u "f") (u "b.hex").
Proof. split; [eexists; split; [reflexivity|repeat split; reflexivity]|]. split; [discriminate|repeat split; reflexivity]. Qed.
Lemma reads_listed s : match scan (u "f") s with Done ts => match parse ts with Done (Ok _) => true | _ => false end | _ => false end = true ->
  reads_as (u "f") s (listed (u "f") s).
Proof.
  intro H. apply reads_parsed. unfold listed. destruct (scan (u "f") s) as [ts|] eqn:E; [|discriminate].
  destruct (parse ts) as [[p|]|] eqn:P; try discriminate. exists ts. auto.
Qed.
Definition scalars (s : str) : bool := forallb (fun c => c <? 0xD800) s.
Lemma scalars_ok s : scalars s = true -> Forall scalar s.
Proof. unfold scalars. rewrite forallb_forall, Forall_forall. intros H c I. left. specialize (H c I). lia. Qed.
Ltac an_object := apply object_text; [exact to_b_called|apply scalars_ok; vm_compute; reflexivity|];
  eexists; split; [vm_compute; reflexivity|vm_compute; reflexivity].

(** The texts of C54's cases: other names, the values, a label more, two '.db' *)
Example C118_instance :
  called to_b (u "f") (u "b.hex") /\
  Forall (Forall scalar) [text_one; text_two; text_three; text_four; text_five] /\
  Forall (fun s => object to_b (u "f") (u "b.hex") s text_one_hex) [text_one; text_two; text_three; text_four; text_five] /\
  let p := listed (u "f") text_one in
  reads_as (u "f") text_one p /\
  Forall (fun s => reads_as (u "f") s (listed (u "f") s)) [text_two; text_three; text_four; text_five] /\
  keeps_apart renaming p /\ same_program (listed (u "f") text_two) (map (rename renaming) p) /\
  (exists x, Forall2 (inlined (lookup p)) p x /\ same_program (listed (u "f") text_three) x) /\
  (let a := firstn 2 p in let q := skipn 2 p in p = a ++ q /\ ~ mentioned (a ++ q) (u "unused") /\
     (forall n r, q = n :: r -> constant n = None) /\ same_program (listed (u "f") text_four) (a ++ NLabel nowhere (u "unused") :: q)) /\
  exists l id b c, p = firstn 3 p ++ NDirective l id (b ++ c) :: skipn 4 p /\ map upper id = u "DB" /\ b <> [] /\ c <> [] /\
    same_program (listed (u "f") text_five) (firstn 3 p ++ NDirective nowhere id b :: NDirective nowhere id c :: skipn 4 p).
Proof.
  split; [exact to_b_called|].
  split; [repeat (apply Forall_cons; [apply scalars_ok; vm_compute; reflexivity|]); apply Forall_nil|].
  split; [repeat (apply Forall_cons; [an_object|]); apply Forall_nil|]. cbv zeta.
  split; [apply reads_listed; vm_compute; reflexivity|].
  split; [repeat (apply Forall_cons; [apply reads_listed; vm_compute; reflexivity|]); apply Forall_nil|].
  destruct C54_instance as (_ & _ & K & S2 & _). split; [exact K|]. split; [vm_compute; reflexivity|].
  destruct C54_instance_inlined as (_ & _ & (x & X & S3) & _).
  split; [exists x; split; [exact X|]; unfold same_program in *; rewrite <- S3; vm_compute; reflexivity|].
  destruct C54_instance_unused as (_ & _ & M & Q & S4 & _).
  split; [split; [symmetry; apply firstn_skipn|]; split; [exact M|]; split; [exact Q|vm_compute; reflexivity]|].
  exists (mk_loc (u "f") 2 5 2), (u "db"), [LNumeric 1], [LNumeric 2].
  split; [vm_compute; reflexivity|]. split; [vm_compute; reflexivity|]. split; [discriminate|]. split; [discriminate|vm_compute; reflexivity].
Qed.

(** The texts of the cases of C62, C79, C94; their hypotheses are met there *)
Definition small_texts : list str := [part_one; part_two; part_one ++ part_two; in_small; map upper in_small; dos in_small;
  lines ["start:"; "LD V0, speed"; "JP start"; "speed: .EQU $21"]; lines ["speed: .EQU $21"; "start:"; "LD V0, speed"; "JP start"]].
Example C118_instance_other :
  Forall (fun s => Forall scalar s /\ reads_as (u "f") s (listed (u "f") s) /\ exists hex, object to_b (u "f") (u "b.hex") s hex) small_texts /\
  (exists x y, object to_b (u "f") (u "b.hex") part_one (x ++ u ":00000001FF" ++ [10]) /\
     object to_b (u "f") (u "b.hex") part_two (y ++ u ":00000001FF" ++ [10]) /\
     object to_b (u "f") (u "b.hex") (part_one ++ part_two) (x ++ y ++ u ":00000001FF" ++ [10])) /\
  (exists hex, object to_b (u "f") (u "b.hex") in_small hex /\ object to_b (u "f") (u "b.hex") (map upper in_small) hex /\
     object to_b (u "f") (u "b.hex") (dos in_small) hex) /\
  (exists hex, object to_b (u "f") (u "b.hex") (nth 6 small_texts []) hex /\ object to_b (u "f") (u "b.hex") (nth 7 small_texts []) hex).
Proof.
  split.
  { unfold small_texts. repeat (apply Forall_cons; [split; [apply scalars_ok; vm_compute; reflexivity|];
      split; [apply reads_listed; vm_compute; reflexivity|eexists; an_object]|]). apply Forall_nil. }
  split; [exists (lines [":040200006001120087"]), (lines [":0403000061076162CE"]); split; [an_object|split; an_object]|].
  split; [exists (lines [":0802AB00F00AF01512B112ABCC"; ":00000001FF"]); split; [an_object|split; an_object]|].
  exists (lines [":04000000602110006B"; ":00000001FF"]). split; an_object.
Qed.

(** What C118_layout, C118_numbers and C118_registers ask for *)
Example C118_instance_layout : exists ts2 ts3 ts4 ts5,
  called (some_host [u "a.s"; u "-o"; u "b.hex"]) (u "a.s") (u "b.hex") /\
  cut_at (u "a.s") (u "cls") (LF :: lines ["ret"]) cls_tokens ts2 /\ ~ open_directive cls_tokens /\
  trailing_comment (u "  ; clear") /\ idle_line (u " ; note" ++ [LF]) /\
  writes 31 (u "$01f") /\ writes 31 (u "0031") /\ number_ends (lines [" ; x"]) /\
  cut_at (u "a.s") (u "ld v0,") (u "$01f" ++ lines [" ; x"]) ts3 ts4 /\
  cut_at (u "a.s") (u "ld v0,") (u "0031" ++ lines [" ; x"]) ts3 ts5 /\
  Forall (Forall scalar) [u "cls" ++ LF :: lines ["ret"]; u "  ; clear"; u " ; note" ++ [LF];
    u "ld v0," ++ u "$01f" ++ lines [" ; x"]; u "ld v0," ++ u "0031" ++ lines [" ; x"]].
Proof.
  destruct C15_instance as (ts2 & A & B & C & D). destruct C50_instance as (ts3 & ts4 & ts5 & _ & E & F & _ & G & H & I & _).
  exists ts2, ts3, ts4, ts5.
  split; [split; [eexists; split; [reflexivity|repeat split; reflexivity]|split; [discriminate|repeat split; reflexivity]]|].
  repeat (split; [assumption|]).
  repeat (apply Forall_cons; [apply scalars_ok; vm_compute; reflexivity|]). apply Forall_nil.
Qed.

Example C118_instance_registers :
  let x := lines ["ld v1, $12"; "jp v0, 512"] in let y := lines ["ld vf, 18 ; more"; "jp v0, 512"] in
  exchanges turned /\ Forall scalar x /\ Forall scalar y /\
  reads_as (u "f") x (listed (u "f") x) /\ reads_as (u "f") y (listed (u "f") y) /\
  same_program (listed (u "f") y) (map (exchange turned) (listed (u "f") x)) /\
  object to_b (u "f") (u "b.hex") x (lines [":040000006112B200D7"; ":00000001FF"]) /\
  object to_b (u "f") (u "b.hex") y (lines [":040000006F12B200C9"; ":00000001FF"]).
Proof.
  cbv zeta. split; [exact (proj1 C106_instance)|]. split; [apply scalars_ok; vm_compute; reflexivity|].
  split; [apply scalars_ok; vm_compute; reflexivity|]. split; [apply reads_listed; vm_compute; reflexivity|].
  split; [apply reads_listed; vm_compute; reflexivity|]. split; [vm_compute; reflexivity|]. split; an_object.
Qed.

(** And by steps, from [main] on: the text of C112_instance, and the same with another
    name, other blanks and comments, another numeral, capitals and the ends of lines of DOS *)
Definition changed_text : str :=
  u "; x" ++ [13; 10] ++ u " .ORG 512 " ++ [13; 10; 13; 10] ++ u "again :LD V1,%10010;x" ++ [13; 10] ++ u "unused: JP again" ++ [13; 10].
Example C118_instance_run :
  ends c8s [u "a.s"] file_text 0 (u "a.hex") = Some ([], 0, Some hex_lines) /\
  ends c8s [u "a.s"] changed_text 0 (u "a.hex") = Some ([], 0, Some hex_lines).
Proof. split; vm_compute; reflexivity. Qed.
