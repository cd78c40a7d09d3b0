(** * PropText: properties C09 and C14-C17, with an instance of each. *)

From Verif Require Import Base Text U12 Location Token Scanner Parser Directive DataRange Assembler IHex Main
  SpecUtf8 SpecLex SpecGrammar SpecOpcode SpecLayout SpecHex SpecTool SpecErase SpecCode SpecWrite
  BaseFacts LexTheorems ParseProofs LayoutProofs EmitProofs PipelineProofs UtfProofs
  MainProofs PropOutput LexAppend GrammarLines TextProofs TextCode WriteProofs.
Open Scope string_scope.
Open Scope list_scope.
Open Scope N_scope.

Definition lines (l : list string) : str := flat_map (fun s => u s ++ [LF]) l.

(** ** C09: hexadecimal literals which are too long. *)

(** The claim. *)
Definition long_literals_rejected : Prop :=
  forall file a p d b ts1 ts2 q, cut_at file a (p :: d ++ b) ts1 ts2 ->
    among "$#" p = true -> forallb (among hexadecimal_digits) d = true -> (4 <= length d)%nat ->
    ~ parsed file (a ++ p :: d ++ b) q.

(** False: 'ld i, $200cls' is read as 'ld i, $200' and 'cls'. *)
Theorem C09_refuted : exists file a p d b ts1 ts2 q, cut_at file a (p :: d ++ b) ts1 ts2 /\
  among "$#" p = true /\ forallb (among hexadecimal_digits) d = true /\ (4 <= length d)%nat /\
  parsed file (a ++ p :: d ++ b) q.
Proof.
  exists (u "a.s"), (u "ld i, "), (c_ "$"), (u "200c"), (u "ls" ++ [LF]). do 3 eexists.
  split; [|split; [reflexivity|split; [reflexivity|split; [cbn; lia|]]]].
  - unfold cut_at. split; [vm_compute; reflexivity|]. split; [vm_compute; reflexivity | reflexivity].
  - eexists. split; [vm_compute; reflexivity | vm_compute; reflexivity].
Qed.
Print Assumptions C09_refuted.

Theorem C09_false : ~ long_literals_rejected.
Proof.
  intros H. destruct C09_refuted as (file & a & p & d & b & ts1 & ts2 & q & Bd & Hp & Hd & L & S).
  exact (H _ _ _ _ _ _ _ _ Bd Hp Hd L S).
Qed.
Print Assumptions C09_false.

(** With a decimal digit in fourth place the text is rejected. Missing: a letter from A to F
    there, for which the claim is false. *)
Theorem C09_digit_partial : forall file a p d c b ts1 ts2 q, cut_at file a (p :: d ++ c :: b) ts1 ts2 ->
  among "$#" p = true -> forallb (among hexadecimal_digits) d = true -> length d = 3%nat ->
  among decimal_digits c = true -> ~ parsed file (a ++ p :: d ++ c :: b) q.
Proof. intros *. rewrite cut_boundary, parsed_stands. apply long_hex_digit. Qed.
Print Assumptions C09_digit_partial.

(** What every such text means: the same as with blanks after the third digit. *)
Theorem C09_meaning : forall file a p d c b w ts1 ts2, cut_at file a (p :: d ++ c :: b) ts1 ts2 ->
  among "$#" p = true -> forallb (among hexadecimal_digits) d = true -> length d = 3%nat ->
  forallb blank w = true -> same_reading file (a ++ p :: d ++ c :: b) (a ++ p :: d ++ w ++ c :: b).
Proof. intros *. rewrite cut_boundary, alike_same. apply long_hex_letter. Qed.
Print Assumptions C09_meaning.

Example C09_output : assemble_text sample_env (u "in.s") (lines [".org $200"; "ld i, $200cls"]) =
  assemble_text sample_env (u "in.s") (lines [".org $200"; "ld i, $200"; "cls"]).
Proof. vm_compute. reflexivity. Qed.

Example C09_instance : exists ts1 ts2,
  cut_at (u "a.s") (u ".db ") (c_ "#" :: u "0ff" ++ c_ "0" :: [LF]) ts1 ts2 /\
  among "$#" (c_ "#") = true /\ forallb (among hexadecimal_digits) (u "0ff") = true /\
  among decimal_digits (c_ "0") = true.
Proof.
  do 2 eexists. split; [|evaluate]. unfold cut_at.
  split; [vm_compute; reflexivity|]. split; [vm_compute; reflexivity | reflexivity].
Qed.

(** ** C14: writing and reading back. *)
Theorem C14_round_trip : forall file p, Forall writable_node p ->
  exists p', parsed file (write p) p' /\ same_program p p'.
Proof.
  intros file p F. destruct (write_read file p F) as (p' & R & S). exists p'.
  split; [apply parsed_stands; exact R | exact S].
Qed.
Print Assumptions C14_round_trip.

(** Every syntax list that comes out of the parser can be written. *)
Theorem C14_range : forall file s p, parsed file s p -> Forall writable_node p.
Proof. intros file s p R. apply parsed_stands in R. exact (read_writable _ _ _ R). Qed.
Print Assumptions C14_range.

(** So a text can be replaced by what is written for its syntax list. *)
Theorem C14_normal : forall file s p, parsed file s p -> same_reading file s (write p).
Proof. intros file s p R. apply parsed_stands in R. apply alike_same. exact (write_normal _ _ _ R). Qed.
Print Assumptions C14_normal.

Definition sample_program : list node :=
  let l := mk_loc [] 0 0 0 in
  [NLabel l (u "count"); NDirective l (u "equ") [LNumeric 0xABC];
   NDirective l (u "db") [LString (u "say \""hi\""" ++ [0x4E2D]); LNumeric 7];
   NInstruction l (u "DRW") [FRegister 10; FRegister 3; FNumeric 15];
   NInstruction l (u "ld") [FIndexIndirect; FRegister 15]; NInstruction l (u "jp") [FIdentifier (u "Dt")];
   NInstruction l (u "ret") []].

Example C14_text : write sample_program =
  lines ["count:"; ".equ $ABC"] ++ u ".db ""say \""hi\""" ++ [0x4E2D] ++ u """, $007" ++ [LF] ++
  lines ["DRW vA, v3, $00F"; "ld [i], vF"; "jp Dt"; "ret "].
Proof. vm_compute. reflexivity. Qed.

Example C14_instance : Forall writable_node sample_program.
Proof.
  assert (N : forall s, match LexProofs.find KIdentifier s with Some m => str_eqb m s | None => false end = true -> name s).
  { intros s H. destruct (LexProofs.find KIdentifier s) as [m|] eqn:E; [|discriminate]. apply str_eqb_eq in H. subst m.
    destruct (LexProofs.find_lexeme _ _ _ E) as (r & _ & _ & R & _). left. exact R. }
  assert (Q : quotable (u "say \""hi\""" ++ [0x4E2D])).
  { unfold quotable. set (s := QUOTE :: (u "say \""hi\""" ++ [0x4E2D]) ++ [QUOTE]).
    assert (E : LexProofs.find KString s = Some s) by (vm_compute; reflexivity).
    destruct (LexProofs.find_lexeme _ _ _ E) as (r & _ & _ & R & _). exact R. }
  unfold sample_program. cbv zeta.
  assert (G : forall l, (forall n, In n l -> writable_node n) -> Forall writable_node l)
    by (intros l H; apply Forall_forall; exact H).
  apply G. intros n Hn.
  repeat (destruct Hn as [<-|Hn]; [cbn [writable_node]; repeat match goal with |- _ /\ _ => split end;
    try (apply N; vm_compute; reflexivity); try (constructor; fail)|]); [| | | | |destruct Hn].
  - repeat constructor. discriminate.
  - constructor; [exact Q|]. repeat constructor. discriminate.
  - repeat constructor; discriminate.
  - repeat constructor; discriminate.
  - constructor; [split; [apply N|]; vm_compute; reflexivity | constructor].
Qed.

(** ** C15: layout. *)

(** White space between tokens. *)
Theorem C15_blanks : forall file a b w ts1 ts2, cut_at file a b ts1 ts2 -> forallb blank w = true ->
  same_reading file (a ++ b) (a ++ w ++ b).
Proof. intros *. rewrite cut_boundary, alike_same. apply blanks_same. Qed.
Print Assumptions C15_blanks.

(** Lines which are blank or only have a comment. *)
Theorem C15_lines : forall file a b x ts1 ts2, cut_at file a (LF :: b) ts1 ts2 -> idle_line x ->
  same_reading file (a ++ LF :: b) (a ++ LF :: x ++ b).
Proof. intros *. rewrite cut_boundary, alike_same. apply line_same. Qed.
Print Assumptions C15_lines.

Theorem C15_first_line : forall file b x, idle_line x -> same_reading file b (x ++ b).
Proof. intros *. rewrite alike_same. apply first_line_same. Qed.
Print Assumptions C15_first_line.

(** Comments after any line but one that ends inside the literals of a directive. *)
Theorem C15_comment : forall file a b x ts1 ts2, cut_at file a (LF :: b) ts1 ts2 -> trailing_comment x ->
  ~ open_directive ts1 -> same_reading file (a ++ LF :: b) (a ++ x ++ LF :: b).
Proof. intros *. rewrite cut_boundary, alike_same. apply comment_same. Qed.
Print Assumptions C15_comment.

(** Lines ending with an instruction are not of that kind. *)
Theorem C15_instruction : forall before p id l fs, program before p ->
  (forall t, In t fs -> match t with DirectiveMarker _ => False | _ => True end) ->
  ~ open_directive (before ++ Identifier id l :: fs).
Proof.
  intros before p id l fs P F (b & l0 & i0 & l1 & xs & E & O).
  assert (D : forall before' l', before <> before' ++ [DirectiveMarker l']).
  { intros b' l' X. destruct (program_marker _ _ P _ _ _ X) as (p' & P'). inversion P'. }
  (* the marker is in [before], since it is neither the mnemonic nor one of [fs] *)
  assert (S : exists x, before = b ++ DirectiveMarker l0 :: x /\ x ++ Identifier id l :: fs = Identifier i0 l1 :: xs).
  { clear P O. revert before D E. induction b as [|y b IH]; intros before D E.
    - destruct before as [|z before]; cbn [app] in E; [discriminate|]. injection E as -> E.
      exists before. auto.
    - destruct before as [|z before]; cbn [app] in E.
      + injection E as <- E. exfalso. apply (F (DirectiveMarker l0)). rewrite E. apply in_or_app. right. left. reflexivity.
      + injection E as <- E. destruct (IH before) as (x & -> & Ex); [|exact E|exists x; auto].
        intros b' l' ->. exact (D (z :: b') l' eq_refl). }
  destruct S as (x & -> & Ex). destruct x as [|y x].
  - apply (D b l0). reflexivity.
  - cbn [app] in Ex. injection Ex as -> <-. destruct O as [O _].
    rewrite Forall_app in O. destruct O as [_ O]. inversion O as [|? ? Bad _]. discriminate.
Qed.
Print Assumptions C15_instruction.

(** The output does not change either. *)
Theorem C15_output : forall e file s s' text, Forall scalar s -> Forall scalar s' -> same_reading file s s' ->
  (assemble_text e file s = Done (Ok text) <-> assemble_text e file s' = Done (Ok text)).
Proof.
  intros e file s s' text Sc Sc' S. apply alike_same in S. split; apply same_output; auto. apply same_text_sym. exact S.
Qed.
Print Assumptions C15_output.

Definition cls_tokens : list token := [Identifier (u "cls") (mk_loc (u "a.s") 1 1 3)].
Example C15_instance : exists ts2,
  cut_at (u "a.s") (u "cls") (LF :: lines ["ret"]) cls_tokens ts2 /\ ~ open_directive cls_tokens /\
  trailing_comment (u "  ; clear") /\ idle_line (u " ; note" ++ [LF]).
Proof.
  eexists. split; [|split; [|split]].
  - unfold cut_at. split; [vm_compute; reflexivity|]. split; [vm_compute; reflexivity | reflexivity].
  - intros (b & l0 & id & l & xs & E & _). destruct b as [|x [|y b]]; discriminate.
  - exists (u "  "), (u " clear"). repeat split; reflexivity.
  - exists (u " ; note"). split; [reflexivity|]. right. exists (u " "), (u " note"). repeat split; reflexivity.
Qed.

(** ** C16: comments at the end of lines. *)

(** False: the comment may follow a comma. *)
Theorem C16_refuted : exists file a b x ts1 ts2 p,
  cut_at file a b ts1 ts2 /\ line_ends b /\ trailing_comment x /\
  parsed file (a ++ b) p /\ forall p', ~ parsed file (a ++ x ++ b) p'.
Proof.
  exists (u "a.s"), (u ".db 1,"), (lines [""]), (u " ; one"). do 3 eexists.
  split; [unfold cut_at; split; [vm_compute; reflexivity|]; split; [vm_compute; reflexivity | reflexivity]|].
  split; [right; exists []; reflexivity|]. split; [exists (u " "), (u " one"); evaluate|]. split.
  - eexists. split; [vm_compute; reflexivity | vm_compute; reflexivity].
  - intros p' (ts & S & P). vm_compute in S. injection S as <-. vm_compute in P. discriminate.
Qed.
Print Assumptions C16_refuted.

Example C16_output :
  assemble_text sample_env (u "in.s") (lines [".db 1,"]) = Done (Ok (lines [":0100000001FE"; ":00000001FF"])) /\
  match assemble_text sample_env (u "in.s") (lines [".db 1, ; one"]) with Done (Err _) => True | _ => False end.
Proof. vm_compute. auto. Qed.

(** True but for lines which end inside the literals of a directive: after its name or a comma. *)
Theorem C16_comment_partial : forall file a b x ts1 ts2 p, cut_at file a b ts1 ts2 -> line_ends b ->
  trailing_comment x -> parsed file (a ++ b) p ->
  ((exists p', parsed file (a ++ x ++ b) p' /\ same_program p p') <-> ~ open_directive ts1).
Proof.
  intros file a b x ts1 ts2 p Bd E X P. apply cut_boundary in Bd. apply parsed_stands in P.
  setoid_rewrite parsed_stands. split.
  - intros (p' & P' & _) O. exact (comment_wrong _ _ _ _ _ _ p' Bd E X O P').
  - intros O. destruct E as [->|(b' & ->)].
    + rewrite !app_nil_r in *. apply last_comment; assumption.
    + apply (proj1 (comment_same _ _ _ _ _ _ Bd X O)). exact P.
Qed.
Print Assumptions C16_comment_partial.

Theorem C16_output_partial : forall e file a b x ts1 ts2 text, cut_at file a b ts1 ts2 -> line_ends b ->
  trailing_comment x -> Forall scalar (a ++ b) -> Forall scalar x -> ~ open_directive ts1 ->
  assemble_text e file (a ++ b) = Done (Ok text) -> assemble_text e file (a ++ x ++ b) = Done (Ok text).
Proof.
  intros e file a b x ts1 ts2 text Bd E X Sc Sx O H.
  assert (Sc' : Forall scalar (a ++ x ++ b)).
  { apply Forall_app in Sc. rewrite !Forall_app. tauto. }
  destruct (assemble_text_spec e file _ Sc) as [(t & rs & _ & (ts & p & L & P & _) & _)|(m & Em & _)];
    [|rewrite H in Em; discriminate].
  apply scan_lexes in L. apply parse_program in P.
  destruct (proj2 (C16_comment_partial _ _ _ _ _ _ p Bd E X (ex_intro _ ts (conj L P))) O) as (p' & (ts' & L' & P') & S).
  apply (same_output e file (a ++ b)); [exact Sc | exact Sc' | | exact H]. apply alike_same. split; intros q Q.
  - apply (proj2 (C16_comment_partial _ _ _ _ _ _ q Bd E X Q) O).
  - exists p. split; [exists ts; auto|].
    destruct Q as (ts'' & L'' & Q). unfold same_program in *. congruence.
Qed.
Print Assumptions C16_output_partial.

Example C16_instance : exists ts2 p,
  cut_at (u "a.s") (u "cls") (lines [""; "ret"]) cls_tokens ts2 /\ line_ends (lines [""; "ret"]) /\
  trailing_comment (u "  ; clear") /\ parsed (u "a.s") (u "cls" ++ lines [""; "ret"]) p.
Proof.
  destruct C15_instance as (ts2 & Bd & _ & X & _). exists ts2.
  assert (P : exists p, parsed (u "a.s") (u "cls" ++ lines [""; "ret"]) p)
    by (eexists; eexists; split; [vm_compute; reflexivity | vm_compute; reflexivity]).
  destruct P as (p & P). exists p. split; [exact Bd|]. split; [right; eexists; reflexivity|]. split; [exact X | exact P].
Qed.

(** ** C17: the final newline. *)

(** False: an instruction without operands needs it. *)
Theorem C17_refuted : exists file s p, parsed file (s ++ [LF]) p /\ forall p', ~ parsed file s p'.
Proof.
  exists (u "a.s"), (u "cls"). eexists. split.
  - eexists. split; [vm_compute; reflexivity | vm_compute; reflexivity].
  - intros p' (ts & S & P). vm_compute in S. injection S as <-. vm_compute in P. discriminate.
Qed.
Print Assumptions C17_refuted.

Example C17_output :
  assemble_text sample_env (u "in.s") (lines ["cls"]) = Done (Ok (lines [":0200000000E01E"; ":00000001FF"])) /\
  match assemble_text sample_env (u "in.s") (u "cls") with Done (Err _) => True | _ => False end.
Proof. vm_compute. auto. Qed.

(** Exactly: it is needed after a comma, a mnemonic without operands, or the name of a directive. *)
Theorem C17_newline_partial : forall file s p, parsed file (s ++ [LF]) p ->
  exists ts l, scan file s = Done ts /\ scan file (s ++ [LF]) = Done (ts ++ [Newline l]) /\
    ((needs_newline ts /\ forall p', ~ parsed file s p') \/
     (~ needs_newline ts /\ parsed file s p)).
Proof.
  intros file s p. setoid_rewrite parsed_stands. setoid_rewrite scan_lexes. apply newline_final.
Qed.
Print Assumptions C17_newline_partial.

(** Adding it is always possible. *)
Theorem C17_added : forall file s p, parsed file s p -> parsed file (s ++ [LF]) p.
Proof. intros file s p. rewrite !parsed_stands. apply newline_added. Qed.
Print Assumptions C17_added.

Theorem C17_output_partial : forall e file s ts text, Forall scalar s -> scan file s = Done ts -> ~ needs_newline ts ->
  (assemble_text e file (s ++ [LF]) = Done (Ok text) <-> assemble_text e file s = Done (Ok text)).
Proof.
  intros e file s ts text Sc L N.
  assert (Sc' : Forall scalar (s ++ [LF])).
  { apply Forall_app. split; [exact Sc|]. constructor; [unfold scalar, LF; lia | constructor]. }
  apply C15_output; [exact Sc' | exact Sc|]. split; intros p P.
  - exists p. split; [|reflexivity]. destruct (C17_newline_partial _ _ _ P) as (ts' & l & L' & _ & [[Bad _]|[_ H]]); [|exact H].
    rewrite L in L'. injection L' as <-. contradiction.
  - exists p. split; [|reflexivity]. apply C17_added. exact P.
Qed.
Print Assumptions C17_output_partial.

Example C17_instance :
  assemble_text sample_env (u "in.s") (u "ld v0, 1") = assemble_text sample_env (u "in.s") (lines ["ld v0, 1"]) /\
  exists ts, scan (u "in.s") (u "ld v0, 1") = Done ts /\ ~ needs_newline ts.
Proof.
  split; [vm_compute; reflexivity|].
  assert (L : exists ts, scan (u "in.s") (u "ld v0, 1") = Done ts /\ ts =
    [Identifier (u "ld") (mk_loc (u "in.s") 1 1 2); Identifier (u "v0") (mk_loc (u "in.s") 1 4 2);
     Comma (mk_loc (u "in.s") 1 6 1)] ++ [NumericLiteral 1 (mk_loc (u "in.s") 1 8 1)])
    by (eexists; split; [vm_compute; reflexivity | reflexivity]).
  destruct L as (ts & L & E). exists ts. split; [exact L|]. intros N.
  assert (G : forall x t, ts = x ++ [t] -> match t with NumericLiteral _ _ => False | _ => True end).
  { clear E. destruct N as [b l|b p id l P|b p l0 id l P]; intros x t E.
    - apply app_inj_tail in E. destruct E as [_ <-]. exact I.
    - apply app_inj_tail in E. destruct E as [_ <-]. exact I.
    - change [DirectiveMarker l0; Identifier id l] with ([DirectiveMarker l0] ++ [Identifier id l]) in E.
      rewrite app_assoc in E. apply app_inj_tail in E. destruct E as [_ <-]. exact I. }
  exact (G _ _ E).
Qed.
