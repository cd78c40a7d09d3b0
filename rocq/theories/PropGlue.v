(** * PropGlue: property C91, with instances. *)

From Verif Require Import Base Text U12 Location Token Scanner Parser Directive DataRange Assembler IHex Main
  SpecUtf8 SpecLex SpecErase SpecCode SpecGlue BaseFacts LexTheorems ParseProofs LexAppend TextProofs TextCode
  PropText GlueProofs.
Open Scope string_scope.
Open Scope list_scope.
Open Scope N_scope.

(** ** C91: where white space is needed.

    The lexeme [m] is followed by the white space [w] and then by [c].  [joins m c], a table in SpecGlue, decides whether
    [w] is needed.

    The lexeme stays the same without [w] exactly if it does not join. *)
Theorem C91_exact : forall k m w c b, w <> [] -> forallb blank w = true -> lexeme k m (w ++ c :: b) (m ++ w ++ c :: b) ->
  (lexeme k m (c :: b) (m ++ c :: b) <-> joins m c = false).
Proof.
  intros k m w c b Nw B L. destruct w as [|d w]; [congruence|]. cbn [forallb] in B. apply andb_true_iff in B. destruct B as [Bd _].
  symmetry. apply (joins_exact k m _ c b L). exact (before_blank _ _ _ _ _ L Bd).
Qed.
Print Assumptions C91_exact.

(** If it does join, a longer lexeme of the same kind takes its place. *)
Theorem C91_longer : forall k m w c b, w <> [] -> forallb blank w = true -> lexeme k m (w ++ c :: b) (m ++ w ++ c :: b) ->
  joins m c = true -> exists x rest, x <> [] /\ lexeme k (m ++ x) rest (m ++ c :: b).
Proof.
  intros k m w c b Nw B L J. destruct w as [|d w]; [congruence|]. cbn [forallb] in B. apply andb_true_iff in B. destruct B as [Bd _].
  apply (joins_longer k m _ c b L); [exact (before_blank _ _ _ _ _ L Bd) | exact J].
Qed.
Print Assumptions C91_longer.

(** If it does not, the scanner returns the same tokens without [w], up to their places. *)
Theorem C91_tokens : forall file a k m w c b ts1 ts2, cut_at file a (m ++ w ++ c :: b) ts1 ts2 ->
  lexeme k m (w ++ c :: b) (m ++ w ++ c :: b) -> w <> [] -> forallb blank w = true -> joins m c = false ->
  exists ts', scan file (a ++ m ++ c :: b) = Done ts' /\ same_tokens ts' (ts1 ++ ts2).
Proof.
  intros file a k m w c b ts1 ts2 C L Nw B J. apply cut_boundary in C. apply (C91_exact k m w c b Nw B L) in J.
  destruct (squeeze _ _ _ _ _ _ _ _ _ C L B J) as (ts' & L' & S). exists ts'. split; [apply scan_lexes; exact L' | exact S].
Qed.
Print Assumptions C91_tokens.

(** A program which is accepted is the same program without [w] exactly if the lexeme does not join. *)
Theorem C91_program : forall file a k m w c b ts1 ts2 p, cut_at file a (m ++ w ++ c :: b) ts1 ts2 ->
  lexeme k m (w ++ c :: b) (m ++ w ++ c :: b) -> w <> [] -> forallb blank w = true ->
  parsed file (a ++ m ++ w ++ c :: b) p ->
  ((exists p', parsed file (a ++ m ++ c :: b) p' /\ same_program p p') <-> joins m c = false).
Proof.
  intros file a k m w c b ts1 ts2 p C L Nw B P. pose proof C as Bd. apply cut_boundary in Bd. split.
  - intros (p' & P' & S). destruct (joins m c) eqn:J; [|reflexivity]. exfalso.
    assert (K : k <> KComment).
    { destruct w as [|d w]; [congruence|]. cbn [forallb] in B. apply andb_true_iff in B. exact (before_blank _ _ _ _ _ L (proj1 B)). }
    destruct P as (ts & S0 & P), P' as (ts' & S' & P'). destruct C as (_ & Sc & _). rewrite Sc in S0. injection S0 as <-.
    apply scan_lexes in S'. apply parse_program in P, P'.
    exact (needed_blank _ _ _ _ _ _ _ _ _ _ _ _ Bd L K B J S' P P' S).
  - intros J. apply (C91_exact k m w c b Nw B L) in J.
    pose proof (squeeze_same _ _ _ _ _ _ _ _ _ Bd L B J) as S. apply alike_same in S. apply S. exact P.
Qed.
Print Assumptions C91_program.

(** And then the tool writes the same file, or refuses both. *)
Theorem C91_output : forall e file a k m w c b ts1 ts2 text, Forall scalar (a ++ m ++ w ++ c :: b) ->
  cut_at file a (m ++ w ++ c :: b) ts1 ts2 -> lexeme k m (w ++ c :: b) (m ++ w ++ c :: b) ->
  w <> [] -> forallb blank w = true -> joins m c = false ->
  (assemble_text e file (a ++ m ++ w ++ c :: b) = Done (Ok text) <-> assemble_text e file (a ++ m ++ c :: b) = Done (Ok text)).
Proof.
  intros e file a k m w c b ts1 ts2 text Sc C L Nw B J. apply C15_output.
  - exact Sc.
  - rewrite !Forall_app in *. tauto.
  - apply alike_same. apply cut_boundary in C. apply (C91_exact k m w c b Nw B L) in J. exact (squeeze_same _ _ _ _ _ _ _ _ _ C L B J).
Qed.
Print Assumptions C91_output.

(** The white space of 'add v0, v1', with an instruction before it. *)
Definition sample_before : str := lines ["cls"] ++ u "add v0".
Definition sample_after : str := u "1" ++ [LF].

Lemma sample_comma : lexeme KComma (u ",") (u " " ++ c_ "v" :: sample_after) (u "," ++ u " " ++ c_ "v" :: sample_after).
Proof. apply lexeme_closed; [apply LexProofs.rmatch_lit; reflexivity | reflexivity]. Qed.

Example C91_instance : exists ts1 ts2,
  cut_at (u "a.s") sample_before (u "," ++ u " " ++ c_ "v" :: sample_after) ts1 ts2 /\ joins (u ",") (c_ "v") = false /\
  exists p', parsed (u "a.s") (lines ["cls"; "add v0,v1"]) p'.
Proof.
  eexists. eexists. split; [|split; [reflexivity|]].
  - unfold cut_at. split; [vm_compute; reflexivity|]. split; [vm_compute; reflexivity | reflexivity].
  - eexists. eexists. split; [vm_compute; reflexivity | vm_compute; reflexivity].
Qed.

(** 'jp $20 abc:' jumps to $20, and a label follows; 'jp $20abc:' jumps to $20A. *)
Example C91_needed : joins (u "$20") (c_ "a") = true /\
  (exists p p', parsed (u "a.s") (u "jp $20 abc:") p /\ parsed (u "a.s") (u "jp $20abc:") p' /\ ~ same_program p p').
Proof.
  split; [reflexivity|]. eexists. eexists. split; [|split].
  - eexists. split; [vm_compute; reflexivity | vm_compute; reflexivity].
  - eexists. split; [vm_compute; reflexivity | vm_compute; reflexivity].
  - intros S. discriminate S.
Qed.

(** The exactness is one of programs and not of token lists: '$0 001' and '$0001' are the same two numbers, though the first
    one joins.  No accepted program has two numbers in a row. *)
Example C91_two_numbers : joins (u "$0") (c_ "0") = true /\
  exists ts ts', scan (u "a.s") (u "$0 001") = Done ts /\ scan (u "a.s") (u "$0001") = Done ts' /\ same_tokens ts ts'.
Proof.
  split; [reflexivity|]. eexists. eexists. split; [vm_compute; reflexivity|]. split; [vm_compute; reflexivity | reflexivity].
Qed.
