(** * TextCode: texts as the code reads them, and as the grammars do. *)

From Verif Require Import Base Text Location Token Scanner Parser SpecLex SpecGrammar SpecErase SpecCode
  BaseFacts LexTheorems ParseProofs TextProofs.
Open Scope N_scope.

Lemma parsed_stands : forall file s p, parsed file s p <-> stands_for file s p.
Proof.
  intros file s p. unfold parsed, stands_for. split; intros (ts & S & P); exists ts.
  - split; [apply scan_lexes; exact S | apply parse_program; exact P].
  - split; [apply scan_lexes; exact S | apply parse_program; exact P].
Qed.

Lemma alike_same : forall file s s', same_reading file s s' <-> same_text file s s'.
Proof.
  intros file s s'. unfold same_reading, same_text. split; intros [A B]; split; intros p P.
  - destruct (A p) as (p' & P' & S); [apply parsed_stands; exact P|]. exists p'.
    split; [apply parsed_stands; exact P' | exact S].
  - destruct (B p) as (p' & P' & S); [apply parsed_stands; exact P|]. exists p'.
    split; [apply parsed_stands; exact P' | exact S].
  - destruct (A p) as (p' & P' & S); [apply parsed_stands; exact P|]. exists p'.
    split; [apply parsed_stands; exact P' | exact S].
  - destruct (B p) as (p' & P' & S); [apply parsed_stands; exact P|]. exists p'.
    split; [apply parsed_stands; exact P' | exact S].
Qed.

Lemma cut_boundary : forall file a b ts1 ts2, cut_at file a b ts1 ts2 <-> boundary file a b ts1 ts2.
Proof. intros. unfold cut_at, boundary. rewrite !scan_lexes. reflexivity. Qed.
