(** * PropMachine: C101, little memory is enough for the syntax, but not for the labels. *)

From Verif Require Import Base BaseFacts Text Location Token Scanner Parser Main SpecLex SpecGrammar SpecCode SpecMachine.
From Verif Require Import LexTheorems ParseProofs MachineProofs MachineLimits.
From Verif Require Import PropOutput.
Open Scope N_scope.

(** The machine of SpecMachine.v says yes to exactly the texts that the scanner and the parser read as programs. *)
Theorem C101_syntax : forall file s, content (remembered at_first s) = true <-> exists p, parsed file s p.
Proof.
  intros file s. destruct (scan_total file s) as (ts & Es). pose proof Es as L. apply scan_lexes in L.
  change (content (remembered at_first s)) with (says (At Start Between) s). rewrite (lexes_says _ _ _ _ L), tokens_follow.
  cbn [follows]. split.
  - intros (p & P). exists p, ts. split; [exact Es | apply parse_program; exact P].
  - intros (p & ts' & Es' & P). assert (ts' = ts) by congruence. subst ts'. exists p. apply parse_program. exact P.
Qed.
Print Assumptions C101_syntax.

(** It refuses a text as soon as nothing that follows could make a program of it. *)
Theorem C101_soon : forall file s, remembered at_first s = Refused <-> forall t p, ~ parsed file (s ++ t) p.
Proof.
  intros file s. split.
  - intros E t p H. assert (X : content (remembered at_first (s ++ t)) = true) by (apply (C101_syntax file); exists p; exact H).
    rewrite remembered_app, E, refused_stays in X. discriminate X.
  - intros H. destruct (remembered at_first s) as [|y q] eqn:E; [reflexivity|]. exfalso.
    destruct (can_go_on s y q E) as (t & X). apply (C101_syntax file) in X. destruct X as (p & X). exact (H t p X).
Qed.
Print Assumptions C101_soon.

(** What it remembers is a number of 69 bits. *)
Theorem C101_memory : (forall s, memory_number (remembered at_first s) < 2 ^ 69) /\
  (forall w w', memory_number w = memory_number w' -> w = w').
Proof. split; [intros s; apply memory_small, bounded_after; exact I | apply memory_exact]. Qed.
Print Assumptions C101_memory.

(** So texts after which it remembers the same may stand for each other before any other text. *)
Theorem C101_alike : forall file a a' b, remembered at_first a = remembered at_first a' ->
  ((exists p, parsed file (a ++ b) p) <-> exists p, parsed file (a' ++ b) p).
Proof. intros file a a' b E. rewrite <- !C101_syntax, !remembered_app, E. reflexivity. Qed.
Print Assumptions C101_alike.

(** A machine that is right about which texts are accepted, even if about short ones only, must be able to remember
    which labels there are: it has at least [2 ^ k] memories after texts of about [k * k] characters. *)
Theorem C101_labels : forall (A : Type) (m : machine A) e file k,
  (forall s, (length s <= k * k + 3 * k + 4)%nat -> Forall (fun c => c < 128) s ->
     (m_says m (m_after m s) = true <-> exists text, assemble_text e file s = Done (Ok text))) ->
  exists memories, NoDup memories /\ length memories = (2 ^ k)%nat /\
    forall w, In w memories -> exists s, (length s <= k * k + 3 * k + 4)%nat /\ Forall (fun c => c < 128) s /\ w = m_after m s.
Proof. exact labels_need. Qed.
Print Assumptions C101_labels.

(** No machine with finitely many memories is right about all texts. *)
Theorem C101_unlimited : forall (A : Type) (m : machine A) e file memories,
  (forall s, m_says m (m_after m s) = true <-> exists text, assemble_text e file s = Done (Ok text)) ->
  ~ forall s, In (m_after m s) memories.
Proof.
  intros A m e file memories Right H. destruct (C101_labels A m e file (length memories)) as (l & Nd & L & X); [auto|].
  assert (length l <= length memories)%nat.
  { apply NoDup_incl_length; [exact Nd|]. intros w Hw. destruct (X w Hw) as (s & _ & _ & ->). apply H. }
  assert (length memories < 2 ^ length memories)%nat by (apply Nat.pow_gt_lin_r; lia). lia.
Qed.
Print Assumptions C101_unlimited.

(** ** Instances *)

Definition sample_text : str :=
  u "loop: LD V0, $0FF ; load" ++ [10] ++ u " .db %1.1, 4095, ""a\""b"" jp loop add [I], vF" ++ [10].

Example C101_instance : content (remembered at_first sample_text) = true /\
  exists p, parsed [] sample_text p.
Proof. split; [vm_compute; reflexivity | apply C101_syntax; vm_compute; reflexivity]. Qed.

(** A number out of range is refused at its last digit, a digit too many at once, a comma after a label at once. *)
Example C101_refused :
  remembered at_first (u "ld v0, 409") = At AfterField (InDecimal 409) /\
  remembered at_first (u "ld v0, 4096") = Refused /\
  remembered at_first (u "ld v0, $123") = At AfterField Between /\
  remembered at_first (u "ld v0, $1234") = Refused /\
  remembered at_first (u "a:,") = Refused /\
  (forall t p, ~ parsed [] (u "a:," ++ t) p).
Proof. do 5 (split; [vm_compute; reflexivity|]). apply C101_soon. vm_compute. reflexivity. Qed.

(** Binary numbers need the most: after these digits, zeros would lead back to a number in range. *)
Example C101_binary :
  remembered at_first (u ".db %1" ++ repeat (c_ "0") 12) = At AfterLiteral (InBinary 4096) /\
  content (At AfterLiteral (InBinary 4096)) = false /\
  content (remembered (At AfterLiteral (InBinary 4096)) (repeat (c_ "0") 52)) = true /\
  exists p, parsed [] (u ".db %1" ++ repeat (c_ "0") 64) p.
Proof. do 3 (split; [vm_compute; reflexivity|]). apply C101_syntax. vm_compute. reflexivity. Qed.

(** The machine that remembers everything is right about everything. *)
Definition hoarder : machine str :=
  mk_machine str [] (fun w c => w ++ [c])
    (fun w => match assemble_text sample_env [] w with Done (Ok _) => true | _ => false end).

Example C101_hoarder : forall s, m_says hoarder (m_after hoarder s) = true <-> exists text, assemble_text sample_env [] s = Done (Ok text).
Proof.
  assert (X : forall s w, fold_left (m_read hoarder) s w = w ++ s).
  { induction s as [|c s IH]; intros w; [symmetry; apply app_nil_r|]. cbn [fold_left]. rewrite IH. cbn [hoarder m_read].
    rewrite <- app_assoc. reflexivity. }
  intros s. unfold m_after. rewrite X. cbn [hoarder m_first m_says app].
  destruct (assemble_text sample_env [] s) as [[t|m]|c]; split; try discriminate; try (intros (t' & H); discriminate H).
  - intros _. exists t. reflexivity.
  - reflexivity.
Qed.
