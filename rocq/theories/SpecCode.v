(** * SpecCode: what the code reads.

    Names for runs of the scanner and the parser, used to state properties of texts.
    [LexCode.v] relates them to the grammars. *)

From Verif Require Import Base Text Location Token Scanner Parser SpecLex SpecErase.
Open Scope N_scope.

Definition is_error_token (t : token) : bool :=
  match t with ErrorToken _ _ => true | _ => false end.

(** The scanner which has passed [before] and has [s] in front of it. *)
Definition standing (file before s : str) : scanner :=
  mk_scanner file (before ++ s) (byte_len before) (1 + newlines before)
             (1 + N.of_nat (length (last_line before))).

(** From there it returns the tokens [ts]. *)
Definition reading (file before s : str) (ts : list token) : Prop :=
  scan_fuel (S (length s)) (standing file before s) = Done ts.

(** The code reads the text as the syntax list [p]. *)
Definition parsed (file s : str) (p : list node) : Prop :=
  exists ts, scan file s = Done ts /\ parse ts = Done (Ok p).

(** The code reads the two texts as the same program, or refuses both. *)
Definition same_reading (file s s' : str) : Prop :=
  (forall p, parsed file s p -> exists p', parsed file s' p' /\ same_program p p') /\
  (forall p', parsed file s' p' -> exists p, parsed file s p /\ same_program p p').

(** [a ++ b] is cut between tokens after [a]: the tokens of [a] are the first ones. *)
Definition cut_at (file a b : str) (ts1 ts2 : list token) : Prop :=
  scan file a = Done ts1 /\ scan file (a ++ b) = Done (ts1 ++ ts2) /\
  existsb is_error_token ts1 = false.
