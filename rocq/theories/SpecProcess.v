(** * SpecProcess: arguments as bytes, and names of files. *)

From Verif Require Import Base SpecUtf8 Process.
Open Scope N_scope.

(** The arguments which are UTF-8 text, and the texts. *)
Definition arguments_are (argv : list (list byte)) (args : list str) : Prop := Forall2 encoding args argv.

(** Two names of one file, or of one place for a file. *)
Definition same_file (d : disk) (p q : str) : Prop :=
  exists x y, d_entry d p = Some x /\ d_entry d q = Some y /\
    (x = y \/ exists i, d_file d x = Some i /\ d_file d y = Some i).

(** A new file is not an old one. *)
Definition sound_disk (d : disk) : Prop := forall x i, d_file d x = Some i -> i <> d_fresh d.

(** The disk [d'] is [d] but for the content under the name [path]. *)
Definition only_changed (path : str) (bytes : list byte) (d d' : disk) : Prop :=
  (forall q, same_file d path q -> content d' q = Some bytes) /\
  (forall q, ~ same_file d path q -> content d' q = content d q).
