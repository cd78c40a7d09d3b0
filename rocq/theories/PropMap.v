(** * C102: any map from names to addresses does. *)

From Coq Require Import String.
From Verif Require Import Base BaseFacts Text Location Token Scanner Parser U12 Directive Opcode Instruction
  DataRange Assembler IHex Main Maps SpecMap MapProofs PropOutput.
Import ListNotations.
Open Scope string_scope.
Open Scope list_scope.
Open Scope N_scope.

(** C102.  The text that is written, or the message, does not depend on the map the addresses of the labels are kept in, so
    long as it is a map. *)
Theorem C102_any_map : forall mp : maps, lawful mp ->
  forall e path s, assemble_text_with mp e path s = assemble_text e path s.
Proof. exact text_same. Qed.
Print Assumptions C102_any_map.

(** A hash table is one, whatever the function that hashes, be it one that takes all names to the same number. *)
Theorem C102_hash_table : forall hash : str -> N, lawful (hash_table hash).
Proof. exact table_lawful. Qed.
Print Assumptions C102_hash_table.

(** So the seed of the hash, which differs from run to run, is of no consequence. *)
Theorem C102_same_every_run : forall (hash hash' : str -> N) e path s,
  assemble_text_with (hash_table hash) e path s = assemble_text_with (hash_table hash') e path s.
Proof. intros. rewrite !text_same by apply table_lawful. reflexivity. Qed.
Print Assumptions C102_same_every_run.

Theorem C102_list : lawful pairs.
Proof. exact pairs_lawful. Qed.

(** ** Instances *)

Definition text : str := u "first: jp third
second: jp first
third: jp second
fourth: ld i, fourth
".

Definition sum_of (k : str) : N := fold_left (fun a c => 31 * a + c) k 7.

(** The tables look different: the names are in different places. *)
Definition filled (hash : str -> N) : list (list str) :=
  map (map fst) (fold_left (fun t k => table_insert hash t k 1) [u "first"; u "second"; u "third"; u "fourth"] [[]]).

Example C102_instance_tables :
  filled sum_of <> filled (fun _ => 0) /\ length (filled sum_of) = 4%nat /\ length (filled (fun _ => 0)) = 4%nat.
Proof. split; [vm_compute; discriminate | split; vm_compute; reflexivity]. Qed.


(** A table that goes by the hash and never looks at the name. *)
Definition careless (hash : str -> N) : maps :=
  mk_maps (list (N * N)) []
    (fun m k => option_map snd (List.find (fun e => fst e =? hash k) m))
    (fun m k => if List.find (fun e => fst e =? hash k) m then true else false)
    (fun m k v => (hash k, v) :: m).

Definition length_of (k : str) : N := N.of_nat (length k).

Example C102_instance :
  assemble_text_with (hash_table sum_of) sample_env (u "a.8s") text
    = Done (Ok (u ":08000000100410001002A0061C
:00000001FF
")) /\
  assemble_text sample_env (u "a.8s") text = Done (Ok (u ":08000000100410001002A0061C
:00000001FF
")).
Proof. split; vm_compute; reflexivity. Qed.

Example C102_careless :
  assemble_text_with (careless length_of) sample_env (u "a.8s") text
    = Done (Err (u "a.8s:3:1-5: error: Attempted re-definition of label 'third'.
")).
Proof. vm_compute. reflexivity. Qed.

Example C102_careless_unlawful : ~ lawful (careless length_of).
Proof.
  intros L. pose proof (C102_any_map _ L sample_env (u "a.8s") text) as H.
  rewrite C102_careless in H. rewrite (proj2 C102_instance) in H. discriminate H.
Qed.
