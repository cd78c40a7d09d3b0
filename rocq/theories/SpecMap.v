(** * SpecMap: what a map has to do, and two that do it. *)

From Verif Require Import Base Text U12 Instruction Maps.
Open Scope N_scope.

Definition same_name (a b : str) : bool := if list_eq_dec N.eq_dec a b then true else false.

(** After [insert m k v], [get] finds [v] for [k], and for other keys what it found before; [contains_key] says whether [get]
    finds anything.  This need hold only of the maps that can come about ([good]). *)
Record lawful_on (mp : maps) (good : map_of mp -> Prop) : Prop := {
  law_new_good : good (map_new mp);
  law_insert_good : forall m k v, good m -> good (map_insert mp m k v);
  law_new : forall k, map_get mp (map_new mp) k = None;
  law_same : forall m k v, good m -> map_get mp (map_insert mp m k v) k = Some v;
  law_other : forall m k v k', good m -> k <> k' -> map_get mp (map_insert mp m k v) k' = map_get mp m k';
  law_contains : forall m k, good m -> (map_contains mp m k = true <-> exists v, map_get mp m k = Some v)
}.

Definition lawful (mp : maps) : Prop := exists good, lawful_on mp good.

(** ** A hash table *)

(** Buckets of pairs; there is always one at least. *)
Definition entry : Type := str * N.
Definition table : Type := list (list entry).

(** [hash] may be any function of the key: the one of the standard library is chosen at random for each table. *)
Definition bucket_of (hash : str -> N) (t : table) (k : str) : nat := N.to_nat (hash k mod N.of_nat (length t)).

Fixpoint bucket_get (b : list entry) (k : str) : option N :=
  match b with
  | [] => None
  | (k', v) :: r => if same_name k' k then Some v else bucket_get r k
  end.

(** A key that is there already gets the new value. *)
Fixpoint bucket_put (b : list entry) (k : str) (v : N) : list entry :=
  match b with
  | [] => [(k, v)]
  | (k', v') :: r => if same_name k' k then (k', v) :: r else (k', v') :: bucket_put r k v
  end.

Fixpoint change_nth (n : nat) (f : list entry -> list entry) (t : table) : table :=
  match t, n with
  | [], _ => []
  | b :: r, O => f b :: r
  | b :: r, S n => b :: change_nth n f r
  end.

Definition table_get (hash : str -> N) (t : table) (k : str) : option N := bucket_get (nth (bucket_of hash t k) t []) k.
Definition table_put (hash : str -> N) (t : table) (k : str) (v : N) : table :=
  change_nth (bucket_of hash t k) (fun b => bucket_put b k v) t.

(** With as many entries as buckets, everything is moved to a table twice as large first. *)
Definition entries (t : table) : list entry := concat t.
Definition grown (hash : str -> N) (t : table) : table :=
  fold_left (fun t' e => table_put hash t' (fst e) (snd e)) (entries t) (repeat [] (2 * length t)).
Definition table_insert (hash : str -> N) (t : table) (k : str) (v : N) : table :=
  table_put hash (if Nat.leb (length t) (length (entries t)) then grown hash t else t) k v.

Definition hash_table (hash : str -> N) : maps :=
  mk_maps table [[]] (table_get hash) (fun t k => match table_get hash t k with Some _ => true | None => false end) (table_insert hash).

(** A list of pairs. *)
Definition pairs : maps :=
  mk_maps label_map [] label_get (fun m k => match label_get m k with Some _ => true | None => false end)
    (fun m k v => (k, v) :: m).
