(** * Shared: several runs of the tool at once, on the same files.

    Each run makes its calls one after the other, as in Calls.v; the calls of different runs come in any order.  A
    read gives what is in the file at this moment, and a write changes the file at once. *)

From Verif Require Import Base Text Main Calls.
Open Scope N_scope.

(** [write] at a position in a file: what was there is replaced; behind the end, there are zeros in between *)
Definition patch (old : list byte) (at_ : nat) (new : list byte) : list byte :=
  firstn at_ old ++ repeat 0 (at_ - length old) ++ new ++ skipn (at_ + length new) old.

(** The answers that agree with the files; any call may fail or be interrupted.  main.rs:37 opens what is there,
    main.rs:46 reads on, and the end is where the file ends at this moment. *)
Definition allowed (f : fs) (s : state) (a : answer) : Prop :=
  match s, a with
  | Opening input _, Opened => f input <> None
  | Reading input _ got, Got bytes =>
      exists data rest, f input = Some data /\ skipn (length got) data = bytes ++ rest /\ (bytes = [] -> rest = [])
  | _, _ => True
  end.

(** The files after the answer.  [File::create], main.rs:90, makes the file empty; [write], main.rs:100, is at the
    position the run has reached. *)
Definition effect (f : fs) (s : state) (a : answer) : fs :=
  match s, a with
  | Creating output _, Opened => fs_set f output []
  | Writing output written rest, Took n =>
      fs_set f output (patch (match f output with Some old => old | None => [] end) (length written) (firstn n rest))
  | _, _ => f
  end.

(** A call of the run number [i], or something else that happens to files. *)
Inductive event : Type :=
| Call (i : nat) (a : answer)
| Other.

(** The calls one run made, main.rs:36-105 *)
Definition calls_of (i : nat) (tr : list event) : list answer :=
  flat_map (fun ev => match ev with Call j a => if Nat.eqb i j then [a] else [] | Other => [] end) tr.

(** The files a run was told about, main.rs:154-163 *)
Definition names (e : env) (path : str) : Prop :=
  match begin_main e with Opening input output => path = input \/ path = output | _ => False end.

(** From the files [f0] the events lead to the files [f].  Nobody else touches the files of the runs. *)
Inductive happens (zero : str) (runs : list env) (f0 : fs) : list event -> fs -> Prop :=
| h_start : happens zero runs f0 [] f0
| h_call : forall tr f i e s a s', happens zero runs f0 tr f -> nth_error runs i = Some e ->
    process_after e zero (calls_of i tr) = Some s -> answered e zero s a = Some s' -> allowed f s a ->
    happens zero runs f0 (tr ++ [Call i a]) (effect f s a)
| h_other : forall tr f f', happens zero runs f0 tr f ->
    (forall e path, In e runs -> names e path -> f' path = f path) ->
    happens zero runs f0 (tr ++ [Other]) f'.
