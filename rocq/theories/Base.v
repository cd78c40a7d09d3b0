(** * Base: conventions shared by every model file.

    No line of /repo is modelled here except the language-level notions the
    Rust code uses everywhere: panics, [Result], [Option], [&str]. *)

From Coq Require Export String Ascii Bool NArith List.
Export ListNotations.
Open Scope N_scope.
Open Scope list_scope.

(** ** Panics.

    Rust functions which can panic return [run A].  The reasons are only there
    to make the model readable; no theorem distinguishes them. *)
Inductive crash : Set :=
| AssertFailed      (* assert!(..)                        *)
| UnwrapFailed      (* Option::unwrap / Result::unwrap     *)
| BadSlice          (* &s[a..b] out of range / off a char boundary *)
| ArithOverflow     (* checked arithmetic, debug profile   *)
| ExplicitPanic     (* panic!(..)                          *)
| IndexOutOfBounds  (* v[i]                                *)
| OutOfFuel.        (* the model's own loop bound; proved unreachable *)

(** The result of running Rust code: a value, or a panic. *)
Inductive run (A : Type) : Type :=
| Done (a : A)
| Crash (why : crash).
Arguments Done {A} a.
Arguments Crash {A} why.

(** One statement after the other; a panic ends it. *)
Definition bind {A B : Type} (m : run A) (k : A -> run B) : run B :=
  match m with
  | Done a => k a
  | Crash why => Crash why
  end.

Notation "'let*' x ':=' m 'in' k" := (bind m (fun x => k))
  (at level 200, x pattern, m at level 100, k at level 200, right associativity).

(** [assert!(b)] *)
Definition assert_ (b : bool) : run unit :=
  if b then Done tt else Crash AssertFailed.

(** [o.unwrap()] *)
Definition unwrap {A : Type} (o : option A) : run A :=
  match o with
  | Some a => Done a
  | None => Crash UnwrapFailed
  end.

(** ** [Result]. *)
Inductive result (E A : Type) : Type :=
| Ok (a : A)
| Err (e : E).
Arguments Ok {E A} a.
Arguments Err {E A} e.

(** [try!(m)] inside a function that can both fail and panic. *)
Definition try_ {E A B : Type} (m : run (result E A)) (k : A -> run (result E B))
  : run (result E B) :=
  match m with
  | Done (Ok a) => k a
  | Done (Err e) => Done (Err e)
  | Crash why => Crash why
  end.

Notation "'try*' x ':=' m 'in' k" := (try_ m (fun x => k))
  (at level 200, x pattern, m at level 100, k at level 200, right associativity).

(** [Option::ok_or], assembler.rs:138,145,186, instruction.rs:73,84,356 *)
Definition ok_or {E A : Type} (o : option A) (e : E) : result E A :=
  match o with
  | Some a => Ok a
  | None => Err e
  end.

(** [Result::map_err], assembler.rs:128,230 *)
Definition map_err {E F A : Type} (f : E -> F) (r : result E A) : result F A :=
  match r with
  | Ok a => Ok a
  | Err e => Err (f e)
  end.

(** ** Bytes, characters and strings.

    [char] is a Unicode scalar value; a [str] ([&str] / [String]) is its list of
    characters, from which the UTF-8 bytes are computed (see Text.v). *)
Notation byte := N (only parsing).
Notation char := N (only parsing).
Notation str := (list N) (only parsing).

(** Source-level string constants. *)
Fixpoint u (s : string) : str :=
  match s with
  | EmptyString => []
  | String a r => N_of_ascii a :: u r
  end.

(** Character constants of the Rust source. *)
Definition c_ (a : ascii) : char := N_of_ascii a.

(** [==] on strings. *)
Fixpoint str_eqb (a b : str) : bool :=
  match a, b with
  | [], [] => true
  | x :: a', y :: b' => (x =? y) && str_eqb a' b'
  | _, _ => false
  end.

(** [str::starts_with] *)
Fixpoint starts_with (s p : str) : bool :=
  match p, s with
  | [], _ => true
  | _ :: _, [] => false
  | x :: p', y :: s' => (x =? y) && starts_with s' p'
  end.
