(** * SrcTests: the unit tests of c8s, run by the machine of SrcRun.v.

    The [#\[cfg(test)\]] modules are text like the rest of the files (SrcTestText.v).
    Here they are read after the files by the reader of SrcParse.v and run by the
    machine of SrcRun.v, neither of which was made for them.  What the tests use and the
    files do not is given here: [assert_eq!] and the equality it compares with,
    [u12::MIN], closures held by a [let], text that is not ASCII, and a few functions of
    the library. *)

From Coq Require Import String Ascii List NArith Bool FMapPositive.
From Verif Require Import Base Text SrcText SrcTestText SrcLex SrcParse SrcRun SrcCode.
Import ListNotations.
Open Scope string_scope.
Open Scope list_scope.
Open Scope N_scope.

(** ** What is written *)

(** Whether a text is ASCII *)
Fixpoint ascii_only (s : string) : bool :=
  match s with
  | EmptyString => true
  | String c r => (N_of_ascii c <? 128) && ascii_only r
  end.

(** [assert_eq!(a, b)] is [assert!(same(a, b))], [u12::MIN] is [u12!\[0\]], [= || {..}] is
    [= closure(|| {..})], and a text that is not ASCII is [decoded("..")].  [st] has, for
    every bracket that is open, what is to be added after it is closed. *)
Fixpoint prepared (st : list (list tok)) (hold : bool) (l : list tok) : list tok :=
  match l with
  | [] => []
  | TId a :: TP "!" :: TP "(" :: r =>
      if String.eqb a "assert_eq"
      then TId "assert" :: TP "!" :: TP "(" :: TId "same" :: TP "(" :: prepared ([TP ")"] :: st) hold r
      else TId a :: TP "!" :: TP "(" :: prepared ([] :: st) hold r
  | TId "u12" :: TP "::" :: TId "MIN" :: r =>
      TId "u12" :: TP "!" :: TP "[" :: TNum 0 "" :: TP "]" :: prepared st hold r
  | TP "=" :: TP "||" :: r => TP "=" :: TId "closure" :: TP "(" :: TP "||" :: prepared st true r
  | TStr s :: r =>
      if ascii_only s then TStr s :: prepared st hold r
      else TId "decoded" :: TP "(" :: TStr s :: TP ")" :: prepared st hold r
  | TP p :: r =>
      if existsb (String.eqb p) ["("; "["; "{"]
      then TP p :: prepared ((if hold then [TP ")"] else []) :: st) false r
      else if existsb (String.eqb p) [")"; "]"; "}"]
      then TP p :: hd [] st ++ prepared (tl st) hold r
      else TP p :: prepared st hold r
  | t :: r => t :: prepared st hold r
  end.

(** The names of the tests, each with whether it is to panic *)
Fixpoint named (panics : bool) (l : list tok) : list (string * bool) :=
  match l with
  | [] => []
  | TP "#" :: TP "[" :: TId a :: TP "]" :: r =>
      if String.eqb a "test" then named false r
      else named (String.eqb a "should_panic") r
  | TId "fn" :: TId f :: r =>
      if prefix "test_" f then (f, panics) :: named false r else named false r
  | _ :: r => named panics r
  end.

(** The first number no expression of a program has *)
Definition free_id (p : program) : positive :=
  PositiveMap.fold (fun i _ m => Pos.max (Pos.succ i) m) (code p) 1%positive.

(** A program, and the tests of one of its files with it *)
Definition with_tests (p : program) (md : string) (ts : list tok) : option program :=
  match p_items deep md "" "" (mk_pst (prepared [] false ts) (free_id p) []) with
  | Some (ds, s) =>
      match toks s with
      | [] =>
          let t := program_of ds s in
          Some (mk_program
                  (fold_left (fun m iv => PositiveMap.add (fst iv) (snd iv) m) (out s) (code p))
                  (fns p ++ fns t) (cons_ p ++ cons_ t) (consts p ++ consts t))
      | _ => None
      end
  | None => None
  end.

(** ** What the tests use *)

(** [==] where it is derived: of the same make, with the same parts *)
Fixpoint equal (n : nat) (a b : value) : bool :=
  match n with
  | O => false
  | S n' =>
      let all2 := fix go (l m : list value) :=
        match l, m with
        | [], [] => true
        | v :: l', w :: m' => equal n' v w && go l' m'
        | _, _ => false
        end in
      match a, b with
      | VInt _ i, VInt _ j => i =? j
      | VBool x, VBool y => Bool.eqb x y
      | VChar c, VChar d => c =? d
      | VStr s, VStr t => str_eqb s t
      | VTup l, VTup m => all2 l m
      | VVec l, VVec m => all2 l m
      | VCon c l, VCon d m =>
          String.eqb c d && Nat.eqb (length l) (length m) &&
          forallb (fun fv => match assoc m (fst fv) with
                             | Some w => equal n' (snd fv) w
                             | None => false
                             end) l
      | _, _ => false
      end
  end.

(** A text whose bytes are the characters *)
Definition decoded (s : str) : option value :=
  match utf8_decode s with Some t => Some (VStr t) | None => None end.

(** A function the files do not have *)
Definition test_library (f : string) (l : list value) : option (run value) :=
  match l with
  | [a; b] =>
      if String.eqb f "same" then Some (Done (VBool (equal 20 a b)))
      else if String.eqb f "Repeat::take" then
        match a, b with
        | VCon _ [(_, v)], VInt _ n => Some (Done (VIter (repeat v (N.to_nat n))))
        | _, _ => None
        end
      else None
  | [VStr s] =>
      if String.eqb f "decoded" then match decoded s with Some v => Some (Done v) | None => None end
      else None
  | [VCon c l] =>
      if String.eqb f "closure" then Some (Done (VCon c l))
      else if String.eqb f "Err::unwrap_err" then
        match l with [(_, v)] => Some (Done v) | _ => None end
      else if String.eqb f "Ok::unwrap_err" then Some (Crash UnwrapFailed)
      else None
  | [VInt t n] =>
      if String.eqb f "U12::from" then Some (Done (VInt IU12 n))
      else if String.eqb f "repeat" then Some (Done (VCon "Repeat" [("0", VInt t n)]))
      else None
  | _ => None
  end.

(** A method the files do not use *)
Definition test_method (m : string) (l : list value) : option value :=
  match l with
  | [VMap l] => if String.eqb m "len" then Some (VInt IUsize (N.of_nat (length l))) else None
  | [VVec l] => if String.eqb m "to_vec" then Some (VVec l) else None
  | _ => None
  end.
(** An operator between what the files have it not between *)
Definition test_binop (op : string) (a b : value) : option value :=
  match a, b with
  | VStr s, VStr t => if String.eqb op "+" then Some (VStr (s ++ t)) else None
  | _, _ => None
  end.

(** ** Running them *)

(** One step *)
Definition test_step (p : program) (s : state) : state :=
  match step p s with
  | Ask f l k =>
      match test_library f l with
      | Some (Done v) => Back v l k
      | Some (Crash why) => Panic why
      | None => Ask f l k
      end
  | Stuck =>
      match s with
      | Retn v e (KArgs b done [] :: k) =>
          match b, rev (v :: done) with
          | BMethod m _ _, l => match test_method m l with Some w => Retn w e k | None => Stuck end
          | BBin op, [a; c] => match test_binop op a c with Some w => Retn w e k | None => Stuck end
          | _, _ => Stuck
          end
      | _ => Stuck
      end
  | s' => s'
  end.

(** How a test ends *)
Inductive ending : Type := Passed | Panicked (why : crash) | Unfinished (s : state).

(** Within [m] times [n] steps *)
Fixpoint test_steps (p : program) (n : nat) (s : state) : state :=
  match n with O => s | S n' => test_steps p n' (test_step p s) end.
Fixpoint tested (p : program) (m n : nat) (s : state) : ending :=
  match s with
  | Back _ _ [] => Passed
  | Panic why => Panicked why
  | Stuck => Unfinished s
  | Ask _ _ _ => Unfinished s
  | _ => match n with O => Unfinished s | S n' => tested p m n' (test_steps p m s) end
  end.
Definition run_test (p : program) (f : string) : ending := tested p 200 1000 (Call f [] []).

(** The tests of every file *)
Definition unit_tests : list (string * list string) :=
  [ ("opcode", opcode_tests); ("instruction", instruction_tests); ("directive", directive_tests);
    ("data_range", data_range_tests); ("source_file_location", source_file_location_tests);
    ("token", token_tests); ("scanner", scanner_tests); ("parser", parser_tests);
    ("assembler", assembler_tests); ("ihex_writer", ihex_writer_tests) ].
