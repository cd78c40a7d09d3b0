(** * Getopts: the command line, src/main.rs:127-139.

    [Options::parse] of the getopts crate (0.2), from its documentation, for the
    kinds of options main.rs declares: [optopt] (an argument, at most once) and
    [optflag] (no argument, at most once).  The other theorems about the tool do
    not use this file: [e_options] is arbitrary there. *)

From Verif Require Import Base Text Main.
Open Scope N_scope.

(** Where releases of the crate differ: whether what looks like an option may be the
    argument of one ("-o -x"), and whether a letter may have two dashes ("--h"). *)
Record rules : Type := mk_rules {
  r_dashed_value : bool;
  r_dashed_letter : bool
}.

(** getopts: [Name]; main.rs:130-133 *)
Inductive name : Type :=
| LongName (s : str)
| ShortName (c : char).

(** getopts: [Fail] *)
Inductive failure : Type :=
| ArgumentMissing (n : name)
| UnrecognizedOption (n : name)
| OptionDuplicated (n : name)
| UnexpectedArgument (n : name).

(** getopts: [Opt], as far as [optopt] and [optflag] set it, main.rs:131-133 *)
Record opt : Type := mk_opt {
  o_short : char;
  o_long : str;
  o_argument : bool
}.

(** main.rs:130-133 *)
Definition c8s_options : list opt :=
  [mk_opt (c_ "o") (u "output") true; mk_opt (c_ "h") (u "help") false; mk_opt (c_ "v") (u "version") false].

(** getopts: the comparison of names in [find_opt], for main.rs:136 *)
Definition has_name (n : name) (o : opt) : bool :=
  match n with
  | LongName s => str_eqb s (o_long o)
  | ShortName c => c =? o_short o
  end.

(** getopts: [find_opt] *)
Fixpoint find_opt (opts : list opt) (n : name) : option opt :=
  match opts with
  | [] => None
  | o :: r => if has_name n o then Some o else find_opt r n
  end.

(** getopts: [is_arg] *)
Definition is_arg (s : str) : bool :=
  match s with c :: _ :: _ => c =? c_ "-" | _ => false end.

(** [splitn(2, '=')]: the part before the first '=', and the part after it. *)
Fixpoint split_equals (s : str) : str * option str :=
  match s with
  | [] => ([], None)
  | c :: r =>
      if c =? c_ "=" then ([], Some r)
      else let '(a, b) := split_equals r in (c :: a, b)
  end.

(** The name after two dashes. *)
Definition long_name (r : rules) (s : str) : name :=
  match s with
  | [c] => if r_dashed_letter r && (c <? 128) then ShortName c else LongName s
  | _ => LongName s
  end.

(** The names in a word with one dash, and the argument in it. *)
Fixpoint cluster (opts : list opt) (s : str) : result failure (list name * option str) :=
  match s with
  | [] => Ok ([], None)
  | c :: r =>
      match find_opt opts (ShortName c) with
      | None => Err (UnrecognizedOption (ShortName c))
      | Some o =>
          match r with
          | _ :: _ =>
              if o_argument o then Ok ([ShortName c], Some r)
              else match cluster opts r with
                   | Ok (names, argument) => Ok (ShortName c :: names, argument)
                   | Err e => Err e
                   end
          | [] => Ok ([ShortName c], None)
          end
      end
  end.

(** What was given: options with their arguments. *)
Definition gifts := list (opt * option str).

(** The names of one word, in order; an argument may be the next word. *)
Fixpoint store (r : rules) (opts : list opt) (argument : option str) (names : list name)
         (rest : list str) (vals : gifts) : result failure (list str * gifts) :=
  match names with
  | [] => Ok (rest, vals)
  | n :: more =>
      match find_opt opts n with
      | None => Err (UnrecognizedOption n)
      | Some o =>
          if o_argument o then
            match argument with
            | Some v => store r opts argument more rest (vals ++ [(o, Some v)])
            | None =>
                match more, rest with
                | [], v :: rest' =>
                    if is_arg v && negb (r_dashed_value r) then Err (ArgumentMissing n)
                    else store r opts argument more rest' (vals ++ [(o, Some v)])
                | _, _ => Err (ArgumentMissing n)
                end
            end
          else
            match more, argument with
            | [], Some _ => Err (UnexpectedArgument n)
            | _, _ => store r opts argument more rest (vals ++ [(o, None)])
            end
      end
  end.

(** The words of the command line; loop bounded by fuel. *)
Fixpoint words (r : rules) (opts : list opt) (fuel : nat) (args : list str) (vals : gifts) (free : list str)
  : run (result failure (gifts * list str)) :=
  match fuel with
  | O => Crash OutOfFuel
  | S n =>
      match args with
      | [] => Done (Ok (vals, free))
      | word :: rest =>
          if negb (is_arg word) then words r opts n rest vals (free ++ [word])
          else if str_eqb word (u "--") then Done (Ok (vals, free ++ rest))
          else
            let names :=
              match word with
              | _ :: d :: tail =>
                  if d =? c_ "-" then
                    let '(s, argument) := split_equals tail in Ok ([long_name r s], argument)
                  else cluster opts (d :: tail)
              | _ => Ok ([], None)
              end in
            match names with
            | Err e => Done (Err e)
            | Ok (names, argument) =>
                match store r opts argument names rest vals with
                | Err e => Done (Err e)
                | Ok (rest, vals) => words r opts n rest vals free
                end
            end
      end
  end.

(** getopts: the options are told apart, for main.rs:136 *)
Definition same_opt (a b : opt) : bool := str_eqb (o_long a) (o_long b).
(** getopts: [Matches::opt_vals], for main.rs:142-154 *)
Definition vals_of (o : opt) (vals : gifts) : gifts := filter (fun x => same_opt o (fst x)) vals.

(** At most once each. *)
Fixpoint duplicated (opts : list opt) (vals : gifts) : option failure :=
  match opts with
  | [] => None
  | o :: r =>
      if Nat.ltb 1 (length (vals_of o vals)) then Some (OptionDuplicated (LongName (o_long o)))
      else duplicated r vals
  end.

(** getopts: [Options::parse] *)
Definition getopts (r : rules) (opts : list opt) (args : list str)
  : run (result failure (gifts * list str)) :=
  try* (vals, free) := words r opts (S (length args)) args [] [] in
  match duplicated opts vals with
  | Some e => Done (Err e)
  | None => Done (Ok (vals, free))
  end.

(** getopts: [Matches::opt_present] and [opt_str] *)
Definition opt_present (opts : list opt) (vals : gifts) (c : char) : bool :=
  match find_opt opts (ShortName c) with
  | Some o => Nat.ltb 0 (length (vals_of o vals))
  | None => false
  end.
(** getopts: [Matches::opt_str], main.rs:154 *)
Definition opt_str (opts : list opt) (vals : gifts) (c : char) : option str :=
  match find_opt opts (ShortName c) with
  | Some o => match vals_of o vals with (_, Some v) :: _ => Some v | _ => None end
  | None => None
  end.

(** main.rs:136-154: the matches as far as main.rs looks at them *)
Definition command_line (r : rules) (args : list str) : run (result failure matches) :=
  try* (vals, free) := getopts r c8s_options args in
  Done (Ok (mk_matches (opt_present c8s_options vals (c_ "h")) (opt_present c8s_options vals (c_ "v"))
                       (opt_str c8s_options vals (c_ "o")) free)).
