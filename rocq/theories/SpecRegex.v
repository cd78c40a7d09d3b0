(** * SpecRegex: the regular expressions of the regex crate, as far as scanner.rs uses them.

    From the documentation of the crate: how a pattern is written, and which of the
    possible matches [Regex::find] returns, namely the leftmost, and of those the one
    preferred: the left alternative before the right, more repetitions before fewer.
    Nothing of the model is used. *)

From Verif Require Import Base Text SpecLex.
Open Scope N_scope.

(** ** Syntax *)

(** What may stand in a character class. *)
Inductive item : Type :=
| Range (low high : char)
| NotSpace.

Inductive regex : Type :=
| RStart                               (* ^ *)
| RClass (negated : bool) (items : list item)
| REmpty
| RCat (a b : regex)
| RAlt (a b : regex)
| RStar (a : regex).

(** [a{m,n}] and [a{m,}] *)
Fixpoint up_to (n : nat) (a : regex) : regex :=
  match n with O => REmpty | S n => RAlt (RCat a (up_to n a)) REmpty end.
Fixpoint then_times (m : nat) (a rest : regex) : regex :=
  match m with O => rest | S m => RCat a (then_times m a rest) end.

(** The character an escape stands for, if it stands for one. *)
Definition escaped (c : char) : option char :=
  if c =? c_ "n" then Some 10
  else if among "\.$#*+?()[]{}|^" c then Some c
  else None.

(** The items of a class up to its bracket. *)
Fixpoint read_items (s : str) : option (list item * str) :=
  match s with
  | [] => None
  | c :: r =>
      if c =? c_ "]" then Some ([], r)
      else if c =? c_ "\" then
        match r with
        | d :: r' =>
            match (if d =? c_ "S" then Some NotSpace
                   else match escaped d with Some x => Some (Range x x) | None => None end), read_items r' with
            | Some i, Some (is, rest) => Some (i :: is, rest)
            | _, _ => None
            end
        | [] => None
        end
      else match r with
        | d :: e :: r' =>
            if (d =? c_ "-") && negb (e =? c_ "]") then
              match read_items r' with Some (is, rest) => Some (Range c e :: is, rest) | None => None end
            else match read_items r with Some (is, rest) => Some (Range c c :: is, rest) | None => None end
        | _ => match read_items r with Some (is, rest) => Some (Range c c :: is, rest) | None => None end
        end
  end.

(** A one-digit number. *)
Definition small (c : char) : option nat := option_map N.to_nat (index_of c (u "0123456789")).

(** An operator after [a]. *)
Definition read_repetition (a : regex) (s : str) : option (regex * str) :=
  match s with
  | c :: r =>
      if c =? c_ "*" then Some (RStar a, r)
      else if c =? c_ "+" then Some (RCat a (RStar a), r)
      else if c =? c_ "?" then Some (RAlt a REmpty, r)
      else if c =? c_ "{" then
        match r with
        | m :: comma :: n :: r' =>
            match small m with
            | Some m' =>
                if negb (comma =? c_ ",") then None
                else if n =? c_ "}" then Some (then_times m' a (RStar a), r')
                else match small n, r' with
                     | Some n', close :: r'' =>
                         if close =? c_ "}" then Some (then_times m' a (up_to (n' - m') a), r'') else None
                     | _, _ => None
                     end
            | None => None
            end
        | _ => None
        end
      else Some (a, s)
  | [] => Some (a, s)
  end.

Fixpoint read_alternatives (fuel : nat) (s : str) : option (regex * str) :=
  match fuel with
  | O => None
  | S n =>
      match read_sequence n s with
      | Some (a, c :: r) =>
          if c =? c_ "|" then
            match read_alternatives n r with Some (b, rest) => Some (RAlt a b, rest) | None => None end
          else Some (a, c :: r)
      | x => x
      end
  end
with read_sequence (fuel : nat) (s : str) : option (regex * str) :=
  match fuel with
  | O => None
  | S n =>
      match s with
      | [] => Some (REmpty, s)
      | c :: _ =>
          if among "|)" c then Some (REmpty, s)
          else match read_atom n s with
               | Some (a, r) =>
                   match read_repetition a r with
                   | Some (a', r') =>
                       match read_sequence n r' with Some (b, rest) => Some (RCat a' b, rest) | None => None end
                   | None => None
                   end
               | None => None
               end
      end
  end
with read_atom (fuel : nat) (s : str) : option (regex * str) :=
  match fuel, s with
  | S n, c :: r =>
      if c =? c_ "^" then Some (RStart, r)
      else if c =? c_ "." then Some (RClass true [Range LF LF], r)
      else if c =? c_ "\" then
        match r with
        | d :: r' => match escaped d with Some x => Some (RClass false [Range x x], r') | None => None end
        | [] => None
        end
      else if c =? c_ "[" then
        match r with
        | d :: r' =>
            let negated := d =? c_ "^" in
            match read_items (if negated then r' else r) with
            | Some (is, rest) => Some (RClass negated is, rest)
            | None => None
            end
        | [] => None
        end
      else if c =? c_ "(" then
        match r with
        | q :: colon :: r' =>
            if (q =? c_ "?") && (colon =? c_ ":") then
              match read_alternatives n r' with
              | Some (a, close :: rest) => if close =? c_ ")" then Some (a, rest) else None
              | _ => None
              end
            else None
        | _ => None
        end
      else if among "*+?{" c then None
      else Some (RClass false [Range c c], r)
  | _, _ => None
  end.

(** [Regex::new] *)
Definition read_regex (s : str) : option regex :=
  match read_alternatives (3 * length s + 3) s with
  | Some (a, []) => Some a
  | _ => None
  end.

(** ** Matching *)

Definition in_item (c : char) (i : item) : bool :=
  match i with
  | Range low high => (low <=? c) && (c <=? high)
  | NotSpace => negb (blank c || (c =? LF))
  end.

Definition in_class (negated : bool) (items : list item) (c : char) : bool :=
  xorb negated (existsb (in_item c) items).

(** What is left of the text after a match at its start, for all ways to match, the
    preferred first; and whether that is still the start of the whole text. *)
Definition ways_star (ways : bool -> str -> list (bool * str)) : nat -> bool -> str -> list (bool * str) :=
  fix go (fuel : nat) (start : bool) (s : str) : list (bool * str) :=
    match fuel with
    | O => []
    | S n =>
        flat_map (fun x => if Nat.ltb (length (snd x)) (length s) then go n (fst x) (snd x) else [])
                 (ways start s)
          ++ [(start, s)]
    end.

Fixpoint ways (r : regex) (start : bool) (s : str) : list (bool * str) :=
  match r with
  | RStart => if start then [(start, s)] else []
  | RClass negated items =>
      match s with
      | c :: t => if in_class negated items c then [(false, t)] else []
      | [] => []
      end
  | REmpty => [(start, s)]
  | RCat a b => flat_map (fun x => ways b (fst x) (snd x)) (ways a start s)
  | RAlt a b => ways a start s ++ ways b start s
  | RStar a => ways_star (ways a) (S (length s)) start s
  end.

(** [Regex::find]: the text before the match, and the match. *)
Fixpoint search_from (r : regex) (start : bool) (s : str) : option (str * str) :=
  match ways r start s with
  | (_, rest) :: _ => Some ([], firstn (length s - length rest) s)
  | [] =>
      match s with
      | c :: t => match search_from r false t with Some (before, m) => Some (c :: before, m) | None => None end
      | [] => None
      end
  end.

Definition regex_find (pattern : string) (s : str) : option (str * str) :=
  match read_regex (u pattern) with Some r => search_from r true s | None => None end.
