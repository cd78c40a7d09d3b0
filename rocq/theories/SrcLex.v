(** * SrcLex: the tokens of Rust source text.

    The files of /repo are read here as text: SrcText.v holds them line by line,
    this file turns the lines into tokens, SrcParse.v the tokens into expressions,
    and SrcRun.v says what running those expressions does.  No function of the
    model is written here by hand: the functions are in the text.

    Rust's lexical grammar, as far as the files use it: identifiers, numbers with
    an optional suffix, strings, raw strings, characters, lifetimes, punctuation;
    comments and white space are dropped. *)

From Coq Require Import String Ascii List NArith Bool.
From Verif Require Import Base.
Import ListNotations.
Open Scope string_scope.
Open Scope N_scope.

(** A token *)
Inductive tok : Set :=
| TId (s : string)                (* an identifier or keyword *)
| TNum (n : N) (suffix : string)  (* 0xF000, 16, 0usize       *)
| TStr (s : string)               (* "..." or r"..."          *)
| TChr (c : N)                    (* '...'                    *)
| TLife                           (* 'a                       *)
| TP (s : string).                (* punctuation              *)

(** The digits of a number *)
Definition digit (c : ascii) : bool :=
  let n := N_of_ascii c in (48 <=? n) && (n <=? 57).

(** What can start an identifier *)
Definition alpha (c : ascii) : bool :=
  let n := N_of_ascii c in
  ((97 <=? n) && (n <=? 122)) || ((65 <=? n) && (n <=? 90)) || (n =? 95).

(** What can continue one *)
Definition alnum (c : ascii) : bool := alpha c || digit c.

(** White space *)
Definition white (c : ascii) : bool :=
  let n := N_of_ascii c in (n =? 32) || (n =? 10) || (n =? 9) || (n =? 13).

(** The longest prefix of characters satisfying [f], and the rest *)
Fixpoint span (f : ascii -> bool) (s : string) : string * string :=
  match s with
  | String c r => if f c then (let (a, b) := span f r in (String c a, b)) else (EmptyString, s)
  | EmptyString => (EmptyString, EmptyString)
  end.

(** The rest of the text after the end of the line *)
Fixpoint skip_line (s : string) : string :=
  match s with
  | String c r => if (N_of_ascii c =? 10)%N then r else skip_line r
  | EmptyString => EmptyString
  end.

(** The rest of the text after the end of a block comment *)
Fixpoint skip_block (s : string) : string :=
  match s with
  | String "*" (String "/" r) => r
  | String _ r => skip_block r
  | EmptyString => EmptyString
  end.

(** The character an escape stands for *)
Definition escape (c : ascii) : ascii :=
  match c with
  | "n"%char => ascii_of_N 10
  | "t"%char => ascii_of_N 9
  | "r"%char => ascii_of_N 13
  | "0"%char => ascii_of_N 0
  | _ => c
  end.

(** The body of a string, and the rest *)
Fixpoint lex_string (s : string) : option (string * string) :=
  match s with
  | String c r =>
      if Ascii.eqb c """" then Some (EmptyString, r)
      else if Ascii.eqb c "\"
      then match r with
           | String e r' =>
               match lex_string r' with
               | Some (a, b) => Some (String (escape e) a, b)
               | None => None
               end
           | EmptyString => None
           end
      else match lex_string r with
           | Some (a, b) => Some (String c a, b)
           | None => None
           end
  | EmptyString => None
  end.

(** The body of a raw string closed by [close], and the rest *)
Fixpoint lex_raw (close : string) (s : string) : option (string * string) :=
  if prefix close s then Some (EmptyString, substring (String.length close) (String.length s) s)
  else match s with
       | String c r =>
           match lex_raw close r with
           | Some (a, b) => Some (String c a, b)
           | None => None
           end
       | EmptyString => None
       end.

(** The value of a hexadecimal digit *)
Definition hex_value (c : ascii) : N :=
  let n := N_of_ascii c in
  if n <=? 57 then n - 48 else if n <=? 70 then n - 55 else n - 87.

(** The number in a text of digits *)
Fixpoint number (radix acc : N) (s : string) : N :=
  match s with
  | String c r => number radix (acc * radix + hex_value c) r
  | EmptyString => acc
  end.

(** A number with its suffix *)
Definition lex_number (s : string) : tok :=
  match s with
  | String "0" (String "x" r) => TNum (number 16 0 r) ""
  | _ => let (d, suffix) := span digit s in TNum (number 10 0 d) suffix
  end.

(** The punctuation of more than one character, the longer first *)
Definition puncts : list string :=
  ["..."; "::"; "->"; "=>"; "=="; "!="; "<="; ">="; "&&"; "||"; "<<"; ">>"; "+="; "-="; ".."].

(** The first of the list that the text starts with *)
Fixpoint find_punct (l : list string) (s : string) : option string :=
  match l with
  | [] => None
  | p :: r => if prefix p s then Some p else find_punct r s
  end.

(** The text without its first [n] characters *)
Fixpoint drop_chars (n : nat) (s : string) : string :=
  match n, s with
  | S n', String _ r => drop_chars n' r
  | _, _ => s
  end.

(** One token, or none when a comment or white space was read, and the rest *)
Definition lex_one (s : string) : option (option tok * string) :=
  match s with
  | EmptyString => None
  | String "/" (String "/" r) => Some (None, skip_line r)
  | String "/" (String "*" r) => Some (None, skip_block r)
  | String """" r =>
      match lex_string r with
      | Some (a, b) => Some (Some (TStr a), b)
      | None => None
      end
  | String "r" (String """" r) =>
      match lex_raw """" r with
      | Some (a, b) => Some (Some (TStr a), b)
      | None => None
      end
  | String "r" (String "#" (String """" r)) =>
      match lex_raw """#" r with
      | Some (a, b) => Some (Some (TStr a), b)
      | None => None
      end
  | String "'" (String "\" (String c (String "'" r))) =>
      Some (Some (TChr (N_of_ascii (escape c))), r)
  | String "'" (String c (String "'" r)) => Some (Some (TChr (N_of_ascii c)), r)
  | String "'" r => let (_, r') := span alnum r in Some (Some TLife, r')
  | String c r =>
      if white c then Some (None, r)
      else if digit c then let (d, r') := span alnum s in Some (Some (lex_number d), r')
      else if alpha c then let (d, r') := span alnum s in Some (Some (TId d), r')
      else match find_punct puncts s with
           | Some p => Some (Some (TP p), drop_chars (String.length p) s)
           | None => Some (Some (TP (String c "")), r)
           end
  end.

(** All the tokens of a text; [None] when a string is not closed *)
Fixpoint lex (fuel : nat) (s : string) : option (list tok) :=
  match s with
  | EmptyString => Some []
  | _ =>
      match fuel with
      | O => None
      | S n =>
          match lex_one s with
          | None => None
          | Some (None, r) => lex n r
          | Some (Some t, r) =>
              match lex n r with
              | Some l => Some (t :: l)
              | None => None
              end
          end
      end
  end.

(** The lines of a file, one after the other *)
Fixpoint unlines (l : list string) : string :=
  match l with
  | [] => EmptyString
  | s :: r => s ++ String (ascii_of_N 10) (unlines r)
  end.

(** The tokens of a file *)
Definition tokens (l : list string) : option (list tok) :=
  let s := unlines l in lex (String.length s) s.
