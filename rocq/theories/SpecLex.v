(** * SpecLex: the lexical grammar, stated without reference to the scanner.

    The patterns are those of the scanner (scanner.rs:130,153,179,206,242,280 and
    the literals of 303, 441-468), as regular expressions with the usual
    semantics.  A text is cut, from the left, into blanks and the longest lexemes
    any pattern allows. *)

From Verif Require Import Base Text Location Token.
Open Scope N_scope.

(** ** Regular expressions *)
Inductive re : Type :=
| Chr (p : char -> bool)
| Eps
| Cat (a b : re)
| Alt (a b : re)
| Star (a : re).

Inductive rmatch : re -> str -> Prop :=
| m_chr : forall p c, p c = true -> rmatch (Chr p) [c]
| m_eps : rmatch Eps []
| m_cat : forall a b s t, rmatch a s -> rmatch b t -> rmatch (Cat a b) (s ++ t)
| m_alt_l : forall a b s, rmatch a s -> rmatch (Alt a b) s
| m_alt_r : forall a b s, rmatch b s -> rmatch (Alt a b) s
| m_star_nil : forall a, rmatch (Star a) []
| m_star_cons : forall a s t, rmatch a s -> rmatch (Star a) t -> rmatch (Star a) (s ++ t).

Definition Plus (a : re) : re := Cat a (Star a).
Definition Opt (a : re) : re := Alt a Eps.

(** Character classes: the characters of a constant string. *)
Definition among (s : string) (c : char) : bool := existsb (N.eqb c) (u s).
Definition noneof (s : str) (c : char) : bool := negb (existsb (N.eqb c) s).

Definition decimal_digits : string := "0123456789".
Definition hexadecimal_digits : string := "0123456789abcdefABCDEF".
Definition letters : string := "abcdefghijklmnopqrstuvwxyzABCDEFGHIJKLMNOPQRSTUVWXYZ".

(** Unicode White_Space, without the newline. *)
Definition blank_code_points : list char :=
  [9; 11; 12; 13; 32; 0x85; 0xA0; 0x1680;
   0x2000; 0x2001; 0x2002; 0x2003; 0x2004; 0x2005; 0x2006; 0x2007; 0x2008; 0x2009; 0x200A;
   0x2028; 0x2029; 0x202F; 0x205F; 0x3000].
Definition blank (c : char) : bool := existsb (N.eqb c) blank_code_points.

Definition LF : char := 10.
Definition QUOTE : char := 34.
Definition BACKSLASH : char := 92.

(** ** The kinds of lexemes *)
Inductive kind : Set :=
| KComment | KDot | KColon | KComma | KNewline
| KString | KHex | KBin | KDec | KIdentifier | KIndirect.

Definition lit (c : char) : re := Chr (N.eqb c).

Definition pattern (k : kind) : re :=
  match k with
  | KComment => Cat (lit (c_ ";")) (Star (Chr (noneof [LF])))
  | KDot => lit (c_ ".")
  | KColon => lit (c_ ":")
  | KComma => lit (c_ ",")
  | KNewline => lit LF
  | KString =>
      Cat (lit QUOTE)
        (Cat (Star (Alt (Chr (noneof [QUOTE; BACKSLASH]))
                        (Cat (lit BACKSLASH) (Chr (noneof [LF])))))
             (lit QUOTE))
  | KHex =>
      let d := Chr (among hexadecimal_digits) in
      Cat (Chr (among "$#")) (Cat d (Cat (Opt d) (Opt d)))
  | KBin => Cat (lit (c_ "%")) (Plus (Chr (among "01.")))
  | KDec => Plus (Chr (among decimal_digits))
  | KIdentifier =>
      Cat (Chr (fun c => among letters c || among "_" c))
          (Star (Chr (fun c => among letters c || among decimal_digits c || among "_" c)))
  | KIndirect => Cat (lit (c_ "[")) (Cat (Chr (among "iI")) (lit (c_ "]")))
  end.

(** [lexeme k m rest s]: [s] is [m] then [rest], [m] is of kind [k], and no other
    lexeme of any kind at this point is longer. *)
Definition lexeme (k : kind) (m rest s : str) : Prop :=
  s = m ++ rest /\ rmatch (pattern k) m /\
  forall k' m' rest', s = m' ++ rest' -> rmatch (pattern k') m' ->
                      (length m' <= length m)%nat.

(** ** Values of numerals: positional notation *)
Fixpoint index_of (c : char) (s : str) : option N :=
  match s with
  | [] => None
  | d :: r => if c =? d then Some 0 else option_map N.succ (index_of c r)
  end.

(** The value of a digit: its index among the digits, in either case. *)
Definition digit (c : char) : N :=
  match index_of c (u "0123456789abcdef"), index_of c (u "0123456789ABCDEF") with
  | Some d, _ => d
  | None, Some d => d
  | None, None => 0
  end.

Fixpoint positional (base : N) (s : str) : N :=
  match s with
  | [] => 0
  | c :: r => digit c * base ^ N.of_nat (length r) + positional base r
  end.

(** In binary numerals a period is a zero. *)
Definition undot (s : str) : str := map (fun c => if c =? c_ "." then c_ "0" else c) s.

(** ** Locations *)
Definition newlines (s : str) : N := N.of_nat (count_occ N.eq_dec s LF).

(** The part of [s] after its last newline. *)
Fixpoint last_line (s : str) : str :=
  match s with
  | [] => []
  | c :: r => if existsb (N.eqb LF) s then last_line r else s
  end.

(** The part of [s] up to its first newline, inclusive. *)
Fixpoint first_line (s : str) : str :=
  match s with
  | [] => []
  | c :: r => if c =? LF then [c] else c :: first_line r
  end.

(** The location of [m] in the text [before ++ m ++ ...]: line and column (in code
    points, from 1), and the number of code points on that line. *)
Definition located (file before m : str) : loc :=
  mk_loc file (1 + newlines before) (1 + N.of_nat (length (last_line before)))
         (N.of_nat (length (first_line m))).

(** ** Tokens *)

(** The token for the lexeme [m] of kind [k]. *)
Inductive token_of (file before : str) : kind -> str -> token -> Prop :=
| t_comment : forall m, token_of file before KComment m (SingleLineComment m (located file before m))
| t_dot : forall m, token_of file before KDot m (DirectiveMarker (located file before m))
| t_colon : forall m, token_of file before KColon m (LabelMarker (located file before m))
| t_comma : forall m, token_of file before KComma m (Comma (located file before m))
| t_newline : forall m, token_of file before KNewline m (Newline (located file before m))
| t_string : forall b, token_of file before KString (QUOTE :: b ++ [QUOTE])
                                (StringLiteral b (located file before (QUOTE :: b ++ [QUOTE])))
| t_hex : forall c d, token_of file before KHex (c :: d)
                               (NumericLiteral (positional 16 d) (located file before (c :: d)))
| t_bin : forall c d,
    (* finding: the accumulator is 64 bits wide, so the value wraps *)
    positional 2 (undot d) mod 2 ^ 64 <= 4095 ->
    token_of file before KBin (c :: d)
             (NumericLiteral (positional 2 (undot d) mod 2 ^ 64) (located file before (c :: d)))
| t_dec : forall d, positional 10 d <= 4095 ->
                    token_of file before KDec d
                             (NumericLiteral (positional 10 d) (located file before d))
| t_identifier : forall m, token_of file before KIdentifier m (Identifier m (located file before m))
| t_indirect : forall m, token_of file before KIndirect m (Identifier m (located file before m)).

(** The error for the lexeme [m]: a numeral out of range. *)
Inductive bad_lexeme : kind -> str -> scan_error -> Prop :=
| b_bin : forall c d, 4095 < positional 2 (undot d) mod 2 ^ 64 ->
                      bad_lexeme KBin (c :: d) (BinaryLiteralOutOfRange d)
| b_dec : forall d, 4095 < positional 10 d -> bad_lexeme KDec d (DecimalLiteralOutOfRange d).

(** The error when no lexeme can start at [c]. *)
Definition no_lexeme_error (c : char) : scan_error :=
  if c =? QUOTE then InvalidStringLiteral
  else if among "$#" c then InvalidHexadecimalLiteral
  else if among "%" c then InvalidBinaryLiteral
  else if among "[" c then ExpectedRegisterIndirect
  else InvalidCharacter c.

(** [lexes file before s ts]: the text [s], standing after [before] in the file, is
    cut into the tokens [ts]. *)
Inductive lexes (file : str) : str -> str -> list token -> Prop :=
| lex_end : forall before, lexes file before [] []
| lex_blank : forall before c s ts,
    blank c = true ->
    lexes file (before ++ [c]) s ts ->
    lexes file before (c :: s) ts
| lex_token : forall before s k m rest t ts,
    lexeme k m rest s ->
    token_of file before k m t ->
    lexes file (before ++ m) rest ts ->
    lexes file before s (t :: ts)
| lex_bad : forall before s k m rest e,
    lexeme k m rest s ->
    bad_lexeme k m e ->
    lexes file before s [ErrorToken e (located file before m)]
| lex_stuck : forall before c s,
    blank c = false ->
    (forall k m rest, c :: s = m ++ rest -> ~ rmatch (pattern k) m) ->
    lexes file before (c :: s) [ErrorToken (no_lexeme_error c) (located file before [c])].
