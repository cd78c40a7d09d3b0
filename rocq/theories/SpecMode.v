(** * SpecMode: comments and strings found without a scanner.

    A machine of four states reads the text one character at a time.  It knows nothing of tokens. *)

From Verif Require Import Base Text Location Token SpecLex.
Open Scope N_scope.

Inductive mode : Set := InCode | InString | InEscape | InComment.

(** A quote begins and ends a string, a semicolon begins a comment, which the newline ends; in a string the
    character after a backslash has no meaning. *)
Definition next_mode (m : mode) (c : char) : mode :=
  match m with
  | InCode => if c =? QUOTE then InString else if c =? c_ ";" then InComment else InCode
  | InString => if c =? QUOTE then InCode else if c =? BACKSLASH then InEscape else InString
  | InEscape => InString
  | InComment => if c =? LF then InCode else InComment
  end.

Fixpoint mode_after (m : mode) (s : str) : mode :=
  match s with [] => m | c :: r => mode_after (next_mode m c) r end.

(** [c] put before the first of the texts. *)
Definition on_first (c : char) (l : list str) : list str :=
  match l with [] => [] | x :: r => (c :: x) :: r end.

(** The comments, with their semicolons.  In the middle of one, the first text is what is left of it. *)
Fixpoint comments_in (m : mode) (s : str) : list str :=
  match s with
  | [] => match m with InComment => [[]] | _ => [] end
  | c :: r =>
      let m' := next_mode m c in
      match m, m' with
      | _, InComment => on_first c (comments_in m' r)
      | InComment, _ => [] :: comments_in m' r
      | _, _ => comments_in m' r
      end
  end.

(** The strings, without their quotes. *)
Fixpoint strings_in (m : mode) (s : str) : list str :=
  match s with
  | [] => match m with InString | InEscape => [[]] | _ => [] end
  | c :: r =>
      let m' := next_mode m c in
      match m, m' with
      | InString, InCode => [] :: strings_in m' r
      | InString, _ | InEscape, _ => on_first c (strings_in m' r)
      | _, _ => strings_in m' r
      end
  end.

(** The characters outside comments and strings. *)
Fixpoint code_in (m : mode) (s : str) : str :=
  match s with
  | [] => []
  | c :: r =>
      let m' := next_mode m c in
      match m, m' with
      | InCode, InCode => c :: code_in m' r
      | InComment, InCode => c :: code_in m' r (* the newline *)
      | _, _ => code_in m' r
      end
  end.

(** The text without its comments; the newlines which end them stay. *)
Fixpoint without_comments (m : mode) (s : str) : str :=
  match s with
  | [] => []
  | c :: r =>
      let m' := next_mode m c in
      match m' with InComment => without_comments m' r | _ => c :: without_comments m' r end
  end.

(** The characters which may stand outside comments and strings. *)
Definition code_char (c : char) : bool :=
  among letters c || among decimal_digits c || among "_.:,$#%[]" c || (c =? LF) || blank c.

(** The comments among the tokens. *)
Definition comments (ts : list token) : list str :=
  flat_map (fun t => match t with SingleLineComment c _ => [c] | _ => [] end) ts.

(** [ts] without its comments, each of which was followed by a newline; newlines may stand at other places. *)
Inductive uncommented : list token -> list token -> Prop :=
| un_end : uncommented [] []
| un_comment : forall c l l' ts ts', uncommented (Newline l' :: ts) ts' ->
    uncommented (SingleLineComment c l :: Newline l' :: ts) ts'
| un_newline : forall l l' ts ts', uncommented ts ts' -> uncommented (Newline l :: ts) (Newline l' :: ts')
| un_other : forall t ts ts', match t with SingleLineComment _ _ => False | _ => True end ->
    uncommented ts ts' -> uncommented (t :: ts) (t :: ts').

(** Two texts which differ in what their comments say: in a comment characters may be left out or put in. *)
Inductive same_but_comments : mode -> str -> str -> Prop :=
| sc_end : forall m, same_but_comments m [] []
| sc_char : forall m c s s', same_but_comments (next_mode m c) s s' -> same_but_comments m (c :: s) (c :: s')
| sc_left : forall c s s', c <> LF -> same_but_comments InComment s s' -> same_but_comments InComment (c :: s) s'
| sc_right : forall c s s', c <> LF -> same_but_comments InComment s s' -> same_but_comments InComment s (c :: s').

(** The tokens of such texts.  A comment starts at the same place; the newline after it may stand at another. *)
Inductive recommented : bool -> list token -> list token -> Prop :=
| rc_end : forall b, recommented b [] []
| rc_comment : forall b c c' l l' ts ts', l_file l = l_file l' -> l_line l = l_line l' -> l_location l = l_location l' ->
    recommented true ts ts' -> recommented b (SingleLineComment c l :: ts) (SingleLineComment c' l' :: ts')
| rc_newline : forall l l' ts ts', recommented false ts ts' -> recommented true (Newline l :: ts) (Newline l' :: ts')
| rc_other : forall b t ts ts', match t with SingleLineComment _ _ => False | _ => True end ->
    recommented false ts ts' -> recommented b (t :: ts) (t :: ts').
