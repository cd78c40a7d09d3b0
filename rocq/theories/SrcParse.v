(** * SrcParse: the expressions of Rust source text.

    Rust's syntax, as far as the files of SrcText.v use it.  Types are dropped,
    except that the name of a simple type is kept where a literal number takes its
    type from it.  References, dereferences, [mut] and [ref] are dropped as well:
    what they stand for is what they are taken of, and which arguments a function
    changes is kept with the function.

    Every expression is a [node] with a number; the numbers of its parts are in it. *)

From Coq Require Import String Ascii List NArith Bool FMapPositive.
From Verif Require Import Base SrcLex.
Import ListNotations.
Open Scope string_scope.
Open Scope list_scope.
Open Scope N_scope.

(** ** What is computed with *)

(** The type of a number; [IAny] is a literal whose type is not known yet. *)
Inductive ity : Set := IU8 | IU12 | IU16 | IUsize | IAny.

(** A value.  A struct, or a variant of an enum, is its name with its fields, the
    fields of a tuple being called 0, 1, and so on. *)
Inductive value : Type :=
| VInt (t : ity) (n : N)
| VBool (b : bool)
| VChar (c : N)
| VStr (s : str)
| VTup (l : list value)
| VVec (l : list value)
| VIter (l : list value)
| VMap (m : list (str * value))
| VCon (c : string) (l : list (string * value)).

(** ** What is written *)

(** A literal; a text is kept as it is written. *)
Inductive lit : Type :=
| LVal (v : value)
| LText (s : string).
Definition lit_value (l : lit) : value :=
  match l with LVal v => v | LText s => VStr (u s) end.

(** A pattern *)
Inductive pat : Type :=
| PWild
| PVar (x : string)
| PLit (l : lit)
| PRange (a b : lit)
| PTup (l : list pat)
| PCon (c : string) (l : list (string * pat))
| PAt (x : string) (p : pat)
| POr (l : list pat).

(** What can be assigned to *)
Inductive place : Type :=
| PlVar (x : string)
| PlField (p : place) (f : string).

(** A piece of a format string: text, or an argument with its width *)
Inductive piece : Type :=
| FText (s : string)
| FArg (zero : bool) (width : N) (conv : string).

(** What is made of the values of the parts of an expression *)
Inductive build : Type :=
| BTup
| BVec
| BCon (c : string) (fields : list string)
| BCall (f : string) (places : list (option place))
| BMethod (m : string) (self : option place) (places : list (option place))
| BBin (op : string)
| BNot
| BField (f : string)
| BIndex
| BRange
| BRangeFrom
| BCast (t : string)
| BFormat (l : list piece)
| BWrite (f : option place) (l : list piece)
| BPanic (why : crash)
| BU12.

Definition id := positive.

(** A statement of a block *)
Inductive stmt : Type :=
| SLet (p : pat) (t : string) (e : id)
| SDo (e : id).

(** An expression *)
Inductive node : Type :=
| NLit (l : lit)
| NVar (x : string)
| NApp (b : build) (l : list id)
| NMatch (e : id) (arms : list (pat * option id * id))
| NBlock (l : list stmt) (last : option id)
| NSet (op : string) (p : option place) (e : id)
| NReturn (e : option id)
| NBreak
| NWhile (p : pat) (e body : id)
| NFor (p : pat) (e body : id)
| NWith (e : id) (m : string) (args : list id) (params : list pat) (body : id)
| NFn (params : list pat) (body : id).

(** A function: its parameters with their types, which of them it changes, the type
    of its result, its body *)
Record fn : Type := mk_fn {
  fn_params : list (string * string);
  fn_muts : list bool;
  fn_ret : string;
  fn_body : id }.

(** What a file declares *)
Inductive decl : Type :=
| DFn (name : string) (f : fn)
| DCon (c : string) (ty : string) (fields : list (string * string))
| DConst (name : string) (t : string) (e : id).

(** ** The state of the parser *)

(** The tokens left, the next number, the nodes so far *)
Record pst : Type := mk_pst { toks : list tok; next : id; out : list (id * node) }.

(** A parser *)
Definition P (A : Type) : Type := pst -> option (A * pst).

(** Succeeding *)
Definition ret {A} (a : A) : P A := fun s => Some (a, s).
(** Failing *)
Definition fail {A} : P A := fun _ => None.
(** One after the other *)
Definition pbind {A B} (m : P A) (k : A -> P B) : P B :=
  fun s => match m s with Some (a, s') => k a s' | None => None end.

Notation "x '<-' m ';;' k" := (pbind m (fun x => k))
  (at level 100, m at next level, right associativity).
Notation "m ';;;' k" := (pbind m (fun _ => k)) (at level 100, right associativity).

(** The next token *)
Definition peek : P (option tok) := fun s => Some (hd_error (toks s), s).
(** The one after it *)
Definition peek2 : P (option tok) := fun s => Some (hd_error (tl (toks s)), s).
(** Taking the next token *)
Definition shift : P tok :=
  fun s => match toks s with t :: r => Some (t, mk_pst r (next s) (out s)) | [] => None end.
(** A new node *)
Definition node_ (n : node) : P id :=
  fun s => Some (next s, mk_pst (toks s) (Pos.succ (next s)) ((next s, n) :: out s)).

(** Whether the next token is the punctuation, the keyword *)
Definition is_p (s : string) (t : option tok) : bool :=
  match t with Some (TP q) => String.eqb s q | _ => false end.
Definition is_k (s : string) (t : option tok) : bool :=
  match t with Some (TId q) => String.eqb s q | _ => false end.
(** The next token has to be the punctuation *)
Definition expect (s : string) : P unit :=
  t <- shift;; if is_p s (Some t) then ret tt else fail.
(** The next token may be the punctuation, the keyword *)
Definition accept (s : string) : P bool :=
  t <- peek;; if is_p s t then shift;;; ret true else ret false.
Definition accept_k (s : string) : P bool :=
  t <- peek;; if is_k s t then shift;;; ret true else ret false.
(** An identifier *)
Definition ident : P string :=
  t <- shift;; match t with TId s => ret s | _ => fail end.

(** ** Types *)

(** The tokens of a type up to what ends it *)
Fixpoint skip_type (n : nat) (depth : N) (seen : list tok) : P (list tok) :=
  match n with
  | O => fail
  | S n' =>
      t <- peek;;
      match t with
      | None => ret (rev seen)
      | Some t =>
          let opens := match t with TP p => String.eqb p "<" || String.eqb p "(" || String.eqb p "[" | _ => false end in
          let closes := match t with TP p => String.eqb p ">" || String.eqb p ")" || String.eqb p "]" | _ => false end in
          let ends := match t with
                      | TP p => String.eqb p "," || String.eqb p ";" || String.eqb p "=" || String.eqb p "{"
                                || String.eqb p "}" || String.eqb p "|"
                      | TId p => String.eqb p "where" || String.eqb p "for"
                      | _ => false end in
          if opens then shift;;; skip_type n' (depth + 1) (t :: seen)
          else if closes then
            if depth =? 0 then ret (rev seen) else shift;;; skip_type n' (depth - 1) (t :: seen)
          else if is_p ">>" (Some t) then
            if depth =? 0 then ret (rev seen) else shift;;; skip_type n' (depth - 2) (t :: seen)
          else if ends && (depth =? 0) then ret (rev seen)
          else shift;;; skip_type n' depth (t :: seen)
      end
  end.

(** The name of a simple type, or nothing *)
Definition type_name (l : list tok) : string :=
  match l with
  | [TId s] => s
  | _ => ""
  end.
(** Whether a type is that of an argument that is changed *)
Definition type_mut (l : list tok) : bool :=
  match l with
  | amp :: TLife :: m :: _ => is_p "&" (Some amp) && is_k "mut" (Some m)
  | amp :: m :: _ => is_p "&" (Some amp) && is_k "mut" (Some m)
  | _ => false
  end.
(** A type *)
Definition p_type : P (list tok) := skip_type 200 0 [].

(** ** Paths *)

(** Whether a name starts with a capital: of what names start with, 65 to 90 are
    the codes 64 to 95 but for the underscore *)
Definition capital (s : string) : bool :=
  match s with
  | String (Ascii b0 b1 b2 b3 b4 b5 b6 b7) _ =>
      negb b7 && b6 && negb b5 && negb (b0 && b1 && b2 && b3 && b4)
  | EmptyString => false
  end.

(** The type arguments between < and > *)
Fixpoint skip_generic (n : nat) (depth : N) : P unit :=
  match n with
  | O => fail
  | S n' =>
      t <- shift;;
      if is_p "<" (Some t) then skip_generic n' (depth + 1)
      else if is_p ">" (Some t) then
        if depth =? 1 then ret tt else skip_generic n' (depth - 1)
      else if is_p ">>" (Some t) then
        if depth =? 2 then ret tt else skip_generic n' (depth - 2)
      else skip_generic n' depth
  end.

(** The rest of a path; a type argument in it is dropped *)
Fixpoint p_path (n : nat) (acc : string) : P string :=
  match n with
  | O => fail
  | S n' =>
      t <- peek;;
      if is_p "::" t then
        t2 <- peek2;;
        match t2 with
        | Some (TId s) => shift;;; shift;;; p_path n' (acc ++ "::" ++ s)%string
        | _ => shift;;; skip_generic n' 0;;; p_path n' acc
        end
      else ret acc
  end.

(** The type arguments of an item, if there are any *)
Definition p_generic : P unit :=
  t <- peek;; if is_p "<" t then skip_generic 200 0 else ret tt.

(** What a name stands for in the module [md] and the [impl] of [self]: every module
    may have an [Error] of its own. *)
Definition resolve (md self s : string) : string :=
  if String.eqb s "Error" then (md ++ "::Error")%string
  else if prefix "Error::" s then (md ++ "::" ++ s)%string
  else if prefix "Self::" s then (self ++ drop_chars 4 s)%string
  else if String.eqb s "Self" then self
  else s.

(** The last part of a path *)
Fixpoint last_part (s acc : string) : string :=
  match s with
  | EmptyString => acc
  | String ":" (String ":" r) => last_part r r
  | String _ r => last_part r acc
  end.
Definition last_of (s : string) : string := last_part s s.

(** ** Literals *)

(** The type of a suffix, or of a simple type *)
Definition int_type (s : string) : option ity :=
  if String.eqb s "u8" then Some IU8
  else if String.eqb s "U12" then Some IU12
  else if String.eqb s "u16" then Some IU16
  else if String.eqb s "usize" then Some IUsize
  else None.

(** A literal *)
Definition literal_of (t : tok) : option lit :=
  match t with
  | TNum n s => Some (LVal (VInt (match int_type s with Some k => k | None => IAny end) n))
  | TStr s => Some (LText s)
  | TChr c => Some (LVal (VChar c))
  | TId s =>
      if String.eqb s "true" then Some (LVal (VBool true))
      else if String.eqb s "false" then Some (LVal (VBool false))
      else None
  | _ => None
  end.

(** The pieces of a format string *)
Fixpoint pieces (n : nat) (text s : string) : option (list piece) :=
  let flush := match text with EmptyString => [] | _ => [FText text] end in
  match n with
  | O => None
  | S n' =>
      match s with
      | EmptyString => Some flush
      | String "{" (String "}" r) =>
          match pieces n' "" r with
          | Some l => Some (flush ++ FArg false 0 "" :: l)
          | None => None
          end
      | String "{" (String ":" r) =>
          let '(zero, r1) := match r with String "0" r' => (true, r') | _ => (false, r) end in
          let '(w, r2) := span digit r1 in
          let '(c, r3) := span alpha r2 in
          match r3 with
          | String "}" r4 =>
              match pieces n' "" r4 with
              | Some l => Some (flush ++ FArg zero (number 10 0 w) c :: l)
              | None => None
              end
          | _ => None
          end
      | String "{" _ => None
      | String c r => pieces n' (text ++ String c "")%string r
      end
  end.

(** ** Patterns *)

(** The names of the fields of a tuple *)
Definition tuple_names : list string :=
  ["0"; "1"; "2"; "3"; "4"; "5"; "6"; "7"; "8"; "9"].

(** A pattern, without alternatives *)
Fixpoint p_pat1 (n : nat) (md self : string) : P pat :=
  match n with
  | O => fail
  | S n' =>
      t <- shift;;
      if is_p "&" (Some t) || is_p "&&" (Some t) || is_k "ref" (Some t) || is_k "mut" (Some t)
      then p_pat1 n' md self
      else if is_p "(" (Some t) then l <- p_pats n' md self ")";; ret (PTup l)
      else if is_k "_" (Some t) then ret PWild
      else
      match t with
      | TId s =>
          match literal_of t with
          | Some v => ret (PLit v)
          | None =>
              path <- p_path n' s;;
              let c := resolve md self path in
              t2 <- peek;;
              if is_p "(" t2 then
                shift;;; l <- p_pats n' md self ")";; ret (PCon c (combine tuple_names l))
              else if is_p "{" t2 then
                shift;;; l <- p_fields n' md self;; ret (PCon c l)
              else if capital (last_of c) then ret (PCon c [])
              else if is_p "@" t2 then
                shift;;; p <- p_pat1 n' md self;; ret (PAt s p)
              else ret (PVar s)
          end
      | _ =>
          match literal_of t with
          | Some v =>
              t2 <- peek;;
              if is_p "..." t2 then
                shift;;; t3 <- shift;;
                match literal_of t3 with Some w => ret (PRange v w) | None => fail end
              else ret (PLit v)
          | None => fail
          end
      end
  end
(** Patterns between commas, up to [close] *)
with p_pats (n : nat) (md self close : string) : P (list pat) :=
  match n with
  | O => fail
  | S n' =>
      t <- peek;;
      if is_p close t then shift;;; ret []
      else
        p <- p_pat1 n' md self;;
        c <- accept ",";;
        if c then l <- p_pats n' md self close;; ret (p :: l)
        else expect close;;; ret [p]
  end
(** The fields of a struct *)
with p_fields (n : nat) (md self : string) : P (list (string * pat)) :=
  match n with
  | O => fail
  | S n' =>
      t <- peek;;
      if is_p "}" t then shift;;; ret []
      else
        accept_k "ref";;; accept_k "mut";;;
        f <- ident;;
        colon <- accept ":";;
        p <- (if colon then p_pat1 n' md self else ret (PVar f));;
        c <- accept ",";;
        if c then l <- p_fields n' md self;; ret ((f, p) :: l)
        else expect "}";;; ret [(f, p)]
  end.

(** The alternatives of a pattern *)
Fixpoint p_alts (n : nat) (md self : string) : P (list pat) :=
  match n with
  | O => fail
  | S n' =>
      p <- p_pat1 n' md self;;
      c <- accept "|";;
      if c then l <- p_alts n' md self;; ret (p :: l) else ret [p]
  end.

(** A pattern *)
Definition p_pat (n : nat) (md self : string) : P pat :=
  l <- p_alts n md self;;
  match l with [p] => ret p | _ => ret (POr l) end.

(** ** Expressions *)

(** How tightly an operator binds *)
Definition precedence (s : string) : option N :=
  if String.eqb s "||" then Some 1
  else if String.eqb s "&&" then Some 2
  else if existsb (String.eqb s) ["=="; "!="; "<"; ">"; "<="; ">="] then Some 3
  else if String.eqb s "|" then Some 4
  else if String.eqb s "&" then Some 5
  else if existsb (String.eqb s) ["<<"; ">>"] then Some 6
  else if existsb (String.eqb s) ["+"; "-"] then Some 7
  else None.

(** An expression: its number, and the place it is if it is one *)
Definition ex : Type := id * option place.
(** An expression that is no place *)
Definition plain (n : node) : P ex := i <- node_ n;; ret (i, None).

(** The unit value *)
Definition unit_ : value := VTup [].

(** [if c { a } else { b }] *)
Definition p_if (c : id) (p : pat) (a b : id) : node :=
  NMatch c [(p, None, a); (PWild, None, b)].

(** The name in a macro's [name!] *)
Definition block_like (t : option tok) : bool :=
  is_k "if" t || is_k "match" t || is_k "while" t || is_k "for" t || is_p "{" t.

(** [as T] *)
Fixpoint p_casts (n : nat) (e : ex) : P ex :=
  match n with
  | O => fail
  | S n' =>
      c <- accept_k "as";;
      if c then
        accept "&";;;
        s <- ident;; p <- p_path n' s;;
        i <- plain (NApp (BCast p) [fst e]);; p_casts n' i
      else ret e
  end.

(** Enough for every file *)
Definition deep : nat := N.to_nat 400.

(** The parsers of expressions, to one depth less *)
Record parsers : Type := mk_parsers {
  r_expr : string -> string -> bool -> P ex;
  r_bin : string -> string -> bool -> N -> P ex;
  r_rest : string -> string -> bool -> N -> ex -> P ex;
  r_unary : string -> string -> bool -> P ex;
  r_postfix : string -> string -> bool -> ex -> P ex;
  r_method : string -> string -> ex -> string -> P ex;
  r_args : string -> string -> string -> P (list ex * option (list pat * id));
  r_primary : string -> string -> bool -> P ex;
  r_inits : string -> string -> P (list (string * id));
  r_if_ : string -> string -> P id;
  r_arms : string -> string -> P (list (pat * option id * id));
  r_block : string -> string -> P id;
  r_stmts : string -> string -> P (list stmt * option id);
  r_statics : string -> string -> P (list (string * string * id));
  r_macro : string -> string -> string -> P ex }.

(** An expression; [ns] where a struct cannot be written *)
Definition p_expr1 (k : parsers) (md self : string) (ns : bool) : P ex :=
  l <- r_bin k md self ns 0;;
  t <- peek;;
  if is_p "=" t then
    shift;;; r <- r_expr k md self ns;; plain (NSet "=" (snd l) (fst r))
  else if is_p "+=" t then
    shift;;; r <- r_expr k md self ns;; plain (NSet "+" (snd l) (fst r))
  else if is_p "-=" t then
    shift;;; r <- r_expr k md self ns;; plain (NSet "-" (snd l) (fst r))
  else if is_p ".." t then
    shift;;; t2 <- peek;;
    if is_p "]" t2 then plain (NApp BRangeFrom [fst l])
    else r <- r_bin k md self ns 0;; plain (NApp BRange [fst l; fst r])
  else ret l.

(** Operators binding more tightly than [prec] *)
Definition p_bin1 (k : parsers) (md self : string) (ns : bool) (prec : N) : P ex :=
  l <- r_unary k md self ns;; r_rest k md self ns prec l.

(** The operators after the left operand *)
Definition p_rest1 (k : parsers) (md self : string) (ns : bool) (prec : N) (l : ex) : P ex :=
  t <- peek;;
  match t with
  | Some (TP op) =>
      match precedence op with
      | Some q =>
          if prec <? q then
            shift;;;
            r <- r_bin k md self ns q;;
            e <- (if String.eqb op "&&" then
                    f <- node_ (NLit (LVal (VBool false)));;
                    plain (p_if (fst l) (PLit (LVal (VBool true))) (fst r) f)
                  else if String.eqb op "||" then
                    t <- node_ (NLit (LVal (VBool true)));;
                    plain (p_if (fst l) (PLit (LVal (VBool true))) t (fst r))
                  else plain (NApp (BBin op) [fst l; fst r]));;
            r_rest k md self ns prec e
          else ret l
      | None => ret l
      end
  | _ => ret l
  end.

(** Operators before an operand, and [as] *)
Definition p_unary1 (k : parsers) (md self : string) (ns : bool) : P ex :=
  t <- peek;;
  e <- (if is_p "&" t then shift;;; accept_k "mut";;; r_unary k md self ns
        else if is_p "*" t then shift;;; r_unary k md self ns
        else if is_p "!" t then
          shift;;; e <- r_unary k md self ns;; plain (NApp BNot [fst e])
        else e <- r_primary k md self ns;; r_postfix k md self ns e);;
  p_casts deep e.

(** Fields, methods, calls, indices *)
Definition p_postfix1 (k : parsers) (md self : string) (ns : bool) (e : ex) : P ex :=
  t <- peek;;
  if is_p "." t then
    shift;;;
    t <- shift;;
    match t with
    | TNum i _ =>
        let f := nth (N.to_nat i) tuple_names "" in
        i <- node_ (NApp (BField f) [fst e]);;
        r_postfix k md self ns (i, match snd e with Some p => Some (PlField p f) | None => None end)
    | TId f =>
        t2 <- peek;;
        if is_p "(" t2 then
          shift;;; r <- r_method k md self e f;; r_postfix k md self ns r
        else if is_p "::" t2 then
          shift;;; t3 <- peek2;;
          skip_generic deep 0;;; expect "(";;;
          let m := match t3 with Some (TId s) => (f ++ "::" ++ s)%string | _ => f end in
          r <- r_method k md self e m;; r_postfix k md self ns r
        else
          i <- node_ (NApp (BField f) [fst e]);;
          r_postfix k md self ns (i, match snd e with Some p => Some (PlField p f) | None => None end)
    | _ => fail
    end
  else if is_p "[" t then
    shift;;; i <- r_expr k md self false;; expect "]";;;
    r <- plain (NApp BIndex [fst e; fst i]);; r_postfix k md self ns r
  else ret e.

(** The receiver of a method, if it is [r.map(|p| b)]: [r], [p] and [b] *)
Definition mapped (e : id) : P (option (id * pat * id)) :=
  fun s => Some (match out s with
                 | (i, NWith r m [] [q] b) :: _ =>
                     if Pos.eqb i e && String.eqb m "map" then Some (r, q, b) else None
                 | _ => None
                 end, s).

(** The arguments of a method; the last one may be a closure.  An iterator is lazy, so
    that [map] and [inspect] after [map] are one [map]: each element goes through all
    of them before the next one.  What is borrowed is what it is borrowed from. *)
Definition p_method1 (k : parsers) (md self : string) (e : ex) (m : string) : P ex :=
  before <- mapped (fst e);;
  l <- r_args k md self ")";;
  match snd l, before with
  | Some ([q2], b2), Some (r, q1, b1) =>
      if String.eqb m "map" then
        x <- node_ (NVar "item%");;
        a <- node_ (NMatch x [(q1, None, b1)]);;
        b <- node_ (NMatch a [(q2, None, b2)]);;
        plain (NWith r "map" [] [PVar "item%"] b)
      else if String.eqb m "inspect" then
        x <- node_ (NVar "item%");;
        a <- node_ (NMatch x [(q1, None, b1)]);;
        c <- node_ (NBlock [SDo b2] (Some x));;
        b <- node_ (NMatch a [(PAt "item%" q2, None, c)]);;
        plain (NWith r "map" [] [PVar "item%"] b)
      else plain (NWith (fst e) m (map fst (fst l)) [q2] b2)
  | Some (ps, body), _ => plain (NWith (fst e) m (map fst (fst l)) ps body)
  | None, _ =>
      if String.eqb m "borrow" || String.eqb m "borrow_mut" then ret e
      else plain (NApp (BMethod m (snd e) (map snd (fst l))) (fst e :: map fst (fst l)))
  end.

(** Arguments up to [close]: expressions, and a closure if there is one *)
Definition p_args1 (k : parsers) (md self close : string) : P (list ex * option (list pat * id)) :=
  t <- peek;;
  if is_p close t then shift;;; ret ([], None)
  else if is_p "|" t then
    shift;;; ps <- p_pats deep md self "|";; b <- r_expr k md self false;;
    expect close;;; ret ([], Some (ps, fst b))
  else if is_p "||" t then
    shift;;; b <- r_expr k md self false;;
    expect close;;; ret ([], Some ([], fst b))
  else
    e <- r_expr k md self false;;
    c <- accept ",";;
    if c then l <- r_args k md self close;; ret (e :: fst l, snd l)
    else expect close;;; ret ([e], None).

(** What an expression starts with *)
Definition p_primary1 (k : parsers) (md self : string) (ns : bool) : P ex :=
  t <- peek;;
  if is_p "(" t then
    shift;;;
    l <- r_args k md self ")";;
    match fst l with
    | [e] => ret e
    | es => plain (NApp BTup (map fst es))
    end
  else if is_p "[" t then
    shift;;; l <- r_args k md self "]";; plain (NApp BVec (map fst (fst l)))
  else if is_p "{" t then i <- r_block k md self;; ret (i, None)
  else if is_k "if" t then shift;;; i <- r_if_ k md self;; ret (i, None)
  else if is_k "match" t then
    shift;;; e <- r_expr k md self true;; expect "{";;;
    arms <- r_arms k md self;; plain (NMatch (fst e) arms)
  else if is_k "while" t then
    shift;;; c <- accept_k "let";;
    if c then
      p <- p_pat deep md self;; expect "=";;;
      e <- r_expr k md self true;; b <- r_block k md self;;
      plain (NWhile p (fst e) b)
    else fail
  else if is_k "for" t then
    shift;;; p <- p_pat1 deep md self;; i <- accept_k "in";;
    if i then
      e <- r_expr k md self true;; b <- r_block k md self;;
      plain (NFor p (fst e) b)
    else fail
  else if is_k "return" t then
    shift;;; t2 <- peek;;
    if is_p ";" t2 || is_p "}" t2 || is_p "," t2 then plain (NReturn None)
    else e <- r_expr k md self ns;; plain (NReturn (Some (fst e)))
  else if is_k "break" t then shift;;; plain NBreak
  else
    t <- shift;;
    match literal_of t with
    | Some v => plain (NLit v)
    | None =>
        match t with
        | TId s =>
            t2 <- peek;;
            if is_p "!" t2 then shift;;; r_macro k md self s
            else
              path <- p_path deep s;;
              let c := resolve md self path in
              t3 <- peek;;
              if is_p "(" t3 then
                shift;;; l <- r_args k md self ")";;
                match snd l with
                | Some (ps, body) =>
                    f <- node_ (NFn ps body);;
                    plain (NApp (BCall c (map snd (fst l) ++ [None])) (map fst (fst l) ++ [f]))
                | None => plain (NApp (BCall c (map snd (fst l))) (map fst (fst l)))
                end
              else if is_p "{" t3 && negb ns && capital (last_of c) then
                shift;;; l <- r_inits k md self;;
                plain (NApp (BCon c (map fst l)) (map snd l))
              else
                i <- node_ (NVar c);; ret (i, Some (PlVar c))
        | _ => fail
        end
    end.

(** The fields of a struct *)
Definition p_inits1 (k : parsers) (md self : string) : P (list (string * id)) :=
  t <- peek;;
  if is_p "}" t then shift;;; ret []
  else
    f <- ident;; expect ":";;; e <- r_expr k md self false;;
    c <- accept ",";;
    if c then l <- r_inits k md self;; ret ((f, fst e) :: l)
    else expect "}";;; ret [(f, fst e)].

(** [if] and [if let], after the keyword *)
Definition p_if_1 (k : parsers) (md self : string) : P id :=
  l <- accept_k "let";;
  p <- (if l then p <- p_pat deep md self;; expect "=";;; ret p else ret (PLit (LVal (VBool true))));;
  c <- r_expr k md self true;;
  a <- r_block k md self;;
  e <- accept_k "else";;
  b <- (if e then
          i <- accept_k "if";;
          if i then r_if_ k md self else r_block k md self
        else node_ (NLit (LVal unit_)));;
  node_ (p_if (fst c) p a b).

(** The arms of a match *)
Definition p_arms1 (k : parsers) (md self : string) : P (list (pat * option id * id)) :=
  t <- peek;;
  if is_p "}" t then shift;;; ret []
  else
    p <- p_pat deep md self;;
    g <- accept_k "if";;
    guard <- (if g then e <- r_expr k md self false;; ret (Some (fst e)) else ret None);;
    expect "=>";;;
    t2 <- peek;;
    b <- (if is_p "{" t2 then r_block k md self
          else e <- r_expr k md self false;; ret (fst e));;
    accept ",";;;
    l <- r_arms k md self;; ret ((p, guard, b) :: l).

(** A block *)
Definition p_block1 (k : parsers) (md self : string) : P id :=
  expect "{";;; r <- r_stmts k md self;;
  node_ (NBlock (fst r) (snd r)).

(** The statements of a block *)
Definition p_stmts1 (k : parsers) (md self : string) : P (list stmt * option id) :=
  t <- peek;;
  if is_p "}" t then shift;;; ret ([], None)
  else if is_p ";" t then shift;;; r_stmts k md self
  else if is_k "let" t then
    shift;;;
    p <- p_pat deep md self;;
    colon <- accept ":";;
    ty <- (if colon then p_type else ret []);;
    expect "=";;; e <- r_expr k md self false;; expect ";";;;
    r <- r_stmts k md self;;
    ret (SLet p (type_name ty) (fst e) :: fst r, snd r)
  else if is_k "lazy_static" t then
    shift;;; expect "!";;; expect "{";;;
    l <- r_statics k md self;;
    r <- r_stmts k md self;;
    ret (map (fun d => SLet (PVar (fst (fst d))) (snd (fst d)) (snd d)) l ++ fst r, snd r)
  else if block_like t then
    e <- r_primary k md self false;;
    t2 <- peek;;
    if is_p "}" t2 then shift;;; ret ([], Some (fst e))
    else r <- r_stmts k md self;; ret (SDo (fst e) :: fst r, snd r)
  else
    e <- r_expr k md self false;;
    semi <- accept ";";;
    if semi then r <- r_stmts k md self;; ret (SDo (fst e) :: fst r, snd r)
    else expect "}";;; ret ([], Some (fst e)).

(** What [lazy_static!] declares: names, types, values *)
Definition p_statics1 (k : parsers) (md self : string) : P (list (string * string * id)) :=
  t <- peek;;
  if is_p "}" t then shift;;; ret []
  else
    accept_k "static";;; accept_k "ref";;;
    x <- ident;; expect ":";;; ty <- p_type;; expect "=";;;
    e <- r_expr k md self false;; expect ";";;;
    l <- r_statics k md self;; ret ((x, type_name ty, fst e) :: l).

(** The macros *)
Definition p_macro1 (k : parsers) (md self s : string) : P ex :=
  t <- shift;;
  let close := if is_p "[" (Some t) then "]" else ")" in
  if String.eqb s "try" then
    l <- r_args k md self close;;
    match fst l with
    | [e] =>
        x <- node_ (NVar "try%");;
        err <- node_ (NApp (BCall "Err" [None]) [x]);;
        r <- node_ (NReturn (Some err));;
        plain (NMatch (fst e) [(PCon "Ok" [("0", PVar "try%")], None, x);
                               (PCon "Err" [("0", PVar "try%")], None, r)])
    | _ => fail
    end
  else if String.eqb s "assert" then
    l <- r_args k md self close;;
    match fst l with
    | e :: _ =>
        ok <- node_ (NLit (LVal unit_));;
        no <- node_ (NApp (BPanic AssertFailed) []);;
        plain (p_if (fst e) (PLit (LVal (VBool true))) ok no)
    | [] => fail
    end
  else if String.eqb s "panic" then
    r_args k md self close;;; plain (NApp (BPanic ExplicitPanic) [])
  else if String.eqb s "vec" then
    l <- r_args k md self close;; plain (NApp BVec (map fst (fst l)))
  else if String.eqb s "u12" then
    l <- r_args k md self close;; plain (NApp BU12 (map fst (fst l)))
  else if String.eqb s "format" then
    t <- shift;;
    match t with
    | TStr f =>
        accept ",";;; l <- r_args k md self close;;
        match pieces 200 "" f with
        | Some ps => plain (NApp (BFormat ps) (map fst (fst l)))
        | None => fail
        end
    | _ => fail
    end
  else if String.eqb s "println" || String.eqb s "print" then
    t <- shift;;
    match t with
    | TStr f =>
        accept ",";;; l <- r_args k md self close;;
        match pieces 200 "" (if String.eqb s "println" then f ++ String "010" "" else f)%string with
        | Some ps =>
            x <- node_ (NApp (BFormat ps) (map fst (fst l)));;
            plain (NApp (BCall "print!" [None]) [x])
        | None => fail
        end
    | _ => fail
    end
  else if String.eqb s "env" then
    l <- r_args k md self close;; plain (NApp (BCall "env!" (map snd (fst l))) (map fst (fst l)))
  else if String.eqb s "write" then
    w <- r_expr k md self false;; expect ",";;;
    t <- shift;;
    match t with
    | TStr f =>
        accept ",";;; l <- r_args k md self close;;
        match pieces 200 "" f with
        | Some ps => plain (NApp (BWrite (snd w) ps) (map fst (fst l)))
        | None => fail
        end
    | _ => fail
    end
  else fail.

(** Each to a depth of [n] *)
Fixpoint parsers_ (n : nat) : parsers :=
  match n with
  | O => mk_parsers (fun _ _ _ => fail) (fun _ _ _ _ => fail) (fun _ _ _ _ _ => fail) (fun _ _ _ => fail) (fun _ _ _ _ => fail) (fun _ _ _ _ => fail) (fun _ _ _ => fail) (fun _ _ _ => fail) (fun _ _ => fail) (fun _ _ => fail) (fun _ _ => fail) (fun _ _ => fail) (fun _ _ => fail) (fun _ _ => fail) (fun _ _ _ => fail)
  | S n' =>
      let k := parsers_ n' in
      mk_parsers (p_expr1 k) (p_bin1 k) (p_rest1 k) (p_unary1 k) (p_postfix1 k) (p_method1 k) (p_args1 k) (p_primary1 k) (p_inits1 k) (p_if_1 k) (p_arms1 k) (p_block1 k) (p_stmts1 k) (p_statics1 k) (p_macro1 k)
  end.

(** To the depth of every file *)
Definition all : parsers := parsers_ deep.


(** ** Items *)

(** Tokens up to and with [close], brackets inside being balanced *)
Fixpoint skip_to (n : nat) (close : string) (depth : N) : P unit :=
  match n with
  | O => fail
  | S n' =>
      t <- shift;;
      if is_p close (Some t) && (depth =? 0) then ret tt
      else if is_p "(" (Some t) || is_p "[" (Some t) || is_p "{" (Some t)
      then skip_to n' close (depth + 1)
      else if is_p ")" (Some t) || is_p "]" (Some t) || is_p "}" (Some t)
      then skip_to n' close (depth - 1)
      else skip_to n' close depth
  end.

(** What comes after [where], up to the brace that ends it *)
Fixpoint skip_where (n : nat) : P unit :=
  match n with
  | O => fail
  | S n' => t <- peek;; if is_p "{" t then ret tt else shift;;; skip_where n'
  end.

(** The parameters of a function: name, type, whether it is changed *)
Fixpoint p_params (n : nat) : P (list (string * string * bool)) :=
  match n with
  | O => fail
  | S n' =>
      t <- peek;;
      if is_p ")" t then shift;;; ret []
      else
        amp <- accept "&";;
        m <- accept_k "mut";;
        x <- ident;;
        colon <- accept ":";;
        ty <- (if colon then p_type else ret []);;
        accept ",";;;
        l <- p_params n';;
        ret ((x, type_name ty, (amp && m) || type_mut ty) :: l)
  end.

(** A function, after the keyword *)
Definition p_fn (md self : string) : P decl :=
  x <- ident;; p_generic;;; expect "(";;;
  ps <- p_params deep;;
  arrow <- accept "->";;
  ty <- (if arrow then p_type else ret []);;
  w <- accept_k "where";;
  (if w then skip_where deep else ret tt);;;
  b <- r_block all md self;;
  let name := if String.eqb self "" then x else (self ++ "::" ++ x)%string in
  ret (DFn name (mk_fn (map fst ps) (map snd ps) (type_name ty) b)).

(** The fields of a variant or struct in parentheses *)
Fixpoint p_types (n : nat) : P (list string) :=
  match n with
  | O => fail
  | S n' =>
      t <- peek;;
      if is_p ")" t then shift;;; ret []
      else
        ty <- p_type;; accept ",";;;
        l <- p_types n';; ret (type_name ty :: l)
  end.
(** The fields of a variant or struct in braces *)
Fixpoint p_named (n : nat) : P (list (string * string)) :=
  match n with
  | O => fail
  | S n' =>
      t <- peek;;
      if is_p "}" t then shift;;; ret []
      else
        accept_k "pub";;;
        x <- ident;; expect ":";;; ty <- p_type;; accept ",";;;
        l <- p_named n';; ret ((x, type_name ty) :: l)
  end.
(** The fields of a variant or struct *)
Definition p_shape : P (list (string * string)) :=
  t <- peek;;
  if is_p "(" t then shift;;; l <- p_types deep;; ret (combine tuple_names l)
  else if is_p "{" t then shift;;; p_named deep
  else ret [].
(** The variants of an enum *)
Fixpoint p_variants (n : nat) (ty : string) : P (list decl) :=
  match n with
  | O => fail
  | S n' =>
      t <- peek;;
      if is_p "}" t then shift;;; ret []
      else
        x <- ident;; fs <- p_shape;; accept ",";;;
        l <- p_variants n' ty;; ret (DCon (ty ++ "::" ++ x)%string ty fs :: l)
  end.

(** The items of a file or block up to its end *)
Fixpoint p_items (n : nat) (md self pre : string) : P (list decl) :=
  match n with
  | O => fail
  | S n' =>
      t <- peek;;
      match t with None => ret [] | Some _ =>
      if is_p "}" t then shift;;; ret []
      else if is_p "#" t then shift;;; expect "[";;; skip_to deep "]" 0;;; p_items n' md self pre
      else if is_k "extern" t then skip_to deep ";" 0;;; p_items n' md self pre
      else if is_k "use" t then skip_to deep ";" 0;;; p_items n' md self pre
      else if is_k "type" t then skip_to deep ";" 0;;; p_items n' md self pre
      else if is_k "pub" t then shift;;; p_items n' md self pre
      else if is_k "fn" t then
          shift;;; d <- p_fn md self;; l <- p_items n' md self pre;; ret (d :: l)
      else if is_k "mod" t then
          shift;;; x <- ident;; semi <- accept ";";;
          if semi then p_items n' md self pre else
          expect "{";;;
          a <- p_items n' md self (x ++ "::")%string;; b <- p_items n' md self pre;; ret (a ++ b)
      else if is_k "const" t then
          shift;;; x <- ident;; expect ":";;; ty <- p_type;; expect "=";;;
          e <- r_expr all md self false;; expect ";";;;
          l <- p_items n' md self pre;; ret (DConst (pre ++ x)%string (type_name ty) (fst e) :: l)
      else if is_k "lazy_static" t then
          shift;;; expect "!";;; expect "{";;;
          a <- r_statics all md self;; b <- p_items n' md self pre;;
          ret (map (fun d => DConst (fst (fst d)) (snd (fst d)) (snd d)) a ++ b)
      else if is_k "enum" t then
          shift;;; x <- ident;; p_generic;;; expect "{";;;
          a <- p_variants deep (resolve md self x);; b <- p_items n' md self pre;; ret (a ++ b)
      else if is_k "struct" t then
          shift;;; x <- ident;; p_generic;;;
          w <- accept_k "where";; (if w then skip_where deep else ret tt);;;
          fs <- p_shape;; accept ";";;;
          b <- p_items n' md self pre;; ret (DCon (resolve md self x) (resolve md self x) fs :: b)
      else if is_k "impl" t then
          shift;;; p_generic;;;
          x <- ident;; p1 <- p_path deep x;; p_generic;;;
          f <- accept_k "for";;
          name <- (if f then y <- ident;; p2 <- p_path deep y;; p_generic;;; ret p2 else ret p1);;
          w <- accept_k "where";; (if w then skip_where deep else ret tt);;;
          expect "{";;;
          a <- p_items n' md (resolve md self name) "";;
          b <- p_items n' md self pre;; ret (a ++ b)
      else fail
      end
  end.
