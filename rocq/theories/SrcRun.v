(** * SrcRun: what running Rust source text does.

    A machine for the expressions of SrcParse.v.  A state is what is evaluated
    next, the variables, and what is left to be done with the result; [step] is
    Rust's order of evaluation.  The functions of the standard library and of the
    crates are those of Base.v, Text.v, U12.v and Scanner.v; what the machine does
    not know stops it in [Stuck], and no theorem is about a run that ends there.

    A reference is what it refers to.  A function that changes an argument gives
    the changed argument back, and the caller puts it where the argument came
    from: nothing else can see it in between, which is what Rust's borrowing
    rules say. *)

From Coq Require Import String Ascii List NArith Bool FMapPositive.
From Verif Require Import Base Text U12 Scanner IHex SrcLex SrcParse.
Import ListNotations.
Open Scope string_scope.
Open Scope list_scope.
Open Scope N_scope.

(** ** Programs *)

(** The declarations of some files *)
Record program : Type := mk_program {
  code : PositiveMap.t node;
  fns : list (string * fn);
  cons_ : list (string * (string * list (string * string)));
  consts : list (string * id) }.

(** Looking up a name *)
Fixpoint assoc {A} (l : list (string * A)) (x : string) : option A :=
  match l with
  | [] => None
  | (y, a) :: r => if String.eqb x y then Some a else assoc r x
  end.

(** ** Values *)

(** The fields of a tuple *)
Definition fields_ (l : list value) : list (string * value) := combine tuple_names l.
(** [Some(v)], [None], [Ok(v)], [Err(v)] *)
Definition some_ (v : value) : value := VCon "Some" [("0", v)].
Definition none_ : value := VCon "None" [].
Definition ok_ (v : value) : value := VCon "Ok" [("0", v)].
Definition err_ (v : value) : value := VCon "Err" [("0", v)].

(** A literal number takes the type it is used at. *)
Definition coerce (t : string) (v : value) : value :=
  match int_type t with
  | Some k => match v with VInt IAny n => VInt k n | _ => v end
  | None => v
  end.
Fixpoint coerce_all (ts : list string) (vs : list value) : list value :=
  match ts, vs with
  | t :: ts', v :: vs' => coerce t v :: coerce_all ts' vs'
  | _, _ => vs
  end.
(** A literal number takes the type of what it is put in the place of. *)
Definition like (old v : value) : value :=
  match old, v with
  | VInt t _, VInt IAny n => VInt t n
  | _, _ => v
  end.

(** The field of a struct or tuple *)
Definition field_of (v : value) (f : string) : option value :=
  match v with
  | VCon _ l => assoc l f
  | VTup l => assoc (fields_ l) f
  | _ => None
  end.
(** Another value in a field *)
Fixpoint put (l : list (string * value)) (f : string) (v : value) : list (string * value) :=
  match l with
  | [] => []
  | (g, w) :: r => if String.eqb f g then (g, v) :: r else (g, w) :: put r f v
  end.
Definition put_field (v : value) (f : string) (w : value) : value :=
  match v with
  | VCon c l => VCon c (put l f w)
  | VTup l => VTup (map snd (put (fields_ l) f w))
  | _ => v
  end.

(** ** Variables *)

(** The variables, the newest first *)
Definition env : Type := list (string * value).

(** What is at a place *)
Fixpoint at_place (e : env) (p : place) : option value :=
  match p with
  | PlVar x => assoc e x
  | PlField q f => match at_place e q with Some v => field_of v f | None => None end
  end.
(** Another value at a place *)
Fixpoint set_place (e : env) (p : place) (v : value) : env :=
  match p with
  | PlVar x => put e x v
  | PlField q f =>
      match at_place e q with Some w => set_place e q (put_field w f v) | None => e end
  end.
(** The same where there may be no place: the value is dropped *)
Definition set_maybe (e : env) (p : option place) (v : value) : env :=
  match p with Some q => set_place e q v | None => e end.
Fixpoint set_all (e : env) (ps : list (option place)) (vs : list value) : env :=
  match ps, vs with
  | p :: ps', v :: vs' => set_all (set_maybe e p v) ps' vs'
  | _, _ => e
  end.
(** The oldest [n] variables: leaving a block *)
Definition keep (n : nat) (e : env) : env := skipn (length e - n) e.

(** ** Patterns *)

(** Whether two values are the same, for literals *)
Definition same (a b : value) : option bool :=
  match a, b with
  | VInt _ n, VInt _ m => Some (n =? m)
  | VBool p, VBool true => Some p
  | VBool p, VBool false => Some (negb p)
  | VChar c, VChar d => Some (c =? d)
  | VStr s, VStr t => Some (str_eqb s t)
  | _, _ => None
  end.
(** Both; either; all of them *)
Definition both (a b : bool) : bool := a && b.
Definition either (a b : bool) : bool := a || b.
Fixpoint all_of (l : list bool) : bool :=
  match l with [] => true | [b] => b | b :: r => both b (all_of r) end.
(** Whether a value is between two others *)
Definition between (v a b : value) : option bool :=
  match v, a, b with
  | VChar c, VChar d, VChar e => Some (both (d <=? c) (c <=? e))
  | _, _, _ => None
  end.
(** Matching a value: [None] when the shape is another; otherwise what has to be
    true besides, and the variables. *)
Fixpoint pmatch (p : pat) (v : value) : option (list bool * env) :=
  match p with
  | PWild => Some ([], [])
  | PVar x => Some ([], [(x, v)])
  | PLit w => match same v (lit_value w) with Some b => Some ([b], []) | None => None end
  | PRange a b => match between v (lit_value a) (lit_value b) with Some b => Some ([b], []) | None => None end
  | PTup l =>
      match v with
      | VTup vs =>
          (fix go l vs :=
             match l, vs with
             | [], [] => Some ([], [])
             | p :: l', v :: vs' =>
                 match pmatch p v, go l' vs' with
                 | Some (b1, e1), Some (b2, e2) => Some (b1 ++ b2, e1 ++ e2)
                 | _, _ => None
                 end
             | _, _ => None
             end) l vs
      | _ => None
      end
  | PCon c l =>
      match v with
      | VCon d vs =>
          if String.eqb c d then
            (fix go l :=
               match l with
               | [] => Some ([], [])
               | (f, p) :: l' =>
                   match assoc vs f with
                   | Some w =>
                       match pmatch p w, go l' with
                       | Some (b1, e1), Some (b2, e2) => Some (b1 ++ b2, e1 ++ e2)
                       | _, _ => None
                       end
                   | None => None
                   end
               end) l
          else None
      | _ => None
      end
  | PAt x p =>
      match pmatch p v with Some (b, e) => Some (b, (x, v) :: e) | None => None end
  | POr l =>
      (fix go l :=
         match l with
         | [] => None
         | p :: l' =>
             match pmatch p v with
             | None => go l'
             | Some ([], e) => Some ([], e)
             | Some (b, e) =>
                 match go l' with
                 | None => Some (b, e)
                 | Some ([], e') => Some ([], e')
                 | Some (b', _) => Some ([either (all_of b) (all_of b')], e)
                 end
             end
         end) l
  end.
(** Patterns that always match, with their values *)
Fixpoint bind_all (ps : list pat) (vs : list value) (e : env) : option env :=
  match ps, vs with
  | [], [] => Some e
  | p :: ps', v :: vs' =>
      match pmatch p v with
      | Some ([], e1) => bind_all ps' vs' (e1 ++ e)
      | _ => None
      end
  | _, _ => None
  end.

(** ** Operators *)

(** How many values a type has *)
Definition size_of (t : ity) : N :=
  match t with
  | IU8 => 256 | IU12 => 4096 | IU16 => 65536
  | IUsize => 18446744073709551616 | IAny => 18446744073709551616
  end.
(** Whether all the values of [a] are values of [b] *)
Definition within (a b : ity) : bool :=
  match a, b with
  | IU8, _ => true
  | IU12, IU8 => false
  | IU12, _ => true
  | IU16, (IU8 | IU12) => false
  | IU16, _ => true
  | _, (IU8 | IU12 | IU16) => false
  | _, _ => true
  end.
(** The type of the result *)
Definition join_ty (a b : ity) : ity := match a with IAny => b | _ => a end.
(** Whether a type is so wide that additions are not checked (DESIGN.md) *)
Definition wide (t : ity) : bool := match t with IUsize => true | IAny => true | _ => false end.

(** What an operation gives: a value; a value, and another in the place of the
    receiver; an [Option] or [Result], made of [Some v] with the name [c] and of [None]
    as [no]; what may panic; the next element; what a regular expression finds *)
Inductive answer : Type :=
| AVal (v : value)
| AMut (v self : value)
| AOpt (c : string) (no : value) (o : option value)
| ARun (r : run value)
| ANext (l : list value) (take : bool)
| AFind (pattern text : str).

(** Joining strings *)
Definition s_app (a b : str) : str := a ++ b.

(** A binary operator *)
Definition binop (op : string) (a b : value) : option answer :=
  match a, b with
  | VInt t1 n, VInt t2 m =>
      let t := join_ty t1 t2 in
      if String.eqb op "+" then
        if wide t then Some (AVal (VInt t (n + m)))
        else Some (ARun (if n + m <? size_of t then Done (VInt t (n + m)) else Crash ArithOverflow))
      else if String.eqb op "-" then
        Some (ARun (if m <=? n then Done (VInt t (n - m)) else Crash ArithOverflow))
      else if String.eqb op "&" then Some (AVal (VInt t (N.land n m)))
      else if String.eqb op "|" then Some (AVal (VInt t (N.lor n m)))
      else if String.eqb op "<<" then Some (AVal (VInt t1 (N.shiftl n m mod size_of t1)))
      else if String.eqb op ">>" then Some (AVal (VInt t1 (N.shiftr n m)))
      else if String.eqb op "==" then Some (AVal (VBool (n =? m)))
      else if String.eqb op "!=" then Some (AVal (VBool (negb (n =? m))))
      else if String.eqb op "<" then Some (AVal (VBool (n <? m)))
      else if String.eqb op "<=" then Some (AVal (VBool (n <=? m)))
      else if String.eqb op ">" then Some (AVal (VBool (m <? n)))
      else if String.eqb op ">=" then Some (AVal (VBool (m <=? n)))
      else None
  | VChar c, VChar d => if String.eqb op "==" then Some (AVal (VBool (c =? d))) else None
  | VStr s, VStr t =>
      if String.eqb op "==" then Some (AVal (VBool (str_eqb s t)))
      else if String.eqb op "+" then Some (AVal (VStr (s_app s t)))
      else None
  | _, _ => None
  end.

(** [as] *)
Definition cast (t : string) (v : value) : option value :=
  match v with
  | VInt k n =>
      match int_type t with
      | Some k' => Some (VInt k' (if within k k' then n else n mod size_of k'))
      | None => None
      end
  | _ => Some v
  end.

(** ** The library *)

(** How many there are *)
Definition v_len (l : list value) : N := N.of_nat (length l).
(** One list after another *)
Definition v_app (a b : list value) : list value := a ++ b.
(** The other way round *)
Definition v_rev (l : list value) : list value := rev l.
(** The characters, the bytes of a string *)
Definition v_chars (s : str) : list value := map VChar s.
Definition v_bytes (l : list byte) : list value := map (VInt IU8) l.
(** The strings of a list *)
Definition v_strs (l : list value) : list str :=
  map (fun v => match v with VStr s => s | _ => [] end) l.
Definition v_concat (l : list value) : str := concat (v_strs l).
(** The numbers from [a] to [b], which is left out *)
Fixpoint count_up (n : nat) (a : N) : list value :=
  match n with O => [] | S n' => VInt IUsize a :: count_up n' (a + 1) end.
Definition v_range (a b : N) : list value := count_up (N.to_nat (b - a)) a.
(** [HashMap::get] *)
Fixpoint map_get (m : list (str * value)) (k : str) : option value :=
  match m with
  | [] => None
  | (k', v) :: r => if str_eqb k' k then Some v else map_get r k
  end.
Definition has {A} (o : option A) : bool := match o with Some _ => true | None => false end.
(** A number in an answer *)
Definition ints (t : ity) (o : option N) : option value :=
  match o with Some n => Some (VInt t n) | None => None end.
(** The first element, by its index *)
Definition v_get (l : list value) (i : N) : option value := nth_error l (N.to_nat i).
(** [slice.chunks] *)
Fixpoint chunks_of (fuel n : nat) (l : list value) : list value :=
  match fuel, l with
  | _, [] => []
  | O, _ => []
  | S m, _ => VVec (firstn n l) :: chunks_of m n (skipn n l)
  end.
Definition v_chunks (n : N) (l : list value) : list value := chunks_of (length l) (N.to_nat n) l.
(** The elements from [n] on *)
Definition v_from (l : list value) (n : N) : run value :=
  if n <=? v_len l then Done (VVec (skipn (N.to_nat n) l)) else Crash IndexOutOfBounds.
(** A number *)
Definition v_int (v : value) : N := match v with VInt _ n => n | _ => 0 end.
(** [writer::create_object_file_representation] of the ihex crate, as in IHex.v *)
Definition v_record (v : value) : option record :=
  match v with
  | VCon c [(_, VInt _ offset); (_, VVec l)] =>
      if String.eqb c "Record::Data" then Some (RData offset (map v_int l)) else None
  | VCon c [] => if String.eqb c "Record::EndOfFile" then Some REndOfFile else None
  | _ => None
  end.
Definition v_written (l : list value) : option value :=
  match all_some (map v_record l) with
  | Some rs => match create_object_file rs with Some s => Some (VStr s) | None => None end
  | None => None
  end.
(** A slice *)
Definition v_slice (r : run str) : run value := bind r (fun s => Done (VStr s)).

(** [Regex::find] for the patterns of scanner.rs:130-280, by their text *)
Definition regex_find (pattern : str) : option (str -> option str) :=
  if str_eqb pattern (u "^[^\S\n]+") then Some find_whitespace
  else if str_eqb pattern (u "^""(?:[^""\\]|\\.)*""") then Some find_string_literal
  else if str_eqb pattern (u "^[\$\#][0-9a-fA-F]{1,3}") then Some find_hex_literal
  else if str_eqb pattern (u "^%[01\.]+") then Some find_bin_literal
  else if str_eqb pattern (u "^[0-9]{1,}") then Some find_decimal_literal
  else if str_eqb pattern (u "^[_a-zA-Z][_a-zA-Z0-9]{0,}") then Some find_identifier
  else None.
(** The start and end of what was found *)
Definition found (o : option str) : option value :=
  match o with
  | Some m => Some (VTup [VInt IUsize 0; VInt IUsize (byte_len m)])
  | None => None
  end.

(** A function of the library *)
Definition library (f : string) (l : list value) : option answer :=
  match l with
  | [] =>
      if String.eqb f "Vec::new" then Some (AVal (VVec []))
      else if String.eqb f "HashMap::new" then Some (AVal (VMap []))
      else if String.eqb f "String::new" then Some (AVal (VStr []))
      else if String.eqb f "io::stdout" then Some (AVal (VCon "Stdout" []))
      else if String.eqb f "Options::new" then Some (AVal (VCon "Options" [("0", VVec [])]))
      else None
  | [VStr s] =>
      if String.eqb f "String::from" then Some (AVal (VStr s))
      else if String.eqb f "Regex::new" then Some (AVal (ok_ (VCon "Regex" [("0", VStr s)])))
      else None
  | [VVec l] =>
      if String.eqb f "Vec::from" then Some (AVal (VVec l))
      else if String.eqb f "writer::create_object_file_representation"
      then Some (AOpt "Ok" (err_ unit_) (v_written l))
      else None
  | [VCon c l] => if String.eqb f "Box::new" then Some (AVal (VCon c l)) else None
  | [VInt t n] =>
      if String.eqb f "RefCell::new" then Some (AVal (VInt t n))
      else if String.eqb f "usize::from" then Some (AVal (VInt IUsize n))
      else if String.eqb f "u16::from" then Some (AVal (VInt IU16 n))
      else None
  | [VStr s; VInt _ r] =>
      if String.eqb f "usize::from_str_radix"
      then Some (AOpt "Ok" (err_ unit_) (ints IUsize (from_str_radix usize_bits r s)))
      else if String.eqb f "u8::from_str_radix"
      then Some (AOpt "Ok" (err_ unit_) (ints IU8 (from_str_radix u8_bits r s)))
      else None
  | [VInt t n; VInt t' m] =>
      if String.eqb f "cmp::max" then Some (AVal (VInt (join_ty t t') (N.max n m)))
      else if String.eqb f "cmp::min" then Some (AVal (VInt (join_ty t t') (N.min n m)))
      else None
  | _ => None
  end.

(** A method of the library on the value [v] *)
Definition method (m : string) (v : value) (args : list value) : option answer :=
  if String.eqb m "clone" then Some (AVal v) else
  if String.eqb m "push" then
    match v with VVec l => Some (AMut unit_ (VVec (v_app l args))) | _ => None end
  else
  match v, args with
  | VStr s, [] =>
      if String.eqb m "to_lowercase" then Some (AVal (VStr (to_lowercase s)))
      else if String.eqb m "as_str" then Some (AVal v)
      else if String.eqb m "to_string" then Some (AVal v)
      else if String.eqb m "len" then Some (AVal (VInt IUsize (byte_len s)))
      else if String.eqb m "as_bytes" then Some (AVal (VVec (v_bytes (utf8 s))))
      else if String.eqb m "chars" then Some (AVal (VIter (v_chars s)))
      else None
  | VStr s, [VStr t] =>
      if String.eqb m "starts_with" then Some (AVal (VBool (starts_with s t))) else None
  | VChar c, [] =>
      if String.eqb m "len_utf8" then Some (AVal (VInt IUsize (len_utf8 c))) else None
  | VInt t n, [] =>
      if String.eqb m "unchecked_into" then Some (AVal (VInt IU12 (u12_unchecked_into n)))
      else if String.eqb m "failable_into" then
        match t with
        | IU12 => Some (AOpt "Some" none_ (ints IU8 (u8_failable_from_u12 n)))
        | IUsize => Some (AOpt "Some" none_ (ints IU12 (u12_failable_into n)))
        | _ => None
        end
      else None
  | VInt IU12 n, [VInt _ k] =>
      if String.eqb m "checked_add" then Some (AOpt "Some" none_ (ints IU12 (u12_checked_add n k)))
      else if String.eqb m "wrapping_add" then Some (AVal (VInt IU12 (u12_wrapping_add n k)))
      else None
  | VInt IUsize n, [VInt _ k] =>
      if String.eqb m "checked_shl" then Some (AOpt "Some" none_ (ints IUsize (usize_checked_shl n k)))
      else None
  | VVec l, [] =>
      if String.eqb m "len" then Some (AVal (VInt IUsize (v_len l)))
      else if String.eqb m "iter" then Some (AVal (VIter l))
      else if String.eqb m "as_slice" then Some (AVal v)
      else None
  | VVec l, [VInt _ i] =>
      if String.eqb m "get" then Some (AOpt "Some" none_ (v_get l i))
      else if String.eqb m "chunks" then Some (AVal (VIter (v_chunks i l)))
      else None
  | VVec l, [VVec r] =>
      if String.eqb m "extend_from_slice" then Some (AMut unit_ (VVec (v_app l r)))
      else if String.eqb m "append" then Some (AMut unit_ (VVec (v_app l r)))
      else None
  | VVec l, [VStr s] =>
      if String.eqb m "join" then Some (AVal (VStr (join s (v_strs l)))) else None
  | VIter l, [] =>
      if String.eqb m "next" then Some (ANext l true)
      else if String.eqb m "peek" then Some (ANext l false)
      else if String.eqb m "peekable" then Some (AVal v)
      else if String.eqb m "count" then Some (AVal (VInt IUsize (v_len l)))
      else if String.eqb m "collect" then Some (AVal (VVec l))
      else if String.eqb m "collect::Vec" then Some (AVal (VVec l))
      else if String.eqb m "collect::String" then Some (AVal (VStr (v_concat l)))
      else None
  | VMap l, [VStr k] =>
      if String.eqb m "get" then Some (AOpt "Some" none_ (map_get l k))
      else if String.eqb m "contains_key" then Some (AVal (VBool (has (map_get l k))))
      else None
  | VMap l, [VStr k; w] =>
      if String.eqb m "insert" then Some (AMut unit_ (VMap ((k, w) :: l))) else None
  | VCon c [], [] =>
      if String.eqb c "None" then
        if String.eqb m "unwrap" then Some (ARun (Crash UnwrapFailed))
        else if String.eqb m "take" then Some (AMut v none_)
        else None
      else None
  | VCon c [], [w] =>
      if String.eqb c "None" && String.eqb m "ok_or" then Some (AVal (err_ w))
      else if String.eqb c "None" && String.eqb m "unwrap_or" then Some (AVal w)
      else None
  | VCon c [(_, x)], [] =>
      if String.eqb c "Some" then
        if String.eqb m "unwrap" then Some (AVal x)
        else if String.eqb m "take" then Some (AMut v none_)
        else None
      else if String.eqb c "Ok" then
        if String.eqb m "unwrap" then Some (AVal x)
        else if String.eqb m "ok" then Some (AVal (some_ x))
        else if String.eqb m "is_err" then Some (AVal (VBool false))
        else None
      else if String.eqb c "Err" then
        if String.eqb m "unwrap" then Some (ARun (Crash UnwrapFailed))
        else if String.eqb m "ok" then Some (AVal none_)
        else if String.eqb m "is_err" then Some (AVal (VBool true))
        else None
      else None
  | VCon c [(_, x)], [w] =>
      if String.eqb c "Some" && String.eqb m "ok_or" then Some (AVal (ok_ x))
      else if String.eqb c "Some" && String.eqb m "unwrap_or" then Some (AVal x)
      else if String.eqb c "Regex" && String.eqb m "find" then
        match x, w with
        | VStr p, VStr s => Some (AFind p s)
        | _, _ => None
        end
      else None
  | _, _ => None
  end.

(** An index, or a range of them *)
Definition index (v i : value) : option answer :=
  match v, i with
  | VVec l, VInt _ n =>
      Some (ARun (match v_get l n with Some w => Done w | None => Crash IndexOutOfBounds end))
  | VVec l, VCon c [(_, a)] =>
      match a with VInt _ a => Some (ARun (v_from l a)) | _ => None end
  | VStr s, VCon c [(_, a); (_, b)] =>
      match a, b with
      | VInt _ a, VInt _ b => Some (ARun (v_slice (slice s a b)))
      | _, _ => None
      end
  | VStr s, VCon c [(_, a)] =>
      match a with VInt _ a => Some (ARun (v_slice (drop_bytes s a))) | _ => None end
  | _, _ => None
  end.

(** What a [for] loop goes through *)
Definition elements (v : value) : option (list value) :=
  match v with
  | VVec l => Some l
  | VIter l => Some l
  | VCon c [(_, a); (_, b)] =>
      match a, b with VInt _ a, VInt _ b => Some (v_range a b) | _, _ => None end
  | _ => None
  end.

(** ** Formatting *)

(** The pieces, one after the other *)
Fixpoint cat (l : list str) : str :=
  match l with [] => [] | [s] => s | s :: r => s_app s (cat r) end.

(** A number or text as a piece asks for it *)
Definition shown (zero : bool) (w : N) (conv : string) (v : value) : option str :=
  match v with
  | VStr s => Some s
  | VChar c => Some [c]
  | VInt _ n =>
      let s := if String.eqb conv "x" then fmt_hex false n
               else if String.eqb conv "X" then fmt_hex true n
               else fmt_dec n in
      Some (match w with 0 => s | _ => pad_left (if zero then 48 else 32) (N.to_nat w) s end)
  | _ => None
  end.

(** ** The machine *)

(** What is left to be done *)
Inductive frame : Type :=
| KArgs (b : build) (done : list value) (todo : list id)
| KMatch (m : id)
| KGuard (m : id) (j : nat) (v : value) (e : env)
| KPop (n : nat)
| KBlock (b : id) (j : nat)
| KSet (op : string) (p : option place)
| KReturn
| KForIn (f : id)
| KFor (f : id) (todo : list value) (n : nat)
| KWhile (w : id)
| KWhileDo (w : id) (n : nat)
| KWith (w : id) (done : list value) (todo : list id)
| KWrap (c : string)
| KMap (w : id) (done todo : list value) (n : nat)
| KFold (w : id) (todo : list value) (n : nat)
| KFun (n : nat) (ret : string)
| KCall (places : list (option place)) (e : env)
| KFmt (l : list piece) (args : list value) (acc : list str) (dest : option (option place)) (e : env).

Inductive state : Type :=
| Eval (i : id) (e : env) (k : list frame)              (* an expression      *)
| Retn (v : value) (e : env) (k : list frame)           (* its value          *)
| Arms (v : value) (m : id) (j : nat) (e : env) (k : list frame)  (* the arms from j *)
| Block (b : id) (j : nat) (e : env) (k : list frame)   (* statements from j  *)
| Branch (b : bool) (s1 s2 : state)                     (* either             *)
| Opt (c : string) (no : value) (o : option value) (e : env) (k : list frame)
| Try (r : run value) (e : env) (k : list frame)
| Next (l : list value) (take : bool) (p : option place) (e : env) (k : list frame)
| Find (pattern text : str) (e : env) (k : list frame)
| Loop (f : id) (todo : list value) (e : env) (k : list frame)
| While (w : id) (e : env) (k : list frame)
| Mapping (w : id) (done todo : list value) (e : env) (k : list frame)
| Folding (w : id) (acc : value) (todo : list value) (e : env) (k : list frame)
| Call (f : string) (args : list value) (k : list frame)
| Back (v : value) (finals : list value) (k : list frame)
| Fmt (l : list piece) (args : list value) (acc : list str) (dest : option (option place))
      (e : env) (k : list frame)
| Ask (f : string) (args : list value) (k : list frame) (* for what is not in the files *)
| Panic (why : crash)
| Stuck.

Section Machine.
Variable p : program.

(** The node of a number *)
Definition node_at (i : id) : node :=
  match PositiveMap.find i (code p) with Some n => n | None => NBreak end.

(** The function of a name, which may be the last part of a path *)
Definition fn_at (f : string) : option (string * fn) :=
  match assoc (fns p) f with
  | Some d => Some (f, d)
  | None =>
      match assoc (fns p) (last_of f) with
      | Some d => Some (last_of f, d)
      | None => None
      end
  end.

(** The type a value is of, for its methods *)
Definition type_of (v : value) : option string :=
  match v with
  | VCon c _ => match assoc (cons_ p) c with Some (t, _) => Some t | None => None end
  | _ => None
  end.

(** A struct or variant *)
Definition construct (c : string) (l : list (string * value)) : value :=
  match assoc (cons_ p) c with
  | Some (_, ts) =>
      VCon c (map (fun fv => (fst fv, match assoc ts (fst fv) with
                                      | Some t => coerce t (snd fv)
                                      | None => snd fv
                                      end)) l)
  | None => VCon c l
  end.

(** The places of the arguments a function changes *)
Fixpoint masked (ms : list bool) (ps : list (option place)) : list (option place) :=
  match ms, ps with
  | m :: ms', q :: ps' => (if m then q else None) :: masked ms' ps'
  | _, _ => []
  end.

(** The answer of the library *)
Definition answered (a : answer) (self : option place) (e : env) (k : list frame) : state :=
  match a with
  | AVal v => Retn v e k
  | AMut v w => Retn v (set_maybe e self w) k
  | AOpt c no o => Opt c no o e k
  | ARun r => Try r e k
  | ANext l take => Next l take self e k
  | AFind q s => Find q s e k
  end.
Definition answered_or (o : option answer) (self : option place) (e : env) (k : list frame)
  : state :=
  match o with Some a => answered a self e k | None => Stuck end.

(** A call of a function of the files *)
Definition calls (f : string) (args : list value) (places : list (option place))
           (e : env) (k : list frame) : state :=
  match fn_at f with
  | Some (g, d) => Call g (coerce_all (map snd (fn_params d)) args) (KCall (masked (fn_muts d) places) e :: k)
  | None =>
      match assoc e f with
      | Some (VCon _ ((_, VInt _ (Npos i)) :: e0)) =>  (* a closure *)
          match node_at i with
          | NFn ps body =>
              match bind_all ps args e0 with
              | Some e' => Eval body e' (KFun 0 "" :: KCall [] e :: k)
              | None => Stuck
              end
          | _ => Stuck
          end
      | Some _ => Stuck
      | None => Ask f args (KCall places e :: k)
      end
  end.
(** A method that is not in the files *)
Definition asks (m : string) (v : value) (args : list value) (places : list (option place))
           (e : env) (k : list frame) : state :=
  match v with
  | VCon c _ => Ask (c ++ "::" ++ m) (v :: args) (KCall places e :: k)
  | _ => Stuck
  end.

(** The values of all the parts are known. *)
Definition built (b : build) (vs : list value) (e : env) (k : list frame) : state :=
  match b, vs with
  | BTup, _ => Retn (VTup vs) e k
  | BVec, _ => Retn (VVec vs) e k
  | BCon c fs, _ => Retn (construct c (combine fs vs)) e k
  | BCall f places, _ =>
      if capital (last_of f) then Retn (construct f (fields_ vs)) e k
      else if String.eqb f "mem::replace" then
        match vs, places with
        | [a; b], [q; _] => Retn a (set_maybe e q b) k
        | _, _ => Stuck
        end
      else match library f vs with
           | Some a => answered a None e k
           | None => calls f vs places e k
           end
  | BMethod m self places, v :: args =>
      match type_of v with
      | Some t =>
          let f := (t ++ "::" ++ m)%string in
          match assoc (fns p) f with
          | Some d => calls f vs (self :: places) e k
          | None =>
              if String.eqb m "to_string" then Fmt [FArg false 0 ""] [v] [] None e k
              else answered_or (method m v args) self e k
          end
      | None =>
          match method m v args with
          | Some a => answered a self e k
          | None => asks m v args (self :: places) e k
          end
      end
  | BBin op, [a; b] => answered_or (binop op a b) None e k
  | BNot, [VBool b] => Retn (VBool (negb b)) e k
  | BField f, [v] => match field_of v f with Some w => Retn w e k | None => Stuck end
  | BIndex, [v; i] => answered_or (index v i) None e k
  | BRange, [a; b] => Retn (VCon "Range" [("start", a); ("end", b)]) e k
  | BRangeFrom, [a] => Retn (VCon "RangeFrom" [("start", a)]) e k
  | BCast t, [v] => match cast t v with Some w => Retn w e k | None => Stuck end
  | BFormat l, _ => Fmt l vs [] None e k
  | BWrite q l, _ => Fmt l vs [] (Some q) e k
  | BPanic why, _ => Panic why
  | BU12, [VInt _ n] => Retn (VInt IU12 n) e k
  | _, _ => Stuck
  end.

(** The next part, or all of them *)
Definition parts (b : build) (done : list value) (todo : list id) (e : env) (k : list frame)
  : state :=
  match todo with
  | i :: r => Eval i e (KArgs b done r :: k)
  | [] => built b (rev done) e k
  end.

(** [return]: to the function; [break]: to the loop *)
Fixpoint to_fun (k : list frame) : list frame :=
  match k with
  | [] => []
  | KFun n t :: r => k
  | _ :: r => to_fun r
  end.
Fixpoint to_loop (e : env) (k : list frame) : state :=
  match k with
  | [] => Stuck
  | KFor _ _ n :: r => Retn unit_ (keep n e) r
  | KWhileDo _ n :: r => Retn unit_ (keep n e) r
  | _ :: r => to_loop e r
  end.

(** A method with a closure: its receiver and arguments are known. *)
Definition closed (w : id) (vs : list value) (e : env) (k : list frame) : state :=
  match node_at w with
  | NWith _ m _ ps body =>
      let under (v : value) (k' : list frame) :=
        match bind_all ps [v] e with
        | Some e' => Eval body e' (KPop (length e) :: k')
        | None => Stuck
        end in
      match vs with
      | [VCon c []] =>
          if String.eqb c "None" && String.eqb m "map" then Retn none_ e k
          else if String.eqb c "None" && String.eqb m "ok_or_else" then
            Eval body e (KPop (length e) :: KWrap "Err" :: k)
          else Stuck
      | [VCon c [(_, x)]] =>
          if String.eqb c "Some" && String.eqb m "map" then under x (KWrap "Some" :: k)
          else if String.eqb c "Some" && String.eqb m "ok_or_else" then Retn (ok_ x) e k
          else if String.eqb c "Ok" && String.eqb m "map_err" then Retn (ok_ x) e k
          else if String.eqb c "Err" && String.eqb m "map_err" then under x (KWrap "Err" :: k)
          else if String.eqb c "Ok" && String.eqb m "and_then" then under x k
          else if String.eqb c "Err" && String.eqb m "and_then" then Retn (err_ x) e k
          else if String.eqb c "Ok" && String.eqb m "unwrap_or_else" then Retn x e k
          else if String.eqb c "Err" && String.eqb m "unwrap_or_else" then under x k
          else Stuck
      | [VCon c [(_, a); (_, b)]] =>
          match a, b with
          | VInt _ a, VInt _ b =>
              if String.eqb c "Range" && String.eqb m "map" then Mapping w [] (v_range a b) e k
              else Stuck
          | _, _ => Stuck
          end
      | [VIter l] => if String.eqb m "map" then Mapping w [] l e k else Stuck
      | [VIter l; a] => if String.eqb m "fold" then Folding w a l e k else Stuck
      | _ => Stuck
      end
  | _ => Stuck
  end.

(** One step *)
Definition step (s : state) : state :=
  match s with
  | Eval i e k =>
      match node_at i with
      | NLit l => Retn (lit_value l) e k
      | NVar x =>
          match assoc e x with
          | Some v => Retn v e k
          | None =>
              if String.eqb x "u12::MAX" then Retn (VInt IU12 u12_max) e k
              else match assoc (consts p) x with
                   | Some j => Eval j e k
                   | None => if capital (last_of x) then Retn (VCon x []) e k else Stuck
                   end
          end
      | NApp b l => parts b [] l e k
      | NMatch c _ => Eval c e (KMatch i :: k)
      | NBlock _ _ => Block i 0 e (KPop (length e) :: k)
      | NSet op q c => Eval c e (KSet op q :: k)
      | NReturn (Some c) => Eval c e (KReturn :: k)
      | NReturn None => Retn unit_ e (KReturn :: k)
      | NBreak => to_loop e k
      | NWhile _ _ _ => While i e k
      | NFor _ c _ => Eval c e (KForIn i :: k)
      | NWith c _ l _ _ => Eval c e (KWith i [] l :: k)
      | NFn _ _ => Retn (VCon "closure" (("%", VInt IAny (Npos i)) :: e)) e k
      end
  | Block b j e k =>
      match node_at b with
      | NBlock l last =>
          match nth_error l j, last with
          | Some (SLet _ _ c), _ => Eval c e (KBlock b j :: k)
          | Some (SDo c), _ => Eval c e (KBlock b j :: k)
          | None, Some c => Eval c e k
          | None, None => Retn unit_ e k
          end
      | _ => Stuck
      end
  | Arms v m j e k =>
      match node_at m with
      | NMatch _ arms =>
          match nth_error arms j with
          | Some (q, guard, body) =>
              match pmatch q v with
              | None => Arms v m (S j) e k
              | Some (bs, e1) =>
                  let s1 := match guard with
                            | None => Eval body (e1 ++ e) (KPop (length e) :: k)
                            | Some g => Eval g (e1 ++ e) (KGuard m j v e :: k)
                            end in
                  match bs with
                  | [] => s1
                  | _ => Branch (all_of bs) s1 (Arms v m (S j) e k)
                  end
              end
          | None => Stuck
          end
      | _ => Stuck
      end
  | Branch b s1 s2 => if b then s1 else s2
  | Opt c no o e k =>
      match o with Some v => Retn (VCon c [("0", v)]) e k | None => Retn no e k end
  | Try r e k => match r with Done v => Retn v e k | Crash why => Panic why end
  | Next l take q e k =>
      match l with
      | [] => Retn none_ e k
      | v :: r => Retn (some_ v) (if take then set_maybe e q (VIter r) else e) k
      end
  | Find q s e k =>
      match regex_find q with
      | Some f => Opt "Some" none_ (found (f s)) e k
      | None => Stuck
      end
  | Loop f todo e k =>
      match node_at f with
      | NFor q _ body =>
          match todo with
          | [] => Retn unit_ e k
          | v :: r =>
              match pmatch q v with
              | Some ([], e1) => Eval body (e1 ++ e) (KFor f r (length e) :: k)
              | _ => Stuck
              end
          end
      | _ => Stuck
      end
  | While w e k =>
      match node_at w with
      | NWhile _ c _ => Eval c e (KWhile w :: k)
      | _ => Stuck
      end
  | Mapping w done todo e k =>
      match node_at w with
      | NWith _ _ _ ps body =>
          match todo with
          | [] => Retn (VIter (v_rev done)) e k
          | v :: r =>
              match bind_all ps [v] e with
              | Some e' => Eval body e' (KMap w done r (length e) :: k)
              | None => Stuck
              end
          end
      | _ => Stuck
      end
  | Folding w acc todo e k =>
      match node_at w with
      | NWith _ _ _ ps body =>
          match todo with
          | [] => Retn acc e k
          | v :: r =>
              match bind_all ps [acc; v] e with
              | Some e' => Eval body e' (KFold w r (length e) :: k)
              | None => Stuck
              end
          end
      | _ => Stuck
      end
  | Call f args k =>
      match assoc (fns p) f with
      | Some d =>
          Eval (fn_body d) (combine (map fst (fn_params d)) args)
               (KFun (length args) (fn_ret d) :: k)
      | None => Stuck
      end
  | Back v finals k =>
      match k with
      | KCall places e :: r => Retn v (set_all e places finals) r
      | KFmt l args acc dest e :: r =>
          match finals with
          | [_; VStr t] => Fmt l args (t :: acc) dest e r
          | _ => Stuck
          end
      | _ => s
      end
  | Fmt l args acc dest e k =>
      match l, args with
      | [], _ =>
          let t := cat (rev acc) in
          match dest with
          | None => Retn (VStr t) e k
          | Some (Some q) =>
              match at_place e q with
              | Some (VStr []) => Retn (ok_ unit_) (set_place e q (VStr t)) k
              | Some (VStr s) => Retn (ok_ unit_) (set_place e q (VStr (s_app s t))) k
              | _ => Stuck
              end
          | Some None => Stuck
          end
      | FText t :: r, _ => Fmt r args (u t :: acc) dest e k
      | FArg z w c :: r, v :: vs =>
          match type_of v with
          | Some t => Call (t ++ "::fmt") [v; VStr []] (KFmt r vs acc dest e :: k)
          | None =>
              match shown z w c v with
              | Some t => Fmt r vs (t :: acc) dest e k
              | None => Stuck
              end
          end
      | _, _ => Stuck
      end
  | Ask _ _ _ => s
  | Panic _ => s
  | Stuck => s
  | Retn v e k =>
      match k with
      | [] => Stuck
      | f :: k =>
          match f with
          | KArgs b done todo => parts b (v :: done) todo e k
          | KMatch m => Arms v m 0 e k
          | KGuard m j v0 e0 =>
              match v, node_at m with
              | VBool b, NMatch _ arms =>
                  match nth_error arms j with
                  | Some (_, _, body) =>
                      Branch b (Eval body e (KPop (length e0) :: k)) (Arms v0 m (S j) e0 k)
                  | None => Stuck
                  end
              | _, _ => Stuck
              end
          | KPop n => Retn v (keep n e) k
          | KBlock b j =>
              match node_at b with
              | NBlock l _ =>
                  match nth_error l j with
                  | Some (SLet q t _) =>
                      match pmatch q (coerce t v) with
                      | Some ([], e1) => Block b (S j) (e1 ++ e) k
                      | _ => Stuck
                      end
                  | Some (SDo _) => Block b (S j) e k
                  | None => Stuck
                  end
              | _ => Stuck
              end
          | KSet op q =>
              match q with
              | Some q =>
                  match at_place e q with
                  | Some old =>
                      if String.eqb op "=" then Retn unit_ (set_place e q (like old v)) k
                      else match binop op old v with
                           | Some (AVal w) => Retn unit_ (set_place e q w) k
                           | Some (ARun w) => Try w e (KSet "=" (Some q) :: k)
                           | _ => Stuck
                           end
                  | None => Stuck
                  end
              | None => Stuck
              end
          | KReturn => Retn v e (to_fun k)
          | KForIn i =>
              match elements v with Some l => Loop i l e k | None => Stuck end
          | KFor i todo n => Loop i todo (keep n e) k
          | KWhile w =>
              match node_at w with
              | NWhile q _ body =>
                  match pmatch q v with
                  | Some ([], e1) => Eval body (e1 ++ e) (KWhileDo w (length e) :: k)
                  | None => Retn unit_ e k
                  | Some _ => Stuck
                  end
              | _ => Stuck
              end
          | KWhileDo w n => While w (keep n e) k
          | KWith w done todo =>
              match todo with
              | i :: r => Eval i e (KWith w (v :: done) r :: k)
              | [] => closed w (rev (v :: done)) e k
              end
          | KWrap c => Retn (VCon c [("0", v)]) e k
          | KMap w done todo n => Mapping w (v :: done) todo (keep n e) k
          | KFold w todo n => Folding w v todo (keep n e) k
          | KFun n t => Back (coerce t v) (map snd (keep n e)) k
          | KCall _ _ => Stuck
          | KFmt _ _ _ _ _ => Stuck
          end
      end
  end.

(** Any number of steps *)
Fixpoint steps (n : nat) (s : state) : state :=
  match n with O => s | S n' => steps n' (step s) end.

(** [s] gets to [t]. *)
Definition reaches (s t : state) : Prop := exists n, steps n s = t.

(** Running on to where something has to be decided: a condition, an answer that is
    not known, a loop, a return, or where [stop] says *)
Fixpoint go (stop : state -> bool) (n : nat) (s : state) : state :=
  match n with
  | O => s
  | S n' =>
      if stop s then s else
      match s with
      | Branch _ _ _ | Opt _ _ _ _ _ | Try _ _ _ | Next _ _ _ _ _ | Find _ _ _ _ | Loop _ _ _ _
      | While _ _ _ | Mapping _ _ _ _ _ | Folding _ _ _ _ _ | Back _ _ _ | Ask _ _ _ | Panic _ | Stuck => s
      | _ => go stop n' (step s)
      end
  end.
(** Where a function is called; where a statement of the body of [f] is next *)
Definition calls_of (l : list string) (s : state) : bool :=
  match s with Call f _ _ => existsb (String.eqb f) l | _ => false end.
Definition at_statement (f : string) (j : nat) (s : state) : bool :=
  match s with
  | Block b j' _ _ =>
      match assoc (fns p) f with
      | Some d => Pos.eqb b (fn_body d) && Nat.eqb j j'
      | None => false
      end
  | _ => false
  end.
Definition or_else (a b : state -> bool) (s : state) : bool := a s || b s.
End Machine.

(** ** Files *)

(** Reading a file after others *)
Definition read_file (md : string) (text : list string) (r : option (list decl * pst))
  : option (list decl * pst) :=
  match r, tokens text with
  | Some (ds, s), Some ts =>
      match p_items deep md "" "" (mk_pst ts (next s) (out s)) with
      | Some (ds', s') => match toks s' with [] => Some (ds ++ ds', s') | _ => None end
      | None => None
      end
  | _, _ => None
  end.

(** The program of the declarations *)
Definition program_of (ds : list decl) (s : pst) : program :=
  mk_program
    (fold_right (fun iv m => PositiveMap.add (fst iv) (snd iv) m) (PositiveMap.empty node) (out s))
    (flat_map (fun d => match d with DFn x f => [(x, f)] | _ => [] end) ds)
    (flat_map (fun d => match d with DCon c t fs => [(c, (t, fs))] | _ => [] end) ds)
    (flat_map (fun d => match d with DConst x _ i => [(x, i)] | _ => [] end) ds).

(** The program of some files, each with the name of its module *)
Definition read_files (l : list (string * list string)) : option program :=
  match fold_left (fun r mf => read_file (fst mf) (snd mf) r) l
                  (Some ([], mk_pst [] 1%positive [])) with
  | Some (ds, s) => Some (program_of ds s)
  | None => None
  end.
