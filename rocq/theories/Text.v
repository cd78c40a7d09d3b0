(** * Text: the parts of the Rust standard library's text handling that the
    code observes: UTF-8, slicing by byte offsets, number parsing and number
    formatting.  These model std, not /repo (trusted base, DESIGN.md); the uses
    in /repo are cited. *)

From Verif Require Import Base.
From Coq Require Import Decimal Hexadecimal.
Open Scope N_scope.

(** ** UTF-8.

    [char::len_utf8], used in scanner.rs:158,336,378,396. *)
Definition len_utf8 (c : char) : N :=
  if c <? 0x80 then 1
  else if c <? 0x800 then 2
  else if c <? 0x10000 then 3
  else 4.

(** The UTF-8 bytes of a character ([str::as_bytes], directive.rs:145). *)
Definition utf8_char (c : char) : list byte :=
  if c <? 0x80 then [c]
  else if c <? 0x800 then [0xC0 + c / 64; 0x80 + c mod 64]
  else if c <? 0x10000 then [0xE0 + c / 4096; 0x80 + (c / 64) mod 64; 0x80 + c mod 64]
  else [0xF0 + c / 262144; 0x80 + (c / 4096) mod 64; 0x80 + (c / 64) mod 64; 0x80 + c mod 64].

(** [str::as_bytes] *)
Definition utf8 (s : str) : list byte := flat_map utf8_char s.

(** [str::len]: the number of bytes. *)
Fixpoint byte_len (s : str) : N :=
  match s with
  | [] => 0
  | c :: r => len_utf8 c + byte_len r
  end.

(** A Unicode scalar value, i.e. a possible Rust [char]. *)
Definition is_scalar (c : N) : bool :=
  (c <? 0xD800) || ((0xE000 <=? c) && (c <? 0x110000)).

(** Strict UTF-8 decoding, as done by [Read::read_to_string] (main.rs:46): rejects
    overlong forms, surrogates, values above U+10FFFF and truncated sequences. *)
Definition is_cont (b : byte) : bool := (0x80 <=? b) && (b <? 0xC0).

(** main.rs:46, [read_to_string]: a character at a time *)
Fixpoint utf8_decode_fuel (fuel : nat) (bs : list byte) : option str :=
  match fuel, bs with
  | _, [] => Some []
  | O, _ :: _ => None
  | S n, b0 :: r0 =>
      let cons_char (c : N) (ok : bool) (r : list byte) :=
        if ok && is_scalar c then
          match utf8_decode_fuel n r with
          | Some s => Some (c :: s)
          | None => None
          end
        else None in
      if b0 <? 0x80 then cons_char b0 true r0
      else if (0xC0 <=? b0) && (b0 <? 0xE0) then
        match r0 with
        | b1 :: r1 =>
            let c := (b0 - 0xC0) * 64 + (b1 - 0x80) in
            cons_char c (is_cont b1 && (0x80 <=? c)) r1
        | _ => None
        end
      else if (0xE0 <=? b0) && (b0 <? 0xF0) then
        match r0 with
        | b1 :: b2 :: r2 =>
            let c := ((b0 - 0xE0) * 64 + (b1 - 0x80)) * 64 + (b2 - 0x80) in
            cons_char c (is_cont b1 && is_cont b2 && (0x800 <=? c)) r2
        | _ => None
        end
      else if (0xF0 <=? b0) && (b0 <? 0xF8) then
        match r0 with
        | b1 :: b2 :: b3 :: r3 =>
            let c := (((b0 - 0xF0) * 64 + (b1 - 0x80)) * 64 + (b2 - 0x80)) * 64 + (b3 - 0x80) in
            cons_char c (is_cont b1 && is_cont b2 && is_cont b3 && (0x10000 <=? c)) r3
        | _ => None
        end
      else None
  end.

(** main.rs:46, [read_to_string]: the whole file *)
Definition utf8_decode (bs : list byte) : option str :=
  utf8_decode_fuel (length bs) bs.

(** ** Slicing by byte offset.

    [&s[n ..]]: panics when [n] is past the end or inside a character. *)
Fixpoint drop_bytes (s : str) (n : N) : run str :=
  if n =? 0 then Done s
  else match s with
       | [] => Crash BadSlice
       | c :: r => if len_utf8 c <=? n then drop_bytes r (n - len_utf8 c) else Crash BadSlice
       end.

(** [&s[.. n]]: panics likewise. *)
Fixpoint take_bytes (s : str) (n : N) : run str :=
  if n =? 0 then Done []
  else match s with
       | [] => Crash BadSlice
       | c :: r =>
           if len_utf8 c <=? n
           then (let* t := take_bytes r (n - len_utf8 c) in Done (c :: t))
           else Crash BadSlice
       end.

(** [&s[a .. b]]: panics when [a > b], past the end, or off a boundary. *)
Definition slice (s : str) (a b : N) : run str :=
  if a <=? b
  then (let* t := drop_bytes s a in take_bytes t (b - a))
  else Crash BadSlice.

(** ** Parsing numbers.

    [char::to_digit(radix)] for radix at most 16. *)
Definition to_digit (radix : N) (c : char) : option N :=
  let d :=
    if (c_ "0" <=? c) && (c <=? c_ "9") then Some (c - c_ "0")
    else if (c_ "a" <=? c) && (c <=? c_ "f") then Some (c - c_ "a" + 10)
    else if (c_ "A" <=? c) && (c <=? c_ "F") then Some (c - c_ "A" + 10)
    else None in
  match d with
  | Some v => if v <? radix then Some v else None
  | None => None
  end.

(** The digit loop of [from_str_radix] for an unsigned type with [2^bits] values:
    [checked_mul] then [checked_add]. *)
Fixpoint radix_digits (bits radix : N) (acc : N) (s : str) : option N :=
  match s with
  | [] => Some acc
  | c :: r =>
      match to_digit radix c with
      | None => None
      | Some d =>
          if acc * radix <? 2 ^ bits then
            if acc * radix + d <? 2 ^ bits
            then radix_digits bits radix (acc * radix + d) r
            else None
          else None
      end
  end.

(** [usize::from_str_radix] (scanner.rs:188,252) and [u8::from_str_radix]
    (parser.rs:396), the error being discarded by [.ok()] at every use: the empty
    string and a lone sign are errors, one leading '+' is accepted. *)
Definition from_str_radix (bits radix : N) (s : str) : option N :=
  match s with
  | [] => None
  | c :: r =>
      if c =? c_ "+"
      then match r with [] => None | _ => radix_digits bits radix 0 r end
      else radix_digits bits radix 0 s
  end.

(** The width of [usize]: the model is of a 64-bit build. *)
Definition usize_bits : N := 64.
(** The width of [u8], parser.rs:396 *)
Definition u8_bits : N := 8.

(** [usize::checked_shl(k)] (scanner.rs:106): [None] only when the shift AMOUNT is
    too large; bits shifted out are lost. *)
Definition usize_checked_shl (x k : N) : option N :=
  if k <? usize_bits then Some ((x * 2 ^ k) mod 2 ^ usize_bits) else None.

(** ** Formatting numbers.  [{}], [{:x}], [{:X}]. *)
Fixpoint uint_chars (d : Decimal.uint) : str :=
  match d with
  | Decimal.Nil => []
  | Decimal.D0 d => c_ "0" :: uint_chars d
  | Decimal.D1 d => c_ "1" :: uint_chars d
  | Decimal.D2 d => c_ "2" :: uint_chars d
  | Decimal.D3 d => c_ "3" :: uint_chars d
  | Decimal.D4 d => c_ "4" :: uint_chars d
  | Decimal.D5 d => c_ "5" :: uint_chars d
  | Decimal.D6 d => c_ "6" :: uint_chars d
  | Decimal.D7 d => c_ "7" :: uint_chars d
  | Decimal.D8 d => c_ "8" :: uint_chars d
  | Decimal.D9 d => c_ "9" :: uint_chars d
  end.

(** [{}] of a number, token.rs:72 *)
Definition fmt_dec (n : N) : str := uint_chars (N.to_uint n).

(** A digit of [{:x}] or [{:X}], parser.rs:173, token.rs:72 *)
Definition hex_char (upper : bool) (d : N) : char :=
  if d <? 10 then c_ "0" + d
  else (if upper then c_ "A" else c_ "a") + (d - 10).

(** The digits of [{:x}] or [{:X}], the same *)
Fixpoint hex_uint_chars (up : bool) (d : Hexadecimal.uint) : str :=
  match d with
  | Hexadecimal.Nil => []
  | Hexadecimal.D0 d => hex_char up 0 :: hex_uint_chars up d
  | Hexadecimal.D1 d => hex_char up 1 :: hex_uint_chars up d
  | Hexadecimal.D2 d => hex_char up 2 :: hex_uint_chars up d
  | Hexadecimal.D3 d => hex_char up 3 :: hex_uint_chars up d
  | Hexadecimal.D4 d => hex_char up 4 :: hex_uint_chars up d
  | Hexadecimal.D5 d => hex_char up 5 :: hex_uint_chars up d
  | Hexadecimal.D6 d => hex_char up 6 :: hex_uint_chars up d
  | Hexadecimal.D7 d => hex_char up 7 :: hex_uint_chars up d
  | Hexadecimal.D8 d => hex_char up 8 :: hex_uint_chars up d
  | Hexadecimal.D9 d => hex_char up 9 :: hex_uint_chars up d
  | Hexadecimal.Da d => hex_char up 10 :: hex_uint_chars up d
  | Hexadecimal.Db d => hex_char up 11 :: hex_uint_chars up d
  | Hexadecimal.Dc d => hex_char up 12 :: hex_uint_chars up d
  | Hexadecimal.Dd d => hex_char up 13 :: hex_uint_chars up d
  | Hexadecimal.De d => hex_char up 14 :: hex_uint_chars up d
  | Hexadecimal.Df d => hex_char up 15 :: hex_uint_chars up d
  end.

(** [{:x}], parser.rs:173-174, and [{:X}], token.rs:72, directive.rs:55, instruction.rs:49,51 *)
Definition fmt_hex (upper : bool) (n : N) : str := hex_uint_chars upper (N.to_hex_uint n).

(** Minimum width: [{:3x}] pads with spaces on the left, [{:03X}] with zeros. *)
Definition pad_left (fill : char) (width : nat) (s : str) : str :=
  repeat fill (width - length s) ++ s.

(** [slice.join(sep)] *)
Fixpoint join (sep : str) (l : list str) : str :=
  match l with
  | [] => []
  | [x] => x
  | x :: r => x ++ sep ++ join sep r
  end.

(** [String::to_lowercase] (instruction.rs:116, directive.rs:100).  Exact on
    ASCII; of the other characters only U+212A (KELVIN SIGN) has an ASCII lower
    case, and U+0130 lowers to an ASCII letter followed by a non-ASCII mark; all
    others lower to non-ASCII text, left as is here.  The code only ever compares
    the result with ASCII constants, which this simplification cannot affect. *)
Definition lower_char (c : char) : str :=
  if (c_ "A" <=? c) && (c <=? c_ "Z") then [c + 32]
  else if c =? 0x212A then [c_ "k"]
  else if c =? 0x130 then [c_ "i"; 0x307]
  else [c].

(** [String::to_lowercase], directive.rs:100, instruction.rs:116 *)
Definition to_lowercase (s : str) : str := flat_map lower_char s.
