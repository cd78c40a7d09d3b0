(** * SpecHex: the Intel HEX format (I8HEX), independently of the writer.

    A file is a list of lines, each ended by a line feed.  A line is ':' and an
    even number of hexadecimal digits, which denote bytes: a count, a two-byte
    address, a type, [count] data bytes and a byte making the sum of all of them a
    multiple of 256.  Type 0 is data; type 1, with no data, ends the file. *)

From Verif Require Import Base SpecLayout.
Open Scope N_scope.

Definition digit_value (c : char) : option N :=
  if (48 <=? c) && (c <=? 57) then Some (c - 48)
  else if (65 <=? c) && (c <=? 70) then Some (c - 55)
  else if (97 <=? c) && (c <=? 102) then Some (c - 87)
  else None.

Fixpoint digit_pairs (s : str) : option (list byte) :=
  match s with
  | [] => Some []
  | h :: l :: rest =>
      match digit_value h, digit_value l, digit_pairs rest with
      | Some h, Some l, Some bytes => Some (16 * h + l :: bytes)
      | _, _, _ => None
      end
  | [_] => None
  end.

(** The lines of a text; [None] when the last one is not ended. *)
Fixpoint lines (s : str) : option (list str) :=
  match s with
  | [] => Some []
  | c :: rest =>
      match lines rest with
      | None => None
      | Some ls =>
          if c =? 10 then Some ([] :: ls)
          else match ls with
               | [] => None
               | l :: ls => Some ((c :: l) :: ls)
               end
      end
  end.

Inductive hex_record : Type :=
| HexData (address : N) (data : list byte)
| HexEnd.

Fixpoint sum (bytes : list byte) : N :=
  match bytes with
  | [] => 0
  | b :: rest => b + sum rest
  end.

Definition read_record (line : str) : option hex_record :=
  match line with
  | colon :: digits =>
      if colon =? 58 then
        match digit_pairs digits with
        | Some (count :: high :: low :: kind :: rest) =>
            let data := removelast rest in
            if (N.of_nat (length rest) =? count + 1)
               && (sum (count :: high :: low :: kind :: rest) mod 256 =? 0)
            then if kind =? 0 then Some (HexData (256 * high + low) data)
                 else if (kind =? 1) && (count =? 0) then Some HexEnd
                 else None
            else None
        | _ => None
        end
      else None
  | [] => None
  end.

(** The end record is the last line. *)
Fixpoint read_records (ls : list str) : option (list (N * byte)) :=
  match ls with
  | [] => None
  | line :: rest =>
      match read_record line with
      | Some (HexData a data) =>
          match read_records rest with
          | Some image => Some (place a data ++ image)
          | None => None
          end
      | Some HexEnd => match rest with [] => Some [] | _ => None end
      | None => None
      end
  end.

(** The addresses and bytes denoted by a file, in order. *)
Definition read_hex (s : str) : option (list (N * byte)) :=
  match lines s with
  | Some ls => read_records ls
  | None => None
  end.

(** ** The form of the lines *)

Definition upper_digit (d : N) (c : char) : Prop :=
  (d < 10 /\ c = 48 + d) \/ (10 <= d < 16 /\ c = 55 + d).

(** Two upper-case digits for each byte. *)
Inductive hex_text : list byte -> str -> Prop :=
| hex_nil : hex_text [] []
| hex_cons : forall b h l bytes s,
    upper_digit (b / 16) h -> upper_digit (b mod 16) l ->
    hex_text bytes s -> hex_text (b :: bytes) (h :: l :: s).

(** The line of a data record. *)
Definition data_line (a : N) (data : list byte) (line : str) : Prop :=
  exists check digits,
    line = 58 :: digits /\
    hex_text (N.of_nat (length data) :: a / 256 :: a mod 256 :: 0 :: data ++ [check]) digits /\
    check < 256 /\
    (N.of_nat (length data) + a / 256 + a mod 256 + sum data + check) mod 256 = 0.

(** ":00000001FF" *)
Definition end_line : str := [58; 48; 48; 48; 48; 48; 48; 48; 49; 70; 70].

(** A block cut into consecutive records of 16 bytes, the last of 1 to 16. *)
Inductive block_lines : N -> list byte -> list str -> Prop :=
| block_last : forall a data line,
    (1 <= length data <= 16)%nat -> data_line a data line -> block_lines a data [line]
| block_more : forall a data rest line ls,
    length data = 16%nat -> rest <> [] -> data_line a data line ->
    block_lines (a + 16) rest ls -> block_lines a (data ++ rest) (line :: ls).

Definition end_lines (ls : list str) : str := flat_map (fun line => line ++ [10]) ls.
