(** * IHex: src/assembler/ihex_writer.rs and the writer of the external crate
    [ihex] 1.0 (the latter is trusted base: it is not part of /repo). *)

From Verif Require Import Base Text U12 DataRange.
Open Scope N_scope.

(** ** The crate: [ihex::record::Record], the two variants used *)
Inductive record : Type :=
| RData (offset : N) (value : list byte)
| REndOfFile.

(** [{:02X}] of a byte, [{:04X}] of a u16 *)
Definition hex2 (b : byte) : str := [hex_char true (b / 16); hex_char true (b mod 16)].
(** [{:04X}] of a u16 *)
Definition hex4 (w : N) : str := hex2 (w / 256) ++ hex2 (w mod 256).

(** [ihex::checksum::checksum]: two's complement of the sum, modulo 256 *)
Definition checksum (bs : list byte) : byte := (256 - fold_right N.add 0 bs mod 256) mod 256.

(** [Record::to_string]: [:LLAAAATT<data>CC].  More than 255 data bytes is an error. *)
Definition format_record (type : byte) (offset : N) (value : list byte) : option str :=
  if Nat.leb (length value) 255 then
    let region := [N.of_nat (length value); offset / 256; offset mod 256; type] ++ value in
    Some (u ":" ++ flat_map hex2 region ++ hex2 (checksum region))
  else None.

(** [ihex::record::Record::to_record_string] *)
Definition record_string (r : record) : option str :=
  match r with
  | RData offset value => format_record 0 offset value
  | REndOfFile => format_record 1 0 []
  end.

(** Is it [Record::EndOfFile]? *)
Definition is_eof (r : record) : bool := match r with REndOfFile => true | _ => false end.

(** [collect] into a [Result] *)
Fixpoint all_some {A : Type} (l : list (option A)) : option (list A) :=
  match l with
  | [] => Some []
  | Some a :: r => match all_some r with Some x => Some (a :: x) | None => None end
  | None :: _ => None
  end.

(** [writer::create_object_file_representation]: exactly one EOF record, in last
    position; the record strings joined with newlines. *)
Definition create_object_file (records : list record) : option str :=
  match rev records with
  | REndOfFile :: before =>
      if existsb is_eof before then None
      else match all_some (map record_string records) with
           | Some lines => Some (join [10] lines)
           | None => None
           end
  | _ => None
  end.

(** ** ihex_writer.rs *)

(** [slice.chunks(16)], ihex_writer.rs:46 *)
Fixpoint chunks_fuel (fuel : nat) (n : nat) (l : list byte) : list (list byte) :=
  match fuel, l with
  | _, [] => []
  | O, _ => []
  | S m, _ => firstn n l :: chunks_fuel m n (skipn n l)
  end.
(** [slice.chunks(16)], ihex_writer.rs:46 *)
Definition chunks (n : nat) (l : list byte) : list (list byte) := chunks_fuel (length l) n l.

(** ihex_writer.rs:36-58: [address] is the [record_address] cell, a [u16]; the
    addition panics on overflow. *)
Fixpoint data_records (address : N) (cs : list (list byte)) : run (list record) :=
  match cs with
  | [] => Done []
  | chunk :: rest =>
      let next := address + N.of_nat (length chunk) in
      if next <? 65536
      then let* rs := data_records next rest in Done (RData address chunk :: rs)
      else Crash ArithOverflow
  end.

(** ihex_writer.rs:33-61 *)
Fixpoint range_records (ranges : list data_range) : run (list record) :=
  match ranges with
  | [] => Done []
  | r :: rest =>
      let* a := data_records (fst (address_range r)) (chunks 16 (dr_data r)) in
      let* b := range_records rest in
      Done (a ++ b)
  end.

(** ihex_writer.rs:27-68 *)
Definition ihex_representation (ranges : list data_range) : run str :=
  let* _ := assert_ (Nat.eqb (length (find_overlapping_ranges ranges)) 0) in
  let* records := range_records ranges in
  let* s := unwrap (create_object_file (records ++ [REndOfFile])) in
  Done (s ++ [10]).
