(** * C111: the text of ihex_writer.rs, executed.

    As C107; SrcText.v has the text.  What [writer::create_object_file_representation] of
    the ihex crate does is trusted to be as in IHex.v. *)

From Coq Require Import String List NArith Bool Lia.
From Verif Require Import Base Text U12 DataRange Assembler IHex SpecLayout SpecHex OutputProofs HexProofs PropOutput
  SrcText SrcLex SrcParse SrcRun SrcCode SrcEnc SrcFacts SrcHexProofs.
Import ListNotations.
Open Scope string_scope.
Open Scope list_scope.
Open Scope N_scope.

(** All lists of data ranges *)
Theorem C111_hex : forall ranges K,
  reaches c8s (Call "ihex_representation_of_data_ranges" [VVec (map e_range ranges)] K)
              match ihex_representation ranges with
              | Done s => Back (VStr s) [VVec (map e_range ranges)] K
              | Crash why => Panic why
              end.
Proof. intros rs K. generalize (src_hex rs K). destruct (ihex_representation rs); exact (fun H => H). Qed.
Print Assumptions C111_hex.

(** Ranges of bytes below 64 KiB, no two of which overlap: the text is there, a reader of
    HEX files (SpecHex.v) finds the bytes in it, and it is made of blocks of 16 *)
Theorem C111_loads : forall ranges, Forall writable ranges -> find_overlapping_ranges ranges = [] ->
  exists s,
    (forall K, reaches c8s (Call "ihex_representation_of_data_ranges" [VVec (map e_range ranges)] K)
                           (Back (VStr s) [VVec (map e_range ranges)] K)) /\
    read_hex s = Some (memory ranges) /\
    exists ls, s = end_lines (ls ++ [end_line]) /\ blocks ranges ls.
Proof.
  intros rs W N. destruct (C39_loads rs W N) as (s & E & R). destruct (C40_form rs W N) as (ls & E' & B).
  rewrite E in E'. injection E' as E'. exists s. split; [|split; [exact R|exists ls; auto]].
  intro K. generalize (C111_hex rs K). rewrite E. exact (fun H => H).
Qed.
Print Assumptions C111_loads.

(** Ranges which overlap *)
Theorem C111_overlap : forall ranges, find_overlapping_ranges ranges <> [] -> exists why, forall K,
  reaches c8s (Call "ihex_representation_of_data_ranges" [VVec (map e_range ranges)] K) (Panic why).
Proof.
  intros rs N. destruct (C40_overlap rs N) as (why & E). exists why.
  intro K. generalize (C111_hex rs K). rewrite E. exact (fun H => H).
Qed.
Print Assumptions C111_overlap.

(** ** Cases *)
Definition hex_of (p : program) (rs : list data_range) : state :=
  steps p 3000 (Call "ihex_representation_of_data_ranges" [VVec (map e_range rs)] []).
Definition hex_text (rs : list data_range) (s : str) : state := Back (VStr s) [VVec (map e_range rs)] [].
Example C111_instance :
  Forall writable sample_ranges /\ find_overlapping_ranges sample_ranges = [] /\
  hex_of c8s sample_ranges = hex_text sample_ranges
    (u ":040FFC000102FF00EF" ++ [10] ++ u ":10020000070707070707070707070707070707077E" ++ [10] ++
     u ":020210000707DE" ++ [10] ++ u ":00000001FF" ++ [10]).
Proof.
  split; [exact (proj1 C39_instance)|]. split; vm_compute; reflexivity.
Qed.
Example C111_instance_overlap :
  let rs := [mk_range 0x200 [1; 2; 3]; mk_range 0x202 [4]] in
  find_overlapping_ranges rs <> [] /\ exists why, hex_of c8s rs = Panic why.
Proof. split; [vm_compute; discriminate|]. eexists. vm_compute. reflexivity. Qed.

(** Another text is another program: records of 18 bytes *)
Definition other_hex : list string :=
  map (fun l => if String.eqb l "        .chunks(16)" then "        .chunks(18)" else l) ihex_writer_rs.
Definition other_hex_files : list (string * list string) :=
  [("data_range", data_range_rs); ("ihex_writer", other_hex)].
Definition other_writer : program := Eval vm_compute in match read_files other_hex_files with Some p => p | None => c8s end.
Example C111_instance_other :
  read_files other_hex_files = Some other_writer /\
  hex_of other_writer [mk_range 0x200 (repeat 7 18)] = hex_text [mk_range 0x200 (repeat 7 18)]
    (u ":120200000707070707070707070707070707070707076E" ++ [10] ++ u ":00000001FF" ++ [10]) /\
  hex_of c8s [mk_range 0x200 (repeat 7 18)] = hex_text [mk_range 0x200 (repeat 7 18)]
    (u ":10020000070707070707070707070707070707077E" ++ [10] ++ u ":020210000707DE" ++ [10] ++ u ":00000001FF" ++ [10]).
Proof. repeat split; vm_compute; reflexivity. Qed.
