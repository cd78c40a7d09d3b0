(** * PropProfile: property C90, with instances. *)

From Verif Require Import Base Text U12 Location Token Scanner ScannerW ScannerO Parser Directive Instruction DataRange Assembler
  IHex Main Profile SpecUtf8 SpecLex SpecWidth BaseFacts ScanProofs LexTheorems UtfProofs WidthProofs ProfileProofs PropOutput
  PropText.
Open Scope N_scope.

(** ** C90: built with checks of overflow or without, the tool does the same.

    [main_p k bits] is the whole tool, every addition and subtraction of the source being done with integers of the
    machine.  In the profile [Debug] one that does not fit panics, in [Release] its result is reduced modulo the word
    size.  [main] is the tool of the other properties.  A text held in memory has at most [2^(bits-1) - 1] bytes. *)

(** A text: the same HEX text, or the same message. *)
Theorem C90_text : forall k e file s, Forall scalar s -> byte_len s < 2 ^ 63 ->
  assemble_text_p k 64 e file s = assemble_text e file s.
Proof.
  intros k e file s Sc B. apply profile_text; [exact Sc | | apply scan_64]. split; [lia|].
  rewrite pow2_64. change (2 ^ 63) with 9223372036854775808 in B. lia.
Qed.
Print Assumptions C90_text.

(** The tool: the same output, exit status and files, for every command line and all files that fit in memory. *)
Theorem C90_tool : forall k e f,
  (forall path bytes, f path = Some bytes -> N.of_nat (length bytes) < 2 ^ 63) ->
  main_p k 64 e f = main e f.
Proof.
  intros k e f H. apply profile_tool. intros path bytes s E D. split; [|apply scan_64].
  specialize (H path bytes E). apply encoding_utf8 in D. destruct D as [Sc ->]. rewrite <- byte_len_utf8 in H by exact Sc.
  split; [lia|]. rewrite pow2_64. change (2 ^ 63) with 9223372036854775808 in H. lia.
Qed.
Print Assumptions C90_tool.

(** So no run of it panics, in either profile, and the two profiles cannot be told apart. *)
Theorem C90_profiles : forall e f, (forall path bytes, f path = Some bytes -> N.of_nat (length bytes) < 2 ^ 63) ->
  exists o, main_p Debug 64 e f = Done o /\ main_p Release 64 e f = Done o.
Proof. intros e f H. destruct (C43_total e f) as (o & E). exists o. rewrite !C90_tool by exact H. auto. Qed.
Print Assumptions C90_profiles.

(** On a machine of 32 bits the same holds of texts without a binary number beyond that size (C72). *)
Theorem C90_text_32 : forall k e file s, Forall scalar s -> byte_len s < 2 ^ 31 -> narrow 32 s -> narrow 64 s ->
  assemble_text_p k 32 e file s = assemble_text e file s.
Proof.
  intros k e file s Sc B N N'. change (2 ^ 31) with 2147483648 in B. apply profile_text; [exact Sc | |].
  - split; [lia|]. change (2 ^ 32) with 4294967296. lia.
  - rewrite (scan_same 32 64) by (assumption || lia). apply scan_64.
Qed.
Print Assumptions C90_text_32.

(** The profiles differ where arithmetic overflows: the model tells them apart.  A range with nothing in it at address
    0, or one that ends at the end of the memory, is printed by one and not by the other; the tool prints no such range. *)
Theorem C90_display : forall start data, N.of_nat (length data) < 4096 -> (start + N.of_nat (length data)) mod 4096 = 0 ->
  range_fmt_p Debug 64 (mk_range start data) = Crash ArithOverflow /\
  range_fmt_p Release 64 (mk_range start data) =
    Done (u "$" ++ pad_left (c_ "0") 3 (fmt_hex true start) ++ u "...$FFFFFFFFFFFFFFFF ("
            ++ fmt_dec (N.of_nat (length data)) ++ u " bytes)").
Proof.
  intros start data B E. unfold range_fmt_p, address_range, range_len, u12_wrapping_add, u12_unchecked_into.
  cbn [dr_start dr_data]. rewrite (N.mod_small (N.of_nat (length data))) by exact B. rewrite E. split; [reflexivity|].
  cbn [bind sub_p]. replace (sub_p Release 64 0 1) with (@Done N 18446744073709551615) by (vm_compute; reflexivity).
  cbn [bind]. replace (pad_left (c_ "0") 3 (fmt_hex true 18446744073709551615)) with (u "FFFFFFFFFFFFFFFF")
    by (vm_compute; reflexivity).
  reflexivity.
Qed.
Print Assumptions C90_display.

(** With integers too small for the text the profiles differ: after 15 lines a counter of four bits has overflowed. *)
Example C90_small : scan_p Debug 4 [] (repeat LF 15) = Crash ArithOverflow /\
  scan_p Release 4 [] (repeat LF 15) = scan [] (repeat LF 15) /\
  scan_p Release 4 [] (repeat LF 16) = Crash BadSlice.
Proof. split; [vm_compute; reflexivity|]. split; vm_compute; reflexivity. Qed.

(** Machines with integers of 13 bits do for these texts: an output, a syntax error, an undefined label, an overlap. *)
Open Scope string_scope.
Open Scope list_scope.
Example C90_instance :
  let outputs k := map (assemble_text_p k 13 sample_env (u "in.s"))
    [lines ["ld v1, here"; "here: jp here"]; lines ["cls"; "ld v0, ,"]; lines ["cls"; "  jp nowhere"];
     lines [".org 5"; ".db 1, 2"; ".org 4"; "cls"]] in
  outputs Debug = outputs Release /\
  outputs Release =
    [Done (Ok (lines [":040000006102100287"; ":00000001FF"]));
     Done (Err (lines ["in.s:2:8: error: Unexpected token found: comma, expecting instruction field."]));
     Done (Err (lines ["in.s:2:3-4: error: Unable to resolve label nowhere."]));
     Done (Err (lines ["c8s: error: Input file specifies overlapping data ranges.";
                       "c8s: error: Data from one section has overflowed into the adjacent.";
                       "c8s: error:   range $005...$006 (2 bytes) overlaps with:";
                       "c8s: error:   range $004...$005 (2 bytes)"]))].
Proof. cbv zeta. split; vm_compute; reflexivity. Qed.
