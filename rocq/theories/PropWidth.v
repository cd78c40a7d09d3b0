(** * PropWidth: property C72, with instances. *)

From Verif Require Import Base Text Location Token Scanner ScannerW Parser SpecLex SpecWidth BaseFacts LexTheorems
  WidthProofs.
Open Scope N_scope.

(** ** C72: the word size of the machine.

    [scan_w bits] is the scanner with a [usize] of [bits] bits, [scan] the one of all the
    other properties. *)
Theorem C72_model : forall file s, scan_w 64 file s = scan file s.
Proof. exact scan_64. Qed.
Print Assumptions C72_model.

(** The claim: the tokens are the same on all machines. *)
Definition C72_claim : Prop := forall b b' file s, 12 <= b -> 12 <= b' -> scan_w b file s = scan_w b' file s.

(** They are, but for binary numbers beyond the word size. *)
Theorem C72_partial : forall b b' file s, 12 <= b -> 12 <= b' -> narrow b s -> narrow b' s ->
  scan_w b file s = scan_w b' file s.
Proof. exact scan_same. Qed.
Print Assumptions C72_partial.

(** In particular if no binary number has more digits than the machines have bits. *)
Theorem C72_digits : forall b b' file s, 12 <= b -> b <= b' ->
  (forall before d rest, s = before ++ c_ "%" :: d ++ rest -> forallb (among "01.") d = true ->
     N.of_nat (length d) <= b) ->
  scan_w b file s = scan_w b' file s.
Proof.
  intros b b' file s Hb Hb' D. apply scan_same; [exact Hb | lia | |];
    intros before d rest E A; (eapply N.lt_le_trans; [apply undot_small; exact A|]); apply N.pow_le_mono_r;
    try lia; pose proof (D before d rest E A); lia.
Qed.
Print Assumptions C72_digits.

(** Each binary number is read modulo the word size. *)
Theorem C72_binary : forall b d, 12 <= b -> d <> [] -> forallb (among "01.") d = true ->
  parse_12_bit_bin_str_w b d =
  let v := positional 2 (undot d) mod 2 ^ b in
  if v <=? 4095 then Ok v else Err (BinaryLiteralOutOfRange d).
Proof. intros b d Hb Hn A. apply bin_value_w; [lia | exact Hn | rewrite forallb_bin; exact A]. Qed.
Print Assumptions C72_binary.

(** One followed by 32 zeros is 0 on a machine of 32 bits, and refused on one of 64. *)
Definition wide_text : str := u ".db %1" ++ repeat (c_ "0") 32.

Definition accepted_by (b : N) (s : str) : bool :=
  match scan_w b (u "f") s with
  | Done ts => match parse ts with Done (Ok _) => true | _ => false end
  | Crash _ => false
  end.

Theorem C72_refuted : ~ C72_claim /\ accepted_by 32 wide_text = true /\ accepted_by 64 wide_text = false.
Proof.
  assert (A : accepted_by 32 wide_text = true) by (vm_compute; reflexivity).
  assert (B : accepted_by 64 wide_text = false) by (vm_compute; reflexivity).
  split; [|split; [exact A | exact B]].
  intros C. unfold accepted_by in A, B. rewrite (C 32 64) in A by lia. rewrite B in A. discriminate A.
Qed.
Print Assumptions C72_refuted.

Example C72_instance :
  narrow 16 (u "x: .db %1..1, 9999999999999999999999") /\
  scan_w 16 (u "f") (u "x: .db %1..1, 9999999999999999999999") =
  Done [Identifier (u "x") (mk_loc (u "f") 1 1 1); LabelMarker (mk_loc (u "f") 1 2 1);
        DirectiveMarker (mk_loc (u "f") 1 4 1); Identifier (u "db") (mk_loc (u "f") 1 5 2);
        NumericLiteral 9 (mk_loc (u "f") 1 8 5); Comma (mk_loc (u "f") 1 13 1);
        ErrorToken (DecimalLiteralOutOfRange (u "9999999999999999999999")) (mk_loc (u "f") 1 15 22)].
Proof.
  split; [|vm_compute; reflexivity]. intros before d rest E A.
  assert (L : (length d <= 4)%nat).
  { do 7 (destruct before as [|? before]; [discriminate|]; injection E as _ E).
    destruct before as [|? before].
    - injection E as E. do 4 (destruct d as [|? d]; [cbn; lia|]; injection E as <- E).
      destruct d as [|? d]; [cbn; lia|]. injection E as <- E. discriminate.
    - exfalso. injection E as _ E. repeat (destruct before as [|? before]; [discriminate|]; injection E as _ E).
      destruct before; discriminate. }
  eapply N.lt_le_trans; [apply undot_small; exact A|]. apply N.pow_le_mono_r; lia.
Qed.
