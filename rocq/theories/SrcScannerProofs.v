(** * SrcScannerProofs: running the text of scanner.rs. *)

From Coq Require Import String List NArith Lia.
From Verif Require Import Base BaseFacts Text U12 Location Token Scanner Instruction
  SrcParse SrcRun SrcCode SrcEnc SrcFacts SrcRangeProofs.
Import ListNotations.
Open Scope string_scope.
Open Scope list_scope.
Open Scope N_scope.

(** What scanner.rs:92-97 gives *)
Definition e_bit (c : char) : value := e_result e_scan_error (VInt IAny) (ok_or (bin_char_value c) InvalidBinaryLiteral).

Ltac quick t ::=
  eval lazy -[N.add N.sub N.mul N.eqb N.leb N.ltb N.land N.lor N.shiftl N.shiftr N.modulo N.div
              N.pow N.max N.min str_eqb to_lowercase byte_len drop_bytes take_bytes slice
              from_str_radix fmt_hex fmt_dec pad_left join starts_with label_get utf8 enc
              s_app v_len v_app v_rev v_concat v_chars v_bytes v_strs v_range map_get has v_get v_slice found
              find_whitespace find_string_literal find_hex_literal find_bin_literal
              find_decimal_literal find_identifier u12_unchecked_into u12_failable_into
              u12_checked_add u12_wrapping_add u8_failable_from_u12 usize_checked_shl
              u12_max len_utf8 both either u e_pairs resolve_label to_8_bit to_4_bit
              e_loc loc_new advance_by char_at consume_char fold_left advance_step e_bit bin_loop ] in t.

Lemma v_chars_cons c s : v_chars (c :: s) = VChar c :: v_chars s.
Proof. reflexivity. Qed.
Lemma v_chars_nil : v_chars [] = [].
Proof. reflexivity. Qed.
(** A slice, if it can be taken *)
Ltac cut_ x :=
  lazymatch goal with
  | |- reaches c8s (Try (v_slice ?r) ?e ?k) ?t =>
      apply (reaches_try c8s (v_slice r) e k t);
      destruct r as [x|?]; unfold v_slice; cbn [bind]; [|apply reaches_refl]
  end.

Lemma src_char_at sc n : gives "Scanner::char_at" [e_scanner sc; e_usize n]
  match char_at sc n with Done c => Done (VChar c) | Crash w => Crash w end.
Proof.
  intro K. destruct sc as [f input pos line off]. unfold char_at. cbn [sc_input sc_position]. run. cut_ l. run. destruct l as [|c s].
  - rewrite v_chars_nil. again (calls_of []). try_closed. finish.
  - rewrite v_chars_cons. again (calls_of []). finish.
Qed.

Lemma step_is a b c x : advance_step (a, b, c) x =
  (if x =? 10 then a + 1 else a, if a =? 0 then b + 1 else b, if x =? 10 then 1 else c + 1).
Proof. unfold advance_step. change newline with 10. destruct (x =? 10); reflexivity. Qed.

Lemma src_advance_by sc n : returns "Scanner::advance_by" [e_scanner sc; e_usize n]
  match advance_by sc n with Done (l, sc') => Done (e_loc l, [e_scanner sc'; e_usize n]) | Crash w => Crash w end.
Proof.
  intro K. destruct sc as [f input pos line off]. unfold advance_by. cbn [sc_input sc_position sc_offset sc_file sc_line].
  run. cut_ range. run.
  match goal with
  | |- reaches c8s (Folding ?w _ _ ?e ?k) _ =>
      assert (M : forall s acc, reaches c8s (Folding w (VInt IUsize acc) (v_chars s) e k)
                (Retn (VInt IUsize (fold_left (fun acc x => acc + len_utf8 x) s acc)) e k))
  end.
  { induction s as [|c s IH]; intro acc.
    - rewrite v_chars_nil. one. apply reaches_refl.
    - rewrite v_chars_cons. cbn [fold_left]. again (calls_of []). apply IH. }
  match goal with
  | |- reaches c8s ?s0 _ =>
      match s0 with
      | Folding _ _ _ ?e ?k =>
          assert (M0 : exists ty, (ty = IAny \/ ty = IUsize) /\
            reaches c8s s0 (Retn (VInt ty (fold_left (fun acc x => acc + len_utf8 x) range 0)) e k))
      end
  end.
  { destruct range as [|c s].
    - exists IAny. split; [left; reflexivity|]. rewrite v_chars_nil. one. apply reaches_refl.
    - exists IUsize. split; [right; reflexivity|]. rewrite v_chars_cons. cbn [fold_left]. again (calls_of []). apply M. }
  destruct M0 as (ty & T & M0). use M0. clear M M0. generalize (fold_left (fun acc x => acc + len_utf8 x) range 0). intro total.
  destruct T; subst ty; run_on (calls_of []); cbn [assert_ bind]; try finish.
  all: match goal with
  | |- reaches c8s (Loop ?w _ (_ :: _ :: _ :: ?e) ?k) _ =>
      assert (M : forall s a b c, reaches c8s (Loop w (v_chars s)
           (("last_line_offset", VInt IUsize c) :: ("characters_on_first_line", VInt IAny b) :: ("number_of_newlines", VInt IAny a) :: e) k)
        (let '(a', b', c') := fold_left advance_step s (a, b, c) in
         Retn unit_ (("last_line_offset", VInt IUsize c') :: ("characters_on_first_line", VInt IAny b') :: ("number_of_newlines", VInt IAny a') :: e) k))
  end.
  1, 3: induction s as [|x s IH]; intros a b c;
    [rewrite v_chars_nil; one; apply reaches_refl|];
    rewrite v_chars_cons; cbn [fold_left]; rewrite step_is; again (calls_of []); apply IH.
  all: (use M); destruct (fold_left advance_step range (0, 0, off)) as [[a b] c]; clear M;
    run_to (calls_of ["SourceFileLocation::new"]); (use src_loc_new);
    destruct (loc_new f line off b); run; finish.
Qed.

(** scanner.rs:89-121 *)
Lemma src_bin s : gives "parse_12_bit_bin_str" [VStr s]
  (Done (e_result e_scan_error e_usize (parse_12_bit_bin_str s))).
Proof.
  intro K. run.
  match goal with
  | |- reaches c8s (Mapping ?w _ _ ?e ?k) _ =>
      assert (M : forall s done, reaches c8s (Mapping w done (v_chars s) e k) (Retn (VIter (v_rev done ++ enc e_bit s)) e k))
  end.
  { clear. induction s0 as [|c s0 IH]; intro done.
    - rewrite v_chars_nil. one. rewrite enc_nil, app_nil_r. apply reaches_refl.
    - rewrite v_chars_cons, enc_cons.
      replace (v_rev done ++ e_bit c :: enc e_bit s0) with (v_rev (e_bit c :: done) ++ enc e_bit s0)
        by (unfold v_rev; cbn [rev]; rewrite <- app_assoc; reflexivity).
      unfold e_bit at 1, bin_char_value. change (c_ ".") with 46. change (c_ "0") with 48. change (c_ "1") with 49.
      again (calls_of []); apply IH. }
  use M. change (v_rev []) with (@nil value). cbn [app]. clear M. run.
  match goal with
  | |- reaches c8s (While ?w _ ?k) _ =>
      assert (M : forall rest acc, reaches c8s (While w [("accumulator", VInt IUsize acc); ("value_result_iterator", VIter (enc e_bit rest)); ("bin_str", VStr s)] k)
        (Back (e_result e_scan_error e_usize
                 match bin_loop s acc rest with
                 | Ok a => if a <=? 0xFFF then Ok a else Err (BinaryLiteralOutOfRange s)
                 | Err e => Err e
                 end) [VStr s] K))
  end.
  { induction rest as [|c rest IH]; intro acc.
    - rewrite enc_nil. again (calls_of []). cbn [bin_loop]. again (calls_of []); finish.
    - rewrite enc_cons. cbn [bin_loop]. unfold e_bit at 1. destruct (bin_char_value c) as [bit|]; cbn [ok_or e_result].
      + again (calls_of []). again (calls_of []). exact (IH (N.lor ((acc * 2 ^ 1) mod 2 ^ 64) bit)).
      + again (calls_of []). again (calls_of []). finish. }
  use M. unfold parse_12_bit_bin_str. destruct (bin_loop s 0 s); apply reaches_refl.
Qed.

(** A function that gives a token *)
Definition scans (f : string) (sc : scanner) (r : run (token * scanner)) : Prop :=
  returns f [e_scanner sc] match r with Done (t, sc') => Done (e_token t, [e_scanner sc']) | Crash w => Crash w end.
Ltac open_scanner sc f input pos line off :=
  destruct sc as [f input pos line off];
  cbn [sc_file sc_input sc_position sc_line sc_offset].

Lemma src_consume_char sc : returns "Scanner::consume_char" [e_scanner sc]
  match consume_char sc with
  | Done (c, l, sc') => Done (VTup [VChar c; e_loc l], [e_scanner sc'])
  | Crash w => Crash w
  end.
Proof.
  intro K. unfold consume_char. run_to (calls_of ["Scanner::char_at"]). use (src_char_at sc 0).
  destruct (char_at sc 0) as [c|w]; cbn [bind]; [|finish].
  run_to (calls_of ["Scanner::advance_by"]). use (src_advance_by sc (len_utf8 c)).
  destruct (advance_by sc (len_utf8 c)) as [[l sc']|w]; cbn [bind]; [|finish]. run. finish.
Qed.

Ltac chars := repeat match goal with |- context [c_ ?s] => let v := eval vm_compute in (c_ s) in change (c_ s) with v end.
Ltac one_char sc :=
  chars; intro K; run_to (calls_of ["Scanner::consume_char"]); use (src_consume_char sc);
  destruct (consume_char sc) as [[[c l] sc']|w]; cbn [bind]; [|finish];
  run_on (calls_of []); finish.
Lemma src_newline sc : scans "Scanner::consume_newline" sc (consume_newline sc).
Proof. unfold consume_newline. one_char sc. Qed.
Lemma src_directive_marker sc : scans "Scanner::consume_directive_marker" sc (consume_directive_marker sc).
Proof. unfold consume_directive_marker. one_char sc. Qed.
Lemma src_label_marker sc : scans "Scanner::consume_label_marker" sc (consume_label_marker sc).
Proof. unfold consume_label_marker. one_char sc. Qed.
Lemma src_comma sc : scans "Scanner::consume_comma" sc (consume_comma sc).
Proof. unfold consume_comma. one_char sc. Qed.

Lemma find_step p q f s e k t : regex_find q = Some f ->
  reaches p (Opt "Some" none_ (found (f s)) e k) t -> reaches p (Find q s e k) t.
Proof. intros E H. apply reaches_step. cbn [step]. rewrite E. exact H. Qed.
Lemma found_none : found None = None.
Proof. reflexivity. Qed.
Lemma found_some m : found (Some m) = Some (VTup [VInt IUsize 0; VInt IUsize (byte_len m)]).
Proof. reflexivity. Qed.
(** Looking for a pattern that the model's [find] finds *)
Ltac find_ find m :=
  lazymatch goal with
  | |- reaches c8s (Find ?q ?s ?e ?k) ?t =>
      apply (find_step c8s q find s e k t); [vm_compute; reflexivity|];
      destruct (find s) as [m|]; [rewrite (found_some m)|rewrite found_none]
  end.
Ltac advance n l sc' :=
  run_on (calls_of ["Scanner::advance_by"]);
  lazymatch goal with
  | |- reaches c8s (Call _ [VCon _ [(_, VStr ?f); (_, VStr ?i); (_, VInt _ ?p); (_, VInt _ ?m); (_, VInt _ ?o)]; _] _) _ =>
      use (src_advance_by (mk_scanner f i p m o) n);
      destruct (advance_by (mk_scanner f i p m o) n) as [[l sc']|?]; cbn [bind]; [|finish]
  end.
(** The error at the current place *)
Ltac failed :=
  unfold error_here; cbn [sc_file sc_input sc_position sc_line sc_offset];
  run_to (calls_of ["SourceFileLocation::new"]); use src_loc_new;
  lazymatch goal with |- context [loc_new ?f ?a ?b ?c] => destruct (loc_new f a b c) end;
  cbn [bind]; [|finish]; run; finish.
Ltac open_ sc := 
  unfold rest_of_input; destruct sc as [f input pos line off];
  cbn [sc_file sc_input sc_position sc_line sc_offset].

Lemma src_whitespace sc : returns "Scanner::consume_whitespace" [e_scanner sc]
  match consume_whitespace sc with Done sc' => Done (unit_, [e_scanner sc']) | Crash w => Crash w end.
Proof.
  intro K. unfold consume_whitespace. open_ sc. run. cut_ s. run. find_ find_whitespace m.
  - again (calls_of ["Scanner::advance_by"]). advance (byte_len m) l sc'. run. finish.
  - again (calls_of []). finish.
Qed.

Lemma src_string_literal sc : scans "Scanner::consume_string_literal" sc (consume_string_literal sc).
Proof.
  intro K. unfold consume_string_literal. open_ sc. run. cut_ s. run. 
  assert (P : forall m, find_string_literal s = Some m -> 1 <= byte_len m).
  { intros m E. destruct s as [|c s]; [discriminate E|]. cbn [find_string_literal] in E.
    destruct (c =? 34); [|discriminate E]. destruct (find_string_body s); [|discriminate E].
    injection E as <-. cbn [byte_len]. unfold len_utf8. repeat match goal with |- context [if ?b then _ else _] => destruct b end; lia. }
  find_ find_string_literal m.
  - specialize (P m eq_refl). apply reaches_step. run_on (calls_of []). change (len_utf8 34) with 1. try_if; [|lia].
    run. cut_ body. advance (byte_len m) l sc'. run. finish.
  - apply reaches_step. failed.
Qed.

Lemma src_hex_literal sc : scans "Scanner::consume_hex_literal" sc (consume_hex_literal sc).
Proof.
  intro K. unfold consume_hex_literal. open_ sc. run. cut_ s. run. find_ find_hex_literal m.
  - apply reaches_step. run_on (calls_of []). change (len_utf8 36) with 1. cut_ digits. advance (byte_len m) l sc'.
    run. change usize_bits with 64. destruct (from_str_radix 64 16 digits) as [v|]; cbn [unwrap bind].
    + again (calls_of []). finish.
    + again (calls_of []). try_closed. finish.
  - apply reaches_step. failed.
Qed.

Lemma src_bin_literal sc : scans "Scanner::consume_bin_literal" sc (consume_bin_literal sc).
Proof.
  intro K. unfold consume_bin_literal. open_ sc. run. cut_ s. run. find_ find_bin_literal m.
  - apply reaches_step. run_on (calls_of []). change (len_utf8 36) with 1. cut_ digits. advance (byte_len m) l sc'.
    run_to (calls_of ["parse_12_bit_bin_str"]). pose proof (src_bin digits) as L. generalize dependent (parse_12_bit_bin_str digits).
    intros r L. use L. destruct r as [v|[]]; run; finish.
  - apply reaches_step. failed.
Qed.

Lemma src_decimal_literal sc : scans "Scanner::consume_decimal_literal" sc (consume_decimal_literal sc).
Proof.
  intro K. unfold consume_decimal_literal. open_ sc. run. cut_ s. run. find_ find_decimal_literal m.
  - apply reaches_step. run_on (calls_of []). cut_ digits. run.
    change usize_bits with 64. destruct (from_str_radix 64 10 digits) as [v|]; apply reaches_step.
    + run_on (calls_of ["Scanner::advance_by"]); (advance (byte_len m) l sc'); run; finish.
    + advance (byte_len m) l sc'. run. finish.
  - apply reaches_step. failed.
Qed.

Lemma src_identifier sc : scans "Scanner::consume_identifier" sc (consume_identifier sc).
Proof.
  intro K. unfold consume_identifier. open_ sc. run. cut_ s. run. find_ find_identifier m.
  - apply reaches_step. run_on (calls_of []). cut_ digits. advance (byte_len m) l sc'. run. finish.
  - apply reaches_step. failed.
Qed.

Lemma src_index_register sc : scans "Scanner::consume_index_register_indirect" sc (consume_index_register_indirect sc).
Proof.
  intro K. unfold consume_index_register_indirect. open_ sc. run. cut_ s. run_on (calls_of ["SourceFileLocation::new"]).
  all: change (byte_len (u "[i]")) with 3; cbn [orb].
  - cut_ name. advance 3 l sc'. run. finish.
  - cut_ name. advance 3 l sc'. run. finish.
  - failed.
Qed.

(** scanner.rs:340 *)
Definition to_slice : state -> bool := at_statement c8s "Scanner::consume_single_line_comment" 3.
Lemma src_comment sc : scans "Scanner::consume_single_line_comment" sc (consume_single_line_comment sc).
Proof.
  intro K. unfold consume_single_line_comment. run_to (calls_of ["Scanner::char_at"]). use (src_char_at sc 0).
  chars. destruct (char_at sc 0) as [c|w]; cbn [bind]; [|finish]. open_ sc.
  run_on (calls_of []); cbn [assert_ bind]; [|finish]. cut_ s. run.
  match goal with
  | |- reaches c8s ?s0 _ =>
      match s0 with
      | Loop ?w _ (_ :: ?e) (KBlock ?b ?j :: ?k) =>
          assert (M : exists ty, (ty = IAny \/ ty = IUsize) /\
            reaches c8s s0 (Block b (S j) (("bytes", VInt ty (comment_bytes s)) :: e) k));
          [assert (M : forall s acc, reaches c8s (Loop w (v_chars s) (("bytes", VInt IUsize acc) :: e) (KBlock b j :: k))
                                               (Block b (S j) (("bytes", VInt IUsize (acc + comment_bytes s)) :: e) k))|]
      end
  end.
  { induction s0 as [|c0 s0 IH]; intro acc.
    - rewrite v_chars_nil. cbn [comment_bytes]. rewrite N.add_0_r. one. one. apply reaches_refl.
    - rewrite v_chars_cons. cbn [comment_bytes]. change newline with 10. again to_slice.
      + rewrite N.add_0_r. apply reaches_refl.
      + rewrite N.add_assoc. apply IH. }
  { destruct s as [|c0 s].
    - exists IAny. split; [left; reflexivity|]. rewrite v_chars_nil. one. one. apply reaches_refl.
    - destruct (c0 =? 10) eqn:N.
      + exists IAny. split; [left; reflexivity|]. rewrite v_chars_cons. cbn [comment_bytes]. change newline with 10.
        rewrite N. again to_slice. apply reaches_refl.
      + exists IUsize. split; [right; reflexivity|]. rewrite v_chars_cons. cbn [comment_bytes]. change newline with 10.
        rewrite N. again to_slice. apply M. }
  destruct M as (ty & T & M). use M. clear M. generalize (comment_bytes s). intro n. destruct T; subst ty.
  all: run; cut_ text; advance n l sc'; run; finish.
Qed.

Lemma src_is_at_end sc : gives "Scanner::is_at_end" [e_scanner sc] (Done (VBool (is_at_end sc))).
Proof. intro K. open_ sc. run. finish. Qed.

Definition consumes : list string :=
  ["Scanner::consume_single_line_comment"; "Scanner::consume_directive_marker"; "Scanner::consume_label_marker"; "Scanner::consume_comma";
   "Scanner::consume_string_literal"; "Scanner::consume_hex_literal"; "Scanner::consume_bin_literal"; "Scanner::consume_index_register_indirect";
   "Scanner::consume_decimal_literal"; "Scanner::consume_identifier"; "Scanner::consume_newline"; "SourceFileLocation::new"].

Ltac after L :=
  use L;
  lazymatch goal with
  | |- context [bind ?r _] => destruct r as [[t sc2]|w]; cbn [bind]; [run|]; finish
  end.

Lemma src_next_token sc : returns "Scanner::next_token" [e_scanner sc]
  match next_token sc with
  | Done (t, sc') => Done (e_option e_token t, [e_scanner sc'])
  | Crash w => Crash w
  end.
Proof.
  intro K. unfold next_token. run_to (calls_of ["Scanner::consume_whitespace"]).
  pose proof (src_whitespace sc) as L. generalize dependent (consume_whitespace sc). intros r L. use L.
  destruct r as [sc1|]; cbn [bind]; [|finish]. clear L.
  run_to (calls_of ["Scanner::is_at_end"]). pose proof (src_is_at_end sc1) as L. generalize dependent (is_at_end sc1). intros b L. use L.
  run_on (calls_of ["Scanner::char_at"]); [finish|]. clear L.
  use (src_char_at sc1 0). destruct (char_at sc1 0) as [c|]; cbn [bind]; [|finish].
  unfold consume_token_at. chars. change newline with 10.
  change (is_digit c) with (both (48 <=? c) (c <=? 57)).
  change (is_id_start c) with (either (c =? 95) (either (both (97 <=? c) (c <=? 122)) (both (65 <=? c) (c <=? 90)))).
  run_on (calls_of consumes).
  1: after (src_comment sc1). 
  1: after (src_directive_marker sc1).
  1: after (src_label_marker sc1).
  1: after (src_comma sc1).
  1: after (src_string_literal sc1).
  1, 2: after (src_hex_literal sc1).
  1: after (src_bin_literal sc1).
  1: after (src_index_register sc1).
  1: after (src_decimal_literal sc1).
  1: after (src_identifier sc1).
  1: after (src_newline sc1).
  destruct sc1 as [f input pos line off]. unfold error_here. cbn [sc_file sc_input sc_position sc_line sc_offset]. use src_loc_new.
  lazymatch goal with |- context [loc_new ?f ?a ?b ?c] => destruct (loc_new f a b c) end;
  cbn [bind]; [|finish]; run; finish.
Qed.

(** scanner.rs:475-483 *)
Lemma src_scanner_new f s : gives "Scanner::new" [VStr f; VStr s] (Done (e_scanner (scanner_new f s))).
Proof. intro K. run. finish. Qed.

(** scanner.rs:490-492 *)
Lemma src_next sc : returns "Scanner::next" [e_scanner sc]
  match next_token sc with
  | Done (t, sc') => Done (e_option e_token t, [e_scanner sc'])
  | Crash w => Crash w
  end.
Proof.
  intro K. run_to (calls_of ["Scanner::next_token"]). use (src_next_token sc).
  destruct (next_token sc) as [[t sc1]|]; [|finish]. run. finish.
Qed.
