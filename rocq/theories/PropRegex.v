(** * PropRegex: property C63, with instances. *)

From Verif Require Import Base Text Location Token Scanner SpecLex SpecRegex BaseFacts LexProofs RegexProofs.
Open Scope string_scope.
Open Scope list_scope.
Open Scope N_scope.

(** The patterns as they stand in scanner.rs:130, 153, 179, 206, 242, 280 (a double quote
    is written twice here). *)
Definition whitespace_pattern : string := "^[^\S\n]+".

Definition written_pattern (k : kind) : option string :=
  match k with
  | KString => Some "^""(?:[^""\\]|\\.)*"""
  | KHex => Some "^[\$\#][0-9a-fA-F]{1,3}"
  | KBin => Some "^%[01\.]+"
  | KDec => Some "^[0-9]{1,}"
  | KIdentifier => Some "^[_a-zA-Z][_a-zA-Z0-9]{0,}"
  | _ => None
  end.

(** ** C63: what the patterns find. *)

(** They find the longest lexeme there is at the start of the text, and nothing if
    there is none. *)
Theorem C63_lexeme : forall k pattern, written_pattern k = Some pattern -> forall s before m,
  regex_find pattern s = Some (before, m) <-> before = [] /\ exists rest, lexeme k m rest s.
Proof.
  intros k pattern E s before m.
  assert (A : regex_find pattern s = answer (find k s)).
  { destruct k; try discriminate; cbn [written_pattern] in E; injection E as <-; cbn [find];
      [apply string_found | apply hex_found | apply binary_found | apply decimal_found | apply identifier_found]. }
  rewrite A. unfold answer. split.
  - destruct (find k s) as [m'|] eqn:F; cbn [option_map]; [|discriminate]. intros H. injection H as <- <-.
    split; [reflexivity|]. destruct (find_lexeme _ _ _ F) as (rest & _ & L). eauto.
  - intros (-> & rest & L). rewrite (lexeme_find _ _ _ _ L). reflexivity.
Qed.
Print Assumptions C63_lexeme.

(** And all the blanks there. *)
Theorem C63_blanks : forall s before m,
  regex_find whitespace_pattern s = Some (before, m) <->
  before = [] /\ m <> [] /\ forallb blank m = true /\
  exists rest, s = m ++ rest /\ match rest with c :: _ => blank c = false | [] => True end.
Proof.
  intros s before m. unfold whitespace_pattern. rewrite whitespace_found. unfold answer, find_whitespace.
  assert (E : forall s, take_while (fun c => is_whitespace c && negb (c =? newline)) s = take_while blank s).
  { clear. induction s as [|c s IH]; [reflexivity|]. cbn [take_while]. rewrite blank_spec, IH. reflexivity. }
  rewrite E. clear E.
  assert (G : forall s, forallb blank (take_while blank s) = true /\
    exists rest, s = take_while blank s ++ rest /\ match rest with c :: _ => blank c = false | [] => True end).
  { clear. induction s as [|c s [IH (rest & E & R)]]; [split; [reflexivity | exists []; auto]|]. cbn [take_while].
    destruct (blank c) eqn:B.
    - cbn [forallb app]. rewrite B, IH. split; [reflexivity|]. exists rest. rewrite <- E. auto.
    - split; [reflexivity|]. exists (c :: s). auto. }
  split.
  - destruct (take_while blank s) as [|c w] eqn:T; [discriminate|]. cbn [non_empty option_map]. intros H. injection H as <- <-.
    specialize (G s). rewrite T in G. split; [reflexivity|]. split; [discriminate | exact G].
  - intros (-> & N & F & rest & -> & R).
    assert (T : take_while blank (m ++ rest) = m).
    { clear N G. induction m as [|c m IH]; cbn [app forallb] in *.
      - destruct rest as [|c rest]; [reflexivity|]. cbn [take_while]. rewrite R. reflexivity.
      - apply andb_true_iff in F. destruct F as [F1 F2]. cbn [take_while]. rewrite F1, (IH F2). reflexivity. }
    rewrite T. destruct m; [contradiction | reflexivity].
Qed.
Print Assumptions C63_blanks.

(** The functions of the model which stand for [find] on these patterns. *)
Theorem C63_model : forall s,
  regex_find whitespace_pattern s = option_map (fun m => ([], m)) (find_whitespace s) /\
  regex_find "^""(?:[^""\\]|\\.)*""" s = option_map (fun m => ([], m)) (find_string_literal s) /\
  regex_find "^[\$\#][0-9a-fA-F]{1,3}" s = option_map (fun m => ([], m)) (find_hex_literal s) /\
  regex_find "^%[01\.]+" s = option_map (fun m => ([], m)) (find_bin_literal s) /\
  regex_find "^[0-9]{1,}" s = option_map (fun m => ([], m)) (find_decimal_literal s) /\
  regex_find "^[_a-zA-Z][_a-zA-Z0-9]{0,}" s = option_map (fun m => ([], m)) (find_identifier s).
Proof.
  intros s. split; [apply whitespace_found|]. split; [apply string_found|]. split; [apply hex_found|].
  split; [apply binary_found|]. split; [apply decimal_found | apply identifier_found].
Qed.
Print Assumptions C63_model.

(** The second quote is escaped; a fourth digit is left; nothing is found later in the text. *)
Example C63_instance :
  regex_find "^""(?:[^""\\]|\\.)*""" (u """a\""b"" c"" ") = Some ([], u """a\""b""") /\
  regex_find "^[\$\#][0-9a-fA-F]{1,3}" (u "$20Ff") = Some ([], u "$20F") /\
  regex_find "^%[01\.]+" (u "%1.02") = Some ([], u "%1.0") /\
  regex_find "^[0-9]{1,}" (u "x12") = None /\
  regex_find "^[_a-zA-Z][_a-zA-Z0-9]{0,}" (u "_a9-") = Some ([], u "_a9") /\
  regex_find whitespace_pattern ([32; 9; 13] ++ u "x") = Some ([], [32; 9; 13]).
Proof. vm_compute. repeat (split; [reflexivity|]). reflexivity. Qed.

(** The rules of the crate on other patterns: the leftmost match, and of those the
    preferred, which need not be the longest; a group may have to try again. *)
Example C63_rules :
  regex_find "a|ab" (u "xab") = Some (u "x", u "a") /\
  regex_find "(?:a|ab)c" (u "abc") = Some ([], u "abc") /\
  regex_find "[a-c]*b" (u "abcbcd") = Some ([], u "abcb") /\
  regex_find "a?b{2,3}" (u "abbbb") = Some ([], u "abbb") /\
  regex_find "^b" (u "ab") = None.
Proof. vm_compute. repeat (split; [reflexivity|]). reflexivity. Qed.
