(** * RegexProofs: the patterns of scanner.rs as written, against the scanner. *)

From Verif Require Import Base Text Location Token Scanner SpecLex SpecRegex BaseFacts LexProofs.
Open Scope N_scope.

Lemma cat_empty : forall a start s, ways (RCat a REmpty) start s = ways a start s.
Proof.
  intros a start s. cbn [ways]. induction (ways a start s) as [|[b t] l IH]; [reflexivity|].
  cbn [flat_map fst snd app]. rewrite IH. reflexivity.
Qed.

Lemma anchored_later : forall r s, search_from (RCat RStart r) false s = None.
Proof. induction s as [|c s IH]; [reflexivity|]. cbn [search_from ways flat_map]. rewrite IH. reflexivity. Qed.

Lemma anchored : forall r s, ways (RCat RStart r) true s = ways r true s.
Proof. intros r s. cbn [ways flat_map fst snd]. apply app_nil_r. Qed.

Lemma found : forall r m rest b l, ways r true (m ++ rest) = (b, rest) :: l ->
  search_from (RCat RStart r) true (m ++ rest) = Some ([], m).
Proof.
  intros r m rest b l H.
  assert (E : firstn (length (m ++ rest) - length rest) (m ++ rest) = m).
  { rewrite app_length, Nat.add_sub, firstn_app, Nat.sub_diag, firstn_all. apply app_nil_r. }
  destruct (m ++ rest) as [|c s] eqn:Es; cbn [search_from]; rewrite anchored, H, E; reflexivity.
Qed.

Lemma not_found : forall r s, ways r true s = [] -> search_from (RCat RStart r) true s = None.
Proof.
  intros r s H. destruct s as [|c s]; cbn [search_from]; rewrite anchored, H; [reflexivity|].
  rewrite anchored_later. reflexivity.
Qed.

(** ** Repeated classes *)

Lemma take_drop : forall p s, s = take_while p s ++ skipn (length (take_while p s)) s.
Proof.
  induction s as [|c s IH]; [reflexivity|]. cbn [take_while]. destruct (p c); [|reflexivity].
  cbn [length skipn app]. rewrite <- IH. reflexivity.
Qed.

Lemma star_step : forall w n b s, ways_star w (S n) b s =
  flat_map (fun x => if Nat.ltb (length (snd x)) (length s) then ways_star w n (fst x) (snd x) else []) (w b s) ++ [(b, s)].
Proof. reflexivity. Qed.

Lemma class_step : forall n i b c s, ways (RClass n i) b (c :: s) = if in_class n i c then [(false, s)] else [].
Proof. reflexivity. Qed.

Lemma shorter : forall (c : char) s, Nat.ltb (length s) (length (c :: s)) = true.
Proof. intros c s. apply Nat.ltb_lt. cbn. lia. Qed.

Lemma star_class : forall n i p, (forall c, in_class n i c = p c) -> forall s fuel b, (length s < fuel)%nat ->
  exists b' l, ways_star (ways (RClass n i)) fuel b s = (b', skipn (length (take_while p s)) s) :: l.
Proof.
  intros n i p E. induction s as [|c s IH]; intros [|fuel] b L; cbn [length] in L; try lia.
  - cbn. eauto.
  - rewrite star_step, class_step, E. cbn [take_while]. destruct (p c).
    + cbn [flat_map fst snd]. rewrite shorter. cbn [app length skipn].
      destruct (IH fuel false ltac:(lia)) as (b' & l & H). rewrite H. cbn [app]. eauto.
    + cbn. eauto.
Qed.

Lemma ways_star_class : forall n i p, (forall c, in_class n i c = p c) -> forall s b,
  exists b' l, ways (RStar (RClass n i)) b s = (b', skipn (length (take_while p s)) s) :: l.
Proof. intros n i p E s b. cbn [ways]. apply (star_class n i p E). lia. Qed.

(** One or more. *)
Lemma ways_plus_class : forall n i p, (forall c, in_class n i c = p c) -> forall s b,
  match take_while p s with
  | [] => ways (RCat (RClass n i) (RStar (RClass n i))) b s = []
  | m => exists b' l, ways (RCat (RClass n i) (RStar (RClass n i))) b s = (b', skipn (length m) s) :: l
  end.
Proof.
  intros n i p E [|c s] b; [reflexivity|]. cbn [take_while].
  change (ways (RCat ?a ?b) ?x ?y) with (flat_map (fun z => ways b (fst z) (snd z)) (ways a x y)).
  rewrite class_step, E. destruct (p c); [|reflexivity].
  cbn [flat_map fst snd length skipn]. destruct (ways_star_class n i p E s false) as (b' & l & ->).
  cbn [app]. eauto.
Qed.

(** At most [n]. *)
Lemma ways_up_to : forall neg i p, (forall c, in_class neg i c = p c) -> forall n s b,
  exists b' l, ways (up_to n (RClass neg i)) b s = (b', skipn (length (take_while_max n p s)) s) :: l.
Proof.
  intros neg i p E. induction n as [|n IH]; intros s b; [cbn; eauto|]. cbn [up_to ways take_while_max].
  destruct s as [|c s]; [cbn; eauto|]. rewrite E. destruct (p c); [|cbn; eauto].
  cbn [flat_map fst snd length skipn]. destruct (IH s false) as (b' & l & ->). cbn [app]. eauto.
Qed.

Lemma take_max_drop : forall p n s, s = take_while_max n p s ++ skipn (length (take_while_max n p s)) s.
Proof.
  intros p. induction n as [|n IH]; intros [|c s]; try reflexivity. cbn [take_while_max]. destruct (p c); [|reflexivity].
  cbn [length skipn app]. rewrite <- IH. reflexivity.
Qed.

(** ** The six patterns *)

Ltac class_eq := intros; apply eq_true_iff_eq; unfold in_class, in_item, existsb;
  unfold is_hex_digit, is_id_char, is_id_start, is_alpha, is_digit, is_bin_digit, newline;
  repeat match goal with |- context [c_ ?x] => let v := eval vm_compute in (c_ x) in change (c_ x) with v end;
  rewrite ?xorb_true_l, ?xorb_false_l, ?orb_false_r; lia.

Definition answer (m : option str) : option (str * str) := option_map (fun m => ([], m)) m.

Lemma class_not_found : forall n i r c s, in_class n i c = false -> ways (RCat (RClass n i) r) true (c :: s) = [].
Proof. intros n i r c s H. cbn [ways]. rewrite H. reflexivity. Qed.

Lemma class_found : forall n i r c s, in_class n i c = true -> ways (RCat (RClass n i) r) true (c :: s) = ways r false s.
Proof. intros n i r c s H. cbn [ways]. rewrite H. cbn [flat_map fst snd]. apply app_nil_r. Qed.

Lemma blank_class : forall c, in_class true [NotSpace; Range 10 10] c = blank c.
Proof.
  intros c. unfold in_class, in_item, existsb. destruct (N.eqb_spec c LF) as [->|N]; [reflexivity|].
  replace ((10 <=? c) && (c <=? 10)) with false by (unfold LF in N; lia).
  destruct (blank c); reflexivity.
Qed.

Lemma whitespace_found : forall s, regex_find "^[^\S\n]+" s = answer (find_whitespace s).
Proof.
  intros s. unfold regex_find. match goal with |- context [read_regex ?x] => let r := eval vm_compute in (read_regex x) in change (read_regex x) with r end.
  cbn beta iota. unfold find_whitespace. set (p := fun c => is_whitespace c && negb (c =? newline)).
  pose proof (ways_plus_class true [NotSpace; Range 10 10] p) as W.
  specialize (W (fun c => eq_trans (blank_class c) (eq_sym (blank_spec c)))).
  specialize (W s true). destruct (take_while p s) as [|d m] eqn:T.
  - rewrite not_found; [reflexivity|]. rewrite cat_empty. exact W.
  - destruct W as (b & l & W). pose proof (take_drop p s) as D. rewrite T in D. rewrite D in W at 1 |- * at 1.
    rewrite (found _ _ _ b l); [reflexivity|]. rewrite cat_empty. rewrite W. reflexivity.
Qed.

Lemma decimal_found : forall s, regex_find "^[0-9]{1,}" s = answer (find_decimal_literal s).
Proof.
  intros s. unfold regex_find. match goal with |- context [read_regex ?x] => let r := eval vm_compute in (read_regex x) in change (read_regex x) with r end.
  cbn beta iota. unfold find_decimal_literal.
  pose proof (ways_plus_class false [Range 48 57] is_digit ltac:(class_eq) s true) as W.
  destruct (take_while is_digit s) as [|d m] eqn:T.
  - rewrite not_found; [reflexivity|]. rewrite cat_empty. exact W.
  - destruct W as (b & l & W). pose proof (take_drop is_digit s) as D. rewrite T in D. rewrite D in W at 1 |- * at 1.
    rewrite (found _ _ _ b l); [reflexivity|]. rewrite cat_empty. rewrite W. reflexivity.
Qed.

Lemma binary_found : forall s, regex_find "^%[01\.]+" s = answer (find_bin_literal s).
Proof.
  intros s. unfold regex_find. match goal with |- context [read_regex ?x] => let r := eval vm_compute in (read_regex x) in change (read_regex x) with r end.
  cbn beta iota. unfold find_bin_literal. destruct s as [|c s]; [reflexivity|].
  assert (E : in_class false [Range 37 37] c = (c =? c_ "%")) by class_eq.
  destruct (c =? c_ "%").
  2: { rewrite not_found; [reflexivity | apply class_not_found; exact E]. }
  pose proof (ways_plus_class false [Range 48 48; Range 49 49; Range 46 46] is_bin_digit ltac:(class_eq) s false) as W.
  destruct (take_while is_bin_digit s) as [|d m] eqn:T.
  - rewrite not_found; [reflexivity|]. rewrite (class_found _ _ _ _ _ E), cat_empty. exact W.
  - destruct W as (b & l & W). pose proof (take_drop is_bin_digit s) as D. rewrite T in D.
    set (rest := skipn (length (d :: m)) s) in *. replace (c :: s) with ((c :: d :: m) ++ rest) by (rewrite D; reflexivity).
    rewrite (found _ _ _ b l); [reflexivity|].
    cbn [app]. rewrite (class_found _ _ _ _ _ E), cat_empty. change (d :: m ++ rest) with ((d :: m) ++ rest). rewrite <- D. exact W.
Qed.

Lemma hex_found : forall s, regex_find "^[\$\#][0-9a-fA-F]{1,3}" s = answer (find_hex_literal s).
Proof.
  intros s. unfold regex_find. match goal with |- context [read_regex ?x] => let r := eval vm_compute in (read_regex x) in change (read_regex x) with r end.
  cbn beta iota. unfold find_hex_literal. destruct s as [|c s]; [reflexivity|].
  assert (E : in_class false [Range 36 36; Range 35 35] c = ((c =? c_ "$") || (c =? c_ "#"))) by class_eq.
  destruct ((c =? c_ "$") || (c =? c_ "#")).
  2: { rewrite not_found; [reflexivity | apply class_not_found; exact E]. }
  set (i := [Range 48 57; Range 97 102; Range 65 70]).
  assert (Ei : forall c, in_class false i c = is_hex_digit c) by (unfold i; class_eq).
  change (RAlt (RCat (RClass false i) (RAlt (RCat (RClass false i) REmpty) REmpty)) REmpty) with (up_to 2 (RClass false i)).
  destruct s as [|d s].
  - rewrite not_found; [reflexivity|]. rewrite (class_found _ _ _ _ _ E). reflexivity.
  - cbn [take_while_max]. destruct (is_hex_digit d) eqn:Hd.
    + destruct (ways_up_to false i is_hex_digit Ei 2 s false) as (b & l & W).
      pose proof (take_max_drop is_hex_digit 2 s) as D. cbn [take_while_max] in W, D.
      set (m := match s with [] => [] | c0 :: r => _ end) in *.
      set (rest := skipn (length m) s) in *.
      replace (c :: d :: s) with ((c :: d :: m) ++ rest) by (cbn [app]; rewrite <- D; reflexivity).
      rewrite (found _ _ _ b l); [reflexivity|].
      cbn [app]. rewrite <- D, (class_found _ _ _ _ _ E), cat_empty.
      cbn [ways]. rewrite Ei, Hd. cbn [flat_map fst snd]. rewrite W. rewrite app_nil_r. reflexivity.
    + rewrite not_found; [reflexivity|]. rewrite (class_found _ _ _ _ _ E), cat_empty. cbn [ways]. rewrite Ei, Hd. reflexivity.
Qed.

Lemma identifier_found : forall s, regex_find "^[_a-zA-Z][_a-zA-Z0-9]{0,}" s = answer (find_identifier s).
Proof.
  intros s. unfold regex_find. match goal with |- context [read_regex ?x] => let r := eval vm_compute in (read_regex x) in change (read_regex x) with r end.
  cbn beta iota. unfold find_identifier. destruct s as [|c s]; [reflexivity|].
  assert (E : in_class false [Range 95 95; Range 97 122; Range 65 90] c = is_id_start c) by class_eq.
  destruct (is_id_start c).
  2: { rewrite not_found; [reflexivity | apply class_not_found; exact E]. }
  destruct (ways_star_class false [Range 95 95; Range 97 122; Range 65 90; Range 48 57] is_id_char ltac:(class_eq) s false) as (b & l & W).
  pose proof (take_drop is_id_char s) as D. set (rest := skipn _ s) in *.
  replace (c :: s) with ((c :: take_while is_id_char s) ++ rest) by (cbn [app]; rewrite <- D; reflexivity).
  rewrite (found _ _ _ b l); [reflexivity|]. cbn [app]. rewrite <- D, (class_found _ _ _ _ _ E), cat_empty. exact W.
Qed.

(** ** Strings *)

Definition string_part : regex :=
  RAlt (RCat (RClass true [Range 34 34; Range 92 92]) REmpty)
       (RCat (RClass false [Range 92 92]) (RCat (RClass true [Range 10 10]) REmpty)).
Definition closing : regex := RCat (RClass false [Range 34 34]) REmpty.

Lemma part_ways : forall b c s, ways string_part b (c :: s) =
  if c =? 34 then []
  else if c =? 92 then match s with d :: r => if d =? newline then [] else [(false, r)] | [] => [] end
  else [(false, s)].
Proof.
  intros b c s. unfold string_part. cbn [ways].
  assert (E1 : in_class true [Range 34 34; Range 92 92] c = negb ((c =? 34) || (c =? 92))) by class_eq.
  assert (E2 : in_class false [Range 92 92] c = (c =? 92)) by class_eq.
  rewrite E1, E2. destruct (N.eqb_spec c 34) as [->|N1]; [reflexivity|].
  destruct (N.eqb_spec c 92) as [->|N2]; cbn [orb negb flat_map fst snd app]; [|reflexivity].
  destruct s as [|d s]; [reflexivity|].
  assert (E3 : in_class true [Range 10 10] d = negb (d =? newline)) by class_eq.
  rewrite E3. destruct (d =? newline); reflexivity.
Qed.

Lemma closing_ways : forall b c s, ways closing b (c :: s) = if c =? 34 then [(false, s)] else [].
Proof.
  intros b c s. unfold closing. rewrite cat_empty, class_step.
  assert (E : in_class false [Range 34 34] c = (c =? 34)) by class_eq. rewrite E. reflexivity.
Qed.

Lemma body_ways : forall n s, (length s <= n)%nat -> forall fuel b, (length s < fuel)%nat ->
  match find_string_body s with
  | Some m => exists rest b' l, s = m ++ rest /\
      flat_map (fun x => ways closing (fst x) (snd x)) (ways_star (ways string_part) fuel b s) = (b', rest) :: l
  | None => flat_map (fun x => ways closing (fst x) (snd x)) (ways_star (ways string_part) fuel b s) = []
  end.
Proof.
  induction n as [|n IH]; intros [|c s] L [|fuel] b F; cbn [length] in L, F; try lia; try reflexivity.
  rewrite star_step, part_ways, flat_map_app. cbn [flat_map fst snd]. rewrite closing_ways, app_nil_r. cbn [find_string_body].
  destruct (c =? 34).
  - exists s, false, []. split; reflexivity.
  - rewrite app_nil_r. destruct (c =? 92).
    + destruct s as [|d s]; [reflexivity|]. destruct (d =? newline); [reflexivity|].
      cbn [flat_map fst snd]. cbn [length] in L, F.
      replace (Nat.ltb (length s) (length (c :: d :: s))) with true by (symmetry; apply Nat.ltb_lt; cbn; lia).
      rewrite app_nil_r. specialize (IH s ltac:(lia) fuel false ltac:(lia)).
      destruct (find_string_body s) as [m|]; [|exact IH]. destruct IH as (rest & b' & l & -> & H).
      exists rest, b', l. split; [reflexivity | exact H].
    + cbn [flat_map fst snd]. rewrite shorter, app_nil_r. specialize (IH s ltac:(lia) fuel false ltac:(lia)).
      destruct (find_string_body s) as [m|]; [|exact IH]. destruct IH as (rest & b' & l & -> & H).
      exists rest, b', l. split; [reflexivity | exact H].
Qed.

Lemma string_found : forall s, regex_find "^""(?:[^""\\]|\\.)*""" s = answer (find_string_literal s).
Proof.
  intros s. unfold regex_find. match goal with |- context [read_regex ?x] => let r := eval vm_compute in (read_regex x) in change (read_regex x) with r end.
  cbn beta iota. unfold find_string_literal. destruct s as [|c s]; [reflexivity|].
  fold string_part. fold closing.
  assert (E : in_class false [Range 34 34] c = (c =? 34)) by class_eq.
  destruct (c =? 34).
  2: { rewrite not_found; [reflexivity | apply class_not_found; exact E]. }
  pose proof (body_ways (length s) s (le_n _) (S (length s)) false ltac:(lia)) as W.
  destruct (find_string_body s) as [m|].
  - destruct W as (rest & b & l & -> & W). replace (c :: m ++ rest) with ((c :: m) ++ rest) by reflexivity.
    rewrite (found _ _ _ b l); [reflexivity|]. cbn [app]. rewrite (class_found _ _ _ _ _ E). exact W.
  - rewrite not_found; [reflexivity|]. rewrite (class_found _ _ _ _ _ E). exact W.
Qed.
