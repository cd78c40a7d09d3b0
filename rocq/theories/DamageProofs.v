(** * DamageProofs: a reader of HEX files notices one wrong character. *)

From Verif Require Import Base BaseFacts SpecLayout SpecHex SpecDamage.
Open Scope N_scope.

(** ** Lines *)

Definition unbroken (l : str) : Prop := ~ In 10 l.

Lemma lines_join : forall s l, unbroken l ->
  lines (l ++ s) = match l, lines s with
                   | [], r => r
                   | _, None => None
                   | _, Some [] => None
                   | _, Some (x :: ls) => Some ((l ++ x) :: ls)
                   end.
Proof.
  intros s. induction l as [|c l IH]; intros N; [reflexivity|].
  cbn [app lines]. rewrite IH by (intros I; apply N; right; exact I).
  assert (C : (c =? 10) = false) by (apply N.eqb_neq; intros ->; apply N; left; reflexivity).
  destruct l as [|d l].
  - cbn [app]. destruct (lines s) as [[|x ls]|]; rewrite ?C; reflexivity.
  - destruct (lines s) as [[|x ls]|]; rewrite ?C; reflexivity.
Qed.

Lemma lines_line : forall l s, unbroken l -> lines (l ++ 10 :: s) = option_map (cons l) (lines s).
Proof.
  intros l s N. rewrite lines_join by exact N. cbn [lines]. change (10 =? 10) with true. cbn match.
  destruct (lines s) as [ls|]; destruct l as [|c l]; cbn [option_map]; rewrite ?app_nil_r; reflexivity.
Qed.

Lemma lines_lines : forall ls s, Forall unbroken ls -> lines (end_lines ls ++ s) = option_map (app ls) (lines s).
Proof.
  induction ls as [|l ls IH]; intros s F.
  - cbn [end_lines flat_map app]. destruct (lines s); reflexivity.
  - inversion F as [|x y Fl Fs]; subst. cbn [end_lines flat_map]. change (flat_map _ ls) with (end_lines ls).
    rewrite <- !app_assoc. cbn [app]. rewrite lines_line by exact Fl. rewrite IH by exact Fs. destruct (lines s); reflexivity.
Qed.

Lemma lines_inv : forall s ls, lines s = Some ls -> s = end_lines ls /\ Forall unbroken ls.
Proof.
  induction s as [|c s IH]; intros ls H; cbn [lines] in H.
  - injection H as <-. split; [reflexivity | constructor].
  - destruct (lines s) as [ls'|]; [|discriminate H]. destruct (IH ls' eq_refl) as (-> & F). destruct (c =? 10) eqn:C.
    + injection H as <-. apply N.eqb_eq in C. subst c. split; [reflexivity|]. constructor; [intros [] | exact F].
    + destruct ls' as [|l ls']; [discriminate H|]. injection H as <-. inversion F as [|x y Fl Fs]; subst.
      split; [reflexivity|]. constructor; [|exact Fs]. intros [->|I]; [discriminate C | exact (Fl I)].
Qed.

Lemma lines_end_lines : forall ls, Forall unbroken ls -> lines (end_lines ls) = Some ls.
Proof. intros ls F. rewrite <- (app_nil_r (end_lines ls)), lines_lines by exact F. cbn. rewrite app_nil_r. reflexivity. Qed.

(** ** Records *)

Lemma pairs_even : forall n s bytes, (length s <= n)%nat -> digit_pairs s = Some bytes -> length s = (2 * length bytes)%nat.
Proof.
  induction n as [|n IH]; intros s bytes Le H.
  - destruct s; [|cbn in Le; lia]. injection H as <-. reflexivity.
  - destruct s as [|h [|l s]]; cbn [digit_pairs] in H; [injection H as <-; reflexivity | discriminate H |].
    destruct (digit_value h); [|discriminate H]. destruct (digit_value l); [|discriminate H].
    destruct (digit_pairs s) as [r|] eqn:E; [|discriminate H]. injection H as <-. cbn [length] in *.
    rewrite (IH s r) by (lia || exact E). lia.
Qed.

Lemma pairs_digits : forall n s bytes, (length s <= n)%nat -> digit_pairs s = Some bytes ->
  forall c, In c s -> digit_value c <> None.
Proof.
  induction n as [|n IH]; intros s bytes Le H c I.
  - destruct s; [contradiction I | cbn in Le; lia].
  - destruct s as [|h [|l s]]; cbn [digit_pairs] in H; [contradiction I | discriminate H |].
    destruct (digit_value h) eqn:Eh; [|discriminate H]. destruct (digit_value l) eqn:El; [|discriminate H].
    destruct (digit_pairs s) as [r|] eqn:E; [|discriminate H]. cbn [length] in Le.
    destruct I as [<-|[<-|I]]; [congruence | congruence | exact (IH s r ltac:(lia) E c I)].
Qed.

Lemma digit_small : forall c v, digit_value c = Some v -> v < 16.
Proof.
  unfold digit_value. intros c v H.
  destruct ((48 <=? c) && (c <=? 57)) eqn:A; [injection H as <-; lia|].
  destruct ((65 <=? c) && (c <=? 70)) eqn:B; [injection H as <-; lia|].
  destruct ((97 <=? c) && (c <=? 102)) eqn:D; [injection H as <-; lia | discriminate H].
Qed.

Lemma pairs_changed : forall n a c c' b bytes, (length a <= n)%nat -> digit_pairs (a ++ c :: b) = Some bytes ->
  match digit_pairs (a ++ c' :: b) with
  | None => True
  | Some bytes' => bytes' = bytes \/
      exists p v v' q, bytes = p ++ v :: q /\ bytes' = p ++ v' :: q /\ v <> v' /\ v < 256 /\ v' < 256
  end.
Proof.
  induction n as [|n IH]; intros a c c' b bytes Le H.
  - destruct a; [|cbn in Le; lia]. cbn [app] in *. destruct b as [|l b]; [discriminate H|]. cbn [digit_pairs] in *.
    destruct (digit_value c) as [v|] eqn:Ec; [|discriminate H]. destruct (digit_value l) as [w|] eqn:El; [|discriminate H].
    destruct (digit_pairs b) as [r|]; [|discriminate H]. injection H as <-.
    destruct (digit_value c') as [v'|] eqn:Ec'; [|exact I]. apply digit_small in Ec, Ec', El.
    destruct (N.eq_dec v v') as [->|Nv]; [left; reflexivity|]. right. exists [], (16 * v + w), (16 * v' + w), r.
    split; [reflexivity|]. split; [reflexivity|]. lia.
  - destruct a as [|h [|l a]].
    + apply (IH [] c c' b bytes); [cbn; lia | exact H].
    + cbn [app digit_pairs] in *. destruct (digit_value h) as [w|] eqn:Eh; [|discriminate H].
      destruct (digit_value c) as [v|] eqn:Ec; [|discriminate H]. destruct (digit_pairs b) as [r|]; [|discriminate H].
      injection H as <-. destruct (digit_value c') as [v'|] eqn:Ec'; [|exact I]. apply digit_small in Ec, Ec', Eh.
      destruct (N.eq_dec v v') as [->|Nv]; [left; reflexivity|]. right. exists [], (16 * w + v), (16 * w + v'), r.
      split; [reflexivity|]. split; [reflexivity|]. lia.
    + cbn [app digit_pairs] in *. destruct (digit_value h) as [w|]; [|discriminate H].
      destruct (digit_value l) as [x|]; [|discriminate H].
      destruct (digit_pairs (a ++ c :: b)) as [r|] eqn:E; [|discriminate H]. injection H as <-.
      pose proof (IH a c c' b r ltac:(cbn in Le; lia) E) as X.
      destruct (digit_pairs (a ++ c' :: b)) as [r'|]; [|exact I].
      destruct X as [->|(p & v & v' & q & -> & -> & X)]; [left; reflexivity|].
      right. exists (16 * w + x :: p), v, v', q. split; [reflexivity|]. split; [reflexivity | exact X].
Qed.

Lemma sum_app : forall a b, sum (a ++ b) = sum a + sum b.
Proof. induction a as [|x a IH]; intros b; cbn [sum app]; [reflexivity|]. rewrite IH. lia. Qed.

Lemma read_record_inv : forall line r, read_record line = Some r ->
  exists ds bytes, line = 58 :: ds /\ digit_pairs ds = Some bytes /\ sum bytes mod 256 = 0 /\ ds <> [].
Proof.
  intros [|c ds] r H; [discriminate H|]. cbn [read_record] in H. destruct (c =? 58) eqn:C; [|discriminate H].
  apply N.eqb_eq in C. subst c.
  destruct (digit_pairs ds) as [[|count [|high [|low [|kind rest]]]]|] eqn:D; try discriminate H.
  destruct (_ && _) eqn:E in H; [|discriminate H]. apply andb_true_iff in E. destruct E as [_ E]. apply N.eqb_eq in E.
  exists ds, (count :: high :: low :: kind :: rest). split; [reflexivity|]. split; [exact D|]. split; [exact E|].
  intros ->. discriminate D.
Qed.

Lemma read_record_bytes : forall ds ds' bytes, digit_pairs ds = Some bytes -> digit_pairs ds' = Some bytes ->
  read_record (58 :: ds) = read_record (58 :: ds').
Proof. intros ds ds' bytes D D'. cbn [read_record]. rewrite D, D'. reflexivity. Qed.

(** A line all of digits is no record, nor is one with a colon within. *)
Lemma read_record_no_colon : forall l, (forall c r, l = c :: r -> digit_value c <> None) -> read_record l = None.
Proof.
  intros [|c r] H; [reflexivity|]. cbn [read_record]. destruct (c =? 58) eqn:E; [|reflexivity].
  apply N.eqb_eq in E. subst c. exfalso. apply (H 58 r eq_refl). reflexivity.
Qed.

Lemma read_record_colon_inside : forall c r, In 58 r -> read_record (c :: r) = None.
Proof.
  intros c r I. destruct (read_record (c :: r)) eqn:E; [|reflexivity]. exfalso.
  apply read_record_inv in E. destruct E as (ds & bytes & E & D & _). injection E as -> ->.
  exact (pairs_digits _ _ _ (le_n _) D 58 I eq_refl).
Qed.

(** A record with a wrong character, which is not a line feed. *)
Lemma record_wrong : forall line line' r, read_record line = Some r -> one_wrong line line' ->
  read_record line' = None \/ read_record line' = Some r.
Proof.
  intros line line' r R W. destruct (read_record_inv _ _ R) as (ds & bytes & -> & D & Su & Nd).
  pose proof (pairs_even _ _ _ (le_n _) D) as Ev.
  assert (First : forall c r', ds = c :: r' -> digit_value c <> None).
  { intros c r' E. apply (pairs_digits _ _ _ (le_n _) D). rewrite E. left. reflexivity. }
  assert (Odd : forall ds', (length ds' = S (length ds) \/ S (length ds') = length ds) -> read_record (58 :: ds') = None).
  { intros ds' O. destruct (read_record (58 :: ds')) eqn:E; [|reflexivity]. exfalso.
    apply read_record_inv in E. destruct E as (ds2 & b2 & E & D2 & _). injection E as <-.
    pose proof (pairs_even _ _ _ (le_n _) D2). lia. }
  remember (58 :: ds) as line eqn:El. destruct W as [a c c' b N | a c b | a c b].
  - destruct a as [|h a]; cbn [app] in *; injection El as -> <-.
    + left. cbn [read_record]. destruct (c' =? 58) eqn:E; [|reflexivity]. apply N.eqb_eq in E. congruence.
    + pose proof (pairs_changed _ a c c' b bytes (le_n _) D) as X.
      destruct (digit_pairs (a ++ c' :: b)) as [bytes'|] eqn:D'.
      * destruct X as [->|(p & v & v' & q & -> & -> & Nv & Sv & Sv')].
        { right. rewrite <- R. exact (read_record_bytes _ _ _ D' D). }
        left. destruct (read_record (58 :: a ++ c' :: b)) eqn:E; [|reflexivity]. exfalso.
        apply read_record_inv in E. destruct E as (ds2 & b2 & E & D2 & Su2 & _). injection E as <-. rewrite D' in D2. injection D2 as <-.
        rewrite sum_app in *. cbn [sum] in *. clear - Su Su2 Nv Sv Sv'.
        apply N.mod_divides in Su; [|discriminate]. apply N.mod_divides in Su2; [|discriminate].
        destruct Su as (k & Su), Su2 as (k2 & Su2). lia.
      * left. cbn [read_record]. rewrite D'. reflexivity.
  - left. destruct a as [|h a]; cbn [app] in *; injection El as -> <-.
    + apply read_record_no_colon. exact First.
    + apply Odd. rewrite !app_length. cbn [length]. lia.
  - left. destruct a as [|h a]; cbn [app] in *.
    + subst b. apply read_record_colon_inside. left. reflexivity.
    + injection El as -> <-. apply Odd. rewrite !app_length. cbn [length]. lia.
Qed.

(** ** Files *)

Lemma records_prefix : forall ls1 l ls2 m, read_records (ls1 ++ l :: ls2) = Some m ->
  exists m1, forall ls, read_records (ls1 ++ ls) = option_map (app m1) (read_records ls).
Proof.
  induction ls1 as [|l1 ls1 IH]; intros l ls2 m H.
  - exists []. intros ls. cbn [app]. destruct (read_records ls); reflexivity.
  - cbn [app read_records] in *. destruct (read_record l1) as [[a data|]|]; [|destruct ls1; discriminate H | discriminate H].
    destruct (read_records (ls1 ++ l :: ls2)) as [m'|] eqn:E; [|discriminate H].
    destruct (IH _ _ _ E) as (m1 & X). exists (place a data ++ m1). intros ls. rewrite X.
    destruct (read_records ls); cbn [option_map]; [rewrite app_assoc|]; reflexivity.
Qed.

Lemma records_first : forall l ls m, read_records (l :: ls) = Some m -> exists r, read_record l = Some r.
Proof. intros l ls m H. cbn [read_records] in H. destruct (read_record l) as [r|]; [exists r; reflexivity | discriminate H]. Qed.

Lemma records_bad : forall l ls, read_record l = None -> read_records (l :: ls) = None.
Proof. intros l ls H. cbn [read_records]. rewrite H. reflexivity. Qed.

Lemma records_second_bad : forall l l2 ls, read_record l2 = None -> read_records (l :: l2 :: ls) = None.
Proof. intros l l2 ls H. cbn [read_records]. rewrite H. destruct (read_record l) as [[]|]; reflexivity. Qed.

Lemma records_end : forall ls m, read_records ls = Some m -> forall l ls', read_records (ls ++ l :: ls') = None.
Proof.
  induction ls as [|x ls IH]; intros m H l ls'; [discriminate H|]. cbn [app read_records] in *.
  destruct (read_record x) as [[a data|]|]; [|destruct ls; [reflexivity | discriminate H] | reflexivity].
  destruct (read_records ls) as [m'|]; [|discriminate H]. rewrite (IH _ eq_refl l ls'). reflexivity.
Qed.

(** No file is the beginning of another. *)
Theorem read_hex_prefix : forall p q m m', q <> [] -> read_hex p = Some m -> read_hex (p ++ q) = Some m' -> False.
Proof.
  intros p q m m' Nq H H'. unfold read_hex in *. destruct (lines p) as [ls|] eqn:L; [|discriminate H].
  apply lines_inv in L. destruct L as (-> & F). rewrite lines_lines in H' by exact F.
  destruct (lines q) as [[|l lq]|] eqn:Lq; [|cbn [option_map] in H'|discriminate H'].
  - apply lines_inv in Lq. destruct Lq as (-> & _). apply Nq. reflexivity.
  - rewrite (records_end _ _ H) in H'. discriminate H'.
Qed.

(** Where a place in a text is among its lines. *)
Lemma place_in_lines : forall ls a s, Forall unbroken ls -> end_lines ls = a ++ s -> s <> [] ->
  exists ls1 l ls2 x y, ls = ls1 ++ l :: ls2 /\ a = end_lines ls1 ++ x /\ l ++ [10] = x ++ y /\ s = y ++ end_lines ls2 /\ y <> [].
Proof.
  induction ls as [|l ls IH]; intros a s F E Ns.
  - cbn in E. destruct a; [|discriminate E]. cbn in E. subst s. contradiction.
  - inversion F as [|u v Fl Fs]; subst. cbn [end_lines flat_map] in E. change (flat_map _ ls) with (end_lines ls) in E.
    apply app_eq_app in E. destruct E as (z & [(E1 & E2)|(E1 & E2)]).
    + destruct z as [|c z].
      * cbn [app] in E2. rewrite app_nil_r in E1. subst a. destruct (IH [] s Fs ltac:(cbn; congruence) Ns)
          as (ls1 & l2 & ls2 & x & y & -> & A & B & -> & Ny).
        exists (l :: ls1), l2, ls2, x, y. split; [reflexivity|]. split.
        { cbn [end_lines flat_map]. change (flat_map _ ls1) with (end_lines ls1). rewrite <- app_assoc, <- A, app_nil_r. reflexivity. }
        split; [exact B|]. split; [reflexivity | exact Ny].
      * exists [], l, ls, a, (c :: z). split; [reflexivity|]. split; [reflexivity|]. split; [exact E1|].
        split; [exact E2 | discriminate].
    + subst a. destruct (IH z s Fs E2 Ns) as (ls1 & l2 & ls2 & x & y & -> & A & B & -> & Ny).
      exists (l :: ls1), l2, ls2, x, y. split; [reflexivity|]. split.
      { cbn [end_lines flat_map]. change (flat_map _ ls1) with (end_lines ls1). rewrite <- !app_assoc, A. reflexivity. }
      split; [exact B|]. split; [reflexivity | exact Ny].
Qed.

(** The rest of a file from some line on, read after [ls1]. *)
Lemma read_after : forall ls1 m1 s, Forall unbroken ls1 ->
  (forall ls, read_records (ls1 ++ ls) = option_map (app m1) (read_records ls)) ->
  read_hex (end_lines ls1 ++ s) = option_map (app m1) (read_hex s).
Proof.
  intros ls1 m1 s F H. unfold read_hex. rewrite lines_lines by exact F. destruct (lines s) as [ls|]; [|reflexivity].
  cbn [option_map]. apply H.
Qed.

Lemma read_line : forall l ls, unbroken l -> Forall unbroken ls -> read_hex (l ++ 10 :: end_lines ls) = read_records (l :: ls).
Proof. intros l ls Fl Fs. unfold read_hex. rewrite lines_line by exact Fl. rewrite lines_end_lines by exact Fs. reflexivity. Qed.

(** A line joined with what follows is no record. *)
Lemma read_joined : forall l ls y, (exists r, read_record l = Some r) -> unbroken l -> unbroken y -> Forall unbroken ls ->
  (forall l2 ls2, ls = l2 :: ls2 -> exists r, read_record l2 = Some r) -> read_hex (l ++ y ++ end_lines ls) = None.
Proof.
  intros l ls y (r & R) Ul Uy F Rs. unfold read_hex. rewrite app_assoc.
  assert (U : unbroken (l ++ y)) by (intros I; apply in_app_or in I; destruct I; [exact (Ul H) | exact (Uy H)]).
  rewrite lines_join by exact U. apply read_record_inv in R. destruct R as (ds & b & -> & _).
  cbn [app]. rewrite lines_end_lines by exact F. destruct ls as [|l2 ls]; [reflexivity|].
  destruct (Rs l2 ls eq_refl) as (r2 & R2). apply read_record_inv in R2. destruct R2 as (ds2 & b2 & -> & _).
  apply records_bad. apply (read_record_colon_inside 58). apply in_or_app. right. left. reflexivity.
Qed.

Lemma records_head : forall l ls m, read_records (l :: ls) = Some m -> forall l2 ls2, ls = l2 :: ls2 -> exists r, read_record l2 = Some r.
Proof.
  intros l ls m H l2 ls2 ->. cbn [read_records] in H. destruct (read_record l) as [[a data|]|]; try discriminate H.
  destruct (read_record l2) as [r|]; [exists r; reflexivity | discriminate H].
Qed.

(** The first line of a file, or its end, has a wrong character. *)
Lemma first_line_wrong : forall l ls m x y y', read_records (l :: ls) = Some m -> unbroken l -> Forall unbroken ls ->
  l ++ [10] = x ++ y -> y <> [] ->
  (y' = tl y \/ exists c, y' = c :: y \/ y' = c :: tl y) ->
  read_hex (x ++ y' ++ end_lines ls) = None \/ read_hex (x ++ y' ++ end_lines ls) = Some m.
Proof.
  intros l ls m x y y' H Ul F E Ny Form.
  destruct (records_first _ _ _ H) as (r & R).
  destruct (read_record_inv _ _ R) as (ds & bytes & El & D & _ & Nd).
  destruct y as [|c0 y]; [congruence|]. cbn [tl] in Form.
  destruct (list_eq_dec N.eq_dec y []) as [->|Ny'].
  - (* at the line feed *)
    apply app_inj_tail in E. destruct E as [<- <-].
    destruct Form as [->|(c & [-> | ->])].
    + (* lost *) left. exact (read_joined l ls [] (ex_intro _ r R) Ul (fun z => z) F (records_head _ _ _ H)).
    + (* added before it *)
      destruct (N.eq_dec c 10) as [->|Nc].
      * left. cbn [app]. unfold read_hex. rewrite lines_line by exact Ul. change (10 :: end_lines ls) with ([] ++ 10 :: end_lines ls).
        rewrite lines_line by (intros []). rewrite lines_end_lines by exact F. cbn [option_map].
        apply records_second_bad. reflexivity.
      * cbn [app]. replace (l ++ c :: 10 :: end_lines ls) with ((l ++ [c]) ++ 10 :: end_lines ls) by (rewrite <- app_assoc; reflexivity).
        assert (U : unbroken (l ++ [c])) by (intros I; apply in_app_or in I; destruct I as [I|[I|[]]]; [exact (Ul I) | congruence]).
        rewrite read_line by assumption.
        destruct (record_wrong l (l ++ [c]) r R) as [B|B].
        { pose proof (wrong_added l c []) as X. rewrite app_nil_r in X. exact X. }
        -- left. apply records_bad. exact B.
        -- right. rewrite <- H. cbn [read_records]. rewrite B, R. reflexivity.
    + (* changed *)
      destruct (N.eq_dec c 10) as [->|Nc]; [right; rewrite <- H; exact (read_line l ls Ul F)|].
      left. refine (read_joined l ls [c] (ex_intro _ r R) Ul _ F (records_head _ _ _ H)). intros [I|[]]. congruence.
  - (* within the line *)
    destruct (exists_last Ny') as (y2 & cl & Ey). rewrite Ey in E. change (c0 :: y2 ++ [cl]) with ((c0 :: y2) ++ [cl]) in E. rewrite app_assoc in E.
    apply app_inj_tail in E. destruct E as [E <-]. subst y.
    assert (Line : forall z, unbroken z -> one_wrong l (x ++ z) ->
      read_hex (x ++ (z ++ [10]) ++ end_lines ls) = None \/ read_hex (x ++ (z ++ [10]) ++ end_lines ls) = Some m).
    { intros z Uz Wz. rewrite <- app_assoc. cbn [app]. rewrite app_assoc.
      assert (U : unbroken (x ++ z)).
      { intros I. apply in_app_or in I. destruct I as [I|I]; [|exact (Uz I)]. apply Ul. rewrite E. apply in_or_app. left. exact I. }
      rewrite read_line by assumption.
      destruct (record_wrong l (x ++ z) r R Wz) as [B|B];
        [left; apply records_bad; exact B | right; rewrite <- H; cbn [read_records]; rewrite B, R; reflexivity]. }
    assert (Uy : unbroken (c0 :: y2)) by (intros I; apply Ul; rewrite E; apply in_or_app; right; exact I).
    assert (Uy2 : unbroken y2) by (intros I; apply Uy; right; exact I).
    assert (Ux : unbroken x) by (intros I; apply Ul; rewrite E; apply in_or_app; left; exact I).
    assert (Broken : forall z, (x = [] \/ z = y2 \/ (x <> [] /\ z = c0 :: y2)) -> (z = y2 \/ z = c0 :: y2) ->
      read_hex (x ++ (10 :: z ++ [10]) ++ end_lines ls) = None).
    { intros z Zx Zz. assert (Uz : unbroken z) by (destruct Zz as [-> | ->]; assumption).
      cbn [app]. rewrite <- app_assoc. cbn [app]. unfold read_hex. rewrite lines_line by exact Ux. rewrite lines_line by exact Uz.
      rewrite lines_end_lines by exact F. cbn [option_map].
      destruct x as [|c1 x].
      - apply records_bad. reflexivity.
      - apply records_second_bad. apply read_record_no_colon. intros c r' Ez.
        rewrite El in E. cbn [app] in E. injection E as <- E.
        apply (pairs_digits _ _ _ (le_n _) D). rewrite E. apply in_or_app. right.
        destruct Zz as [-> | ->]; [right; rewrite Ez; left; reflexivity | rewrite Ez; left; reflexivity]. }
    destruct Form as [->|(c & [-> | ->])].
    + apply Line; [exact Uy2|]. rewrite E. apply wrong_lost.
    + destruct (N.eq_dec c 10) as [->|Nc].
      * left. apply (Broken (c0 :: y2)); [|right; reflexivity]. destruct x; [left; reflexivity | right; right; split; [discriminate | reflexivity]].
      * apply (Line (c :: c0 :: y2)); [intros [I|I]; [congruence | exact (Uy I)]|]. rewrite E. apply wrong_added.
    + destruct (N.eq_dec c 10) as [->|Nc].
      * left. apply (Broken y2); [right; left; reflexivity | left; reflexivity].
      * destruct (N.eq_dec c0 c) as [->|Nc0].
        { right. rewrite <- H. change ((c :: y2 ++ [10]) ++ end_lines ls) with (((c :: y2) ++ [10]) ++ end_lines ls).
          rewrite <- app_assoc, app_assoc, <- E. cbn [app]. apply read_line; assumption. }
        apply (Line (c :: y2)); [intros [I|I]; [congruence | exact (Uy2 I)]|]. rewrite E. apply wrong_changed. exact Nc0.
Qed.

Theorem read_hex_wrong : forall t t' m, read_hex t = Some m -> one_wrong t t' -> read_hex t' = None \/ read_hex t' = Some m.
Proof.
  intros t t' m H W. pose proof H as H0. unfold read_hex in H0. destruct (lines t) as [ls|] eqn:L; [|discriminate H0].
  apply lines_inv in L. destruct L as (E & F).
  assert (Main : forall a s s', t = a ++ s -> t' = a ++ s' -> s <> [] ->
    (s' = tl s \/ exists c, s' = c :: s \/ s' = c :: tl s) -> read_hex t' = None \/ read_hex t' = Some m).
  { intros a s s' Et Et' Ns Form. rewrite E in Et.
    destruct (place_in_lines ls a s F Et Ns) as (ls1 & l & ls2 & x & y & El & Ea & Exy & Es & Ny).
    subst ls. destruct (records_prefix _ _ _ _ H0) as (m1 & X). rewrite X in H0.
    destruct (read_records (l :: ls2)) as [m2|] eqn:R2; [|discriminate H0]. cbn [option_map] in H0. injection H0 as <-.
    apply Forall_app in F. destruct F as [F1 F2]. inversion F2 as [|u v Fl Fs]; subst u v.
    destruct y as [|c0 y]; [congruence|]. cbn [app] in Es.
    assert (Y : exists y', s' = y' ++ end_lines ls2 /\ (y' = y \/ exists c, y' = c :: c0 :: y \/ y' = c :: y)).
    { subst s. cbn [tl] in Form. destruct Form as [->|(c & [-> | ->])].
      - exists y. auto.
      - exists (c :: c0 :: y). split; [reflexivity|]. right. exists c. auto.
      - exists (c :: y). split; [reflexivity|]. right. exists c. auto. }
    destruct Y as (y' & -> & Fy). rewrite Et', Ea, <- app_assoc. rewrite (read_after ls1 m1 _ F1 X).
    destruct (first_line_wrong l ls2 m2 x (c0 :: y) y' R2 Fl Fs Exy ltac:(discriminate) Fy) as [-> | ->]; [left | right]; reflexivity. }
  destruct W as [a c c' b N | a c b | a c b].
  - apply (Main a (c :: b) (c' :: b)); [reflexivity | reflexivity | discriminate | right; exists c'; right; reflexivity].
  - apply (Main a (c :: b) b); [reflexivity | reflexivity | discriminate | left; reflexivity].
  - destruct b as [|d b].
    + left. destruct (read_hex (a ++ [c])) as [m'|] eqn:R; [|reflexivity]. exfalso. rewrite app_nil_r in H.
      exact (read_hex_prefix a [c] m m' ltac:(discriminate) H R).
    + apply (Main a (d :: b) (c :: d :: b)); [reflexivity | reflexivity | discriminate | right; exists c; left; reflexivity].
Qed.
