(** * ArgsProofs: the command line is read as [SpecArgs.v] says. *)

From Verif Require Import Base Text Main Getopts SpecArgs BaseFacts.
Open Scope N_scope.

Definition out_opt : opt := mk_opt (c_ "o") (u "output") true.
Definition help_opt : opt := mk_opt (c_ "h") (u "help") false.
Definition version_opt : opt := mk_opt (c_ "v") (u "version") false.

Definition gift (g : given) : opt * option str :=
  match g with
  | GHelp => (help_opt, None)
  | GVersion => (version_opt, None)
  | GOutput v => (out_opt, Some v)
  end.

Lemma dash_eq : forall c, (c =? c_ "-") = true <-> c = c_ "-".
Proof. intros c. apply N.eqb_eq. Qed.

Lemma ordinary_arg : forall w, ordinary w <-> is_arg w = false.
Proof.
  intros w. unfold ordinary. split.
  - intros [->|H]; [reflexivity|]. destruct w as [|c [|d w]]; try reflexivity. cbn [is_arg].
    apply N.eqb_neq. intros ->. eapply H. reflexivity.
  - intros H. destruct w as [|c [|d w]].
    + right. discriminate.
    + destruct (N.eq_dec c (c_ "-")) as [->|N]; [left; reflexivity|]. right. intros r E. congruence.
    + right. intros r E. cbn [is_arg] in H. apply N.eqb_neq in H. congruence.
Qed.

Lemma find_short : forall c o, find_opt c8s_options (ShortName c) = Some o <->
  (c = c_ "o" /\ o = out_opt) \/ (c = c_ "h" /\ o = help_opt) \/ (c = c_ "v" /\ o = version_opt).
Proof.
  intros c o. unfold c8s_options. cbn [find_opt has_name o_short].
  destruct (c =? c_ "o") eqn:E1; [apply N.eqb_eq in E1; subst c|].
  { split; [intros H; injection H as <-; auto|]. intros [[_ ->]|[[H _]|[H _]]]; [reflexivity | discriminate | discriminate]. }
  destruct (c =? c_ "h") eqn:E2; [apply N.eqb_eq in E2; subst c|].
  { split; [intros H; injection H as <-; auto|]. intros [[H _]|[[_ ->]|[H _]]]; [discriminate | reflexivity | discriminate]. }
  destruct (c =? c_ "v") eqn:E3; [apply N.eqb_eq in E3; subst c|].
  { split; [intros H; injection H as <-; auto|]. intros [[H _]|[[H _]|[_ ->]]]; [discriminate | discriminate | reflexivity]. }
  apply N.eqb_neq in E1, E2, E3. split; [discriminate|]. intros [[H _]|[[H _]|[H _]]]; congruence.
Qed.

Lemma find_named : forall s o, find_opt c8s_options (LongName s) = Some o <->
  (s = u "output" /\ o = out_opt) \/ (s = u "help" /\ o = help_opt) \/ (s = u "version" /\ o = version_opt).
Proof.
  intros s o. unfold c8s_options. cbn [find_opt has_name o_long].
  destruct (str_eqb s (u "output")) eqn:E1; [apply str_eqb_eq in E1; subst s|].
  { split; [intros H; injection H as <-; auto|]. intros [[_ ->]|[[H _]|[H _]]]; [reflexivity | discriminate | discriminate]. }
  destruct (str_eqb s (u "help")) eqn:E2; [apply str_eqb_eq in E2; subst s|].
  { split; [intros H; injection H as <-; auto|]. intros [[H _]|[[_ ->]|[H _]]]; [discriminate | reflexivity | discriminate]. }
  destruct (str_eqb s (u "version")) eqn:E3; [apply str_eqb_eq in E3; subst s|].
  { split; [intros H; injection H as <-; auto|]. intros [[H _]|[[H _]|[_ ->]]]; [discriminate | discriminate | reflexivity]. }
  apply str_eqb_neq in E1, E2, E3. split; [discriminate|]. intros [[H _]|[[H _]|[H _]]]; congruence.
Qed.

Lemma find_long : forall r s o, find_opt c8s_options (long_name r s) = Some o <->
  (named (r_dashed_letter r) (u "output") (u "o") s /\ o = out_opt) \/
  (named (r_dashed_letter r) (u "help") (u "h") s /\ o = help_opt) \/
  (named (r_dashed_letter r) (u "version") (u "v") s /\ o = version_opt).
Proof.
  intros r s o. unfold named.
  assert (G : (forall c, s <> [c]) -> (find_opt c8s_options (LongName s) = Some o <->
    ((s = u "output" \/ (r_dashed_letter r = true /\ s = u "o")) /\ o = out_opt) \/
    ((s = u "help" \/ (r_dashed_letter r = true /\ s = u "h")) /\ o = help_opt) \/
    ((s = u "version" \/ (r_dashed_letter r = true /\ s = u "v")) /\ o = version_opt))).
  { intros N. rewrite find_named. split.
    - intros [[-> ->]|[[-> ->]|[-> ->]]]; auto 6.
    - intros [[[->|[_ ->]] ->]|[[[->|[_ ->]] ->]|[[->|[_ ->]] ->]]]; auto;
        exfalso; eapply N; reflexivity. }
  destruct s as [|c [|d s]]; [apply G; discriminate | | apply G; discriminate]. clear G. cbn [long_name].
  destruct (r_dashed_letter r); cbn [andb].
  - destruct (c <? 128) eqn:E.
    + rewrite find_short. split.
      * intros [[-> ->]|[[-> ->]|[-> ->]]]; [left | right; left | right; right]; (split; [right; split; reflexivity | reflexivity]).
      * intros [[[H|[_ H]] ->]|[[[H|[_ H]] ->]|[[H|[_ H]] ->]]]; try discriminate; injection H as ->; auto.
    + rewrite find_named. split.
      * intros [[H _]|[[H _]|[H _]]]; discriminate.
      * intros [[[H|[_ H]] ->]|[[[H|[_ H]] ->]|[[H|[_ H]] ->]]]; try discriminate; injection H as ->; discriminate.
  - rewrite find_named. split.
    + intros [[H _]|[[H _]|[H _]]]; discriminate.
    + intros [[[H|[H _]] ->]|[[[H|[H _]] ->]|[[H|[H _]] ->]]]; discriminate.
Qed.

(** ** One word *)

Lemma flags_letters : forall s gs, flags s gs -> forall c, In c s -> c = c_ "h" \/ c = c_ "v".
Proof. induction 1 as [|s g _ IH|s g _ IH]; intros c I; [destruct I | |]; (destruct I as [<-|I]; [auto | apply IH; exact I]). Qed.

Lemma cluster_flags : forall s gs, flags s gs -> forall t, t <> [] ->
  cluster c8s_options (s ++ t) =
  match cluster c8s_options t with Ok (names, a) => Ok (map ShortName s ++ names, a) | Err e => Err e end.
Proof.
  induction 1 as [|s g _ IH|s g _ IH]; intros t T.
  - cbn [app map]. destruct (cluster c8s_options t) as [[names a]|e]; reflexivity.
  - cbn [app cluster map]. change (find_opt c8s_options (ShortName (c_ "h"))) with (Some help_opt). cbn beta iota.
    destruct (s ++ t) as [|x y] eqn:E; [apply app_eq_nil in E; destruct E; contradiction|].
    cbn [o_argument help_opt]. rewrite <- E, IH by exact T. destruct (cluster c8s_options t) as [[names a]|e]; reflexivity.
  - cbn [app cluster map]. change (find_opt c8s_options (ShortName (c_ "v"))) with (Some version_opt). cbn beta iota.
    destruct (s ++ t) as [|x y] eqn:E; [apply app_eq_nil in E; destruct E; contradiction|].
    cbn [o_argument version_opt]. rewrite <- E, IH by exact T. destruct (cluster c8s_options t) as [[names a]|e]; reflexivity.
Qed.

Lemma cluster_only : forall s gs, flags s gs -> s <> [] -> cluster c8s_options s = Ok (map ShortName s, None).
Proof.
  induction 1 as [|s g F IH|s g F IH]; intros N; [contradiction| |].
  - cbn [cluster map]. change (find_opt c8s_options (ShortName (c_ "h"))) with (Some help_opt). cbn beta iota.
    destruct s as [|x y]; [reflexivity|]. cbn [o_argument help_opt]. rewrite IH by discriminate. reflexivity.
  - cbn [cluster map]. change (find_opt c8s_options (ShortName (c_ "v"))) with (Some version_opt). cbn beta iota.
    destruct s as [|x y]; [reflexivity|]. cbn [o_argument version_opt]. rewrite IH by discriminate. reflexivity.
Qed.

Lemma cluster_output : forall v, cluster c8s_options (c_ "o" :: v) =
  Ok ([ShortName (c_ "o")], match v with [] => None | _ => Some v end).
Proof.
  intros v. cbn [cluster]. change (find_opt c8s_options (ShortName (c_ "o"))) with (Some out_opt). cbn beta iota.
  destruct v; reflexivity.
Qed.

Lemma cluster_inv : forall s names a, s <> [] -> cluster c8s_options s = Ok (names, a) ->
  (exists gs, flags s gs /\ names = map ShortName s /\ a = None) \/
  (exists t gs v, flags t gs /\ s = t ++ c_ "o" :: v /\ names = map ShortName t ++ [ShortName (c_ "o")] /\
     a = match v with [] => None | _ => Some v end).
Proof.
  induction s as [|c s IH]; intros names a N H; [contradiction|]. cbn [cluster] in H.
  destruct (find_opt c8s_options (ShortName c)) as [o|] eqn:F; [|discriminate].
  apply find_short in F. destruct F as [[-> ->]|F].
  - right. exists [], [], s. split; [constructor|]. split; [reflexivity|].
    destruct s; cbn [o_argument out_opt] in H; injection H as <- <-; split; reflexivity.
  - assert (A : o_argument o = false) by (destruct F as [[_ ->]|[_ ->]]; reflexivity).
    assert (Fl : forall t gs, flags t gs -> exists gs', flags (c :: t) gs').
    { intros t gs Ft. destruct F as [[-> _]|[-> _]]; eexists; constructor; exact Ft. }
    destruct s as [|d s].
    + left. injection H as <- <-. destruct (Fl [] [] flags_none) as (gs & G). exists gs. auto.
    + rewrite A in H. destruct (cluster c8s_options (d :: s)) as [[names' a']|e] eqn:C; [|discriminate].
      injection H as <- <-. destruct (IH names' a' ltac:(discriminate) eq_refl) as [(gs & G & -> & ->)|(t & gs & v & G & E & -> & ->)].
      * left. destruct (Fl _ _ G) as (gs' & G'). exists gs'. auto.
      * right. destruct (Fl _ _ G) as (gs' & G'). exists (c :: t), gs', v. rewrite E. auto.
Qed.

Lemma store_flags : forall r a rest more s gs, flags s gs -> (more <> [] \/ a = None) -> forall vals,
  store r c8s_options a (map ShortName s ++ more) rest vals = store r c8s_options a more rest (vals ++ map gift gs).
Proof.
  intros r a rest more s gs F C. induction F as [|s g F IH|s g F IH]; intros vals.
  - cbn [map app]. rewrite app_nil_r. reflexivity.
  - cbn [map app store]. change (find_opt c8s_options (ShortName (c_ "h"))) with (Some help_opt). cbn beta iota. cbn [o_argument help_opt].
    replace (match map ShortName s ++ more with | [] => match a with Some _ => Err (UnexpectedArgument (ShortName (c_ "h"))) | None => _ end | _ :: _ => _ end)
      with (store r c8s_options a (map ShortName s ++ more) rest (vals ++ [(help_opt, None)])).
    + rewrite IH. rewrite <- app_assoc. reflexivity.
    + destruct (map ShortName s ++ more) eqn:E; [|reflexivity]. destruct C as [C| ->]; [|reflexivity].
      apply app_eq_nil in E. destruct E. contradiction.
  - cbn [map app store]. change (find_opt c8s_options (ShortName (c_ "v"))) with (Some version_opt). cbn beta iota. cbn [o_argument version_opt].
    replace (match map ShortName s ++ more with | [] => match a with Some _ => Err (UnexpectedArgument (ShortName (c_ "v"))) | None => _ end | _ :: _ => _ end)
      with (store r c8s_options a (map ShortName s ++ more) rest (vals ++ [(version_opt, None)])).
    + rewrite IH. rewrite <- app_assoc. reflexivity.
    + destruct (map ShortName s ++ more) eqn:E; [|reflexivity]. destruct C as [C| ->]; [|reflexivity].
      apply app_eq_nil in E. destruct E. contradiction.
Qed.

Lemma split_spec : forall s a b, split_equals s = (a, b) ->
  existsb (N.eqb (c_ "=")) a = false /\ s = a ++ match b with None => [] | Some v => c_ "=" :: v end.
Proof.
  induction s as [|c s IH]; intros a b H; cbn [split_equals] in H; [injection H as <- <-; auto|].
  destruct (c =? c_ "=") eqn:E.
  - injection H as <- <-. apply N.eqb_eq in E. subst c. auto.
  - destruct (split_equals s) as [a' b'] eqn:S. injection H as <- <-. destruct (IH a' b' eq_refl) as [I ->].
    cbn [existsb app]. rewrite N.eqb_sym, E, I. auto.
Qed.

Lemma split_plain : forall s, existsb (N.eqb (c_ "=")) s = false -> split_equals s = (s, None).
Proof.
  induction s as [|c s IH]; intros H; [reflexivity|]. cbn [existsb split_equals] in *. rewrite N.eqb_sym in H.
  apply orb_false_iff in H. destruct H as [-> H]. rewrite IH by exact H. reflexivity.
Qed.
Lemma split_value : forall s v, existsb (N.eqb (c_ "=")) s = false -> split_equals (s ++ c_ "=" :: v) = (s, Some v).
Proof.
  induction s as [|c s IH]; intros v H; cbn [app split_equals]; [rewrite N.eqb_refl; reflexivity|].
  cbn [existsb] in H. rewrite N.eqb_sym in H. apply orb_false_iff in H. destruct H as [-> H]. rewrite IH by exact H. reflexivity.
Qed.
Lemma named_plain : forall l long short s, named l long short s ->
  existsb (N.eqb (c_ "=")) long = false -> existsb (N.eqb (c_ "=")) short = false -> existsb (N.eqb (c_ "=")) s = false.
Proof. intros l long short s [->|[_ ->]]; auto. Qed.

(** The options in one word: what is given, and the words left. *)
Definition word_names (r : rules) (word : str) : result failure (list name * option str) :=
  match word with
  | _ :: d :: tail =>
      if d =? c_ "-" then
        let '(s, a) := split_equals tail in Ok ([long_name r s], a)
      else cluster c8s_options (d :: tail)
  | _ => Ok ([], None)
  end.

Lemma words_step : forall r n word rest vals free,
  words r c8s_options (S n) (word :: rest) vals free =
  if negb (is_arg word) then words r c8s_options n rest vals (free ++ [word])
  else if str_eqb word (u "--") then Done (Ok (vals, free ++ rest))
  else match word_names r word with
       | Err e => Done (Err e)
       | Ok (names, a) =>
           match store r c8s_options a names rest vals with
           | Err e => Done (Err e)
           | Ok (rest, vals) => words r c8s_options n rest vals free
           end
       end.
Proof. reflexivity. Qed.

Lemma store_out : forall r a n rest vals, find_opt c8s_options n = Some out_opt ->
  store r c8s_options a [n] rest vals =
  match a with
  | Some v => Ok (rest, vals ++ [(out_opt, Some v)])
  | None => match rest with
            | v :: rest' => if is_arg v && negb (r_dashed_value r) then Err (ArgumentMissing n)
                            else Ok (rest', vals ++ [(out_opt, Some v)])
            | [] => Err (ArgumentMissing n)
            end
  end.
Proof. intros r a n rest vals F. cbn [store]. rewrite F. reflexivity. Qed.

Lemma store_flag : forall r a n rest vals o, find_opt c8s_options n = Some o -> o_argument o = false ->
  store r c8s_options a [n] rest vals =
  match a with Some _ => Err (UnexpectedArgument n) | None => Ok (rest, vals ++ [(o, None)]) end.
Proof. intros r a n rest vals o F A. cbn [store]. rewrite F, A. destruct a; reflexivity. Qed.

Section Rules.
Variable r : rules.
Let dashed := r_dashed_value r.
Let letter := r_dashed_letter r.

Lemma argument_arg : forall v, argument dashed v <-> is_arg v && negb (r_dashed_value r) = false.
Proof.
  intros v. unfold argument. rewrite ordinary_arg. subst dashed. destruct (r_dashed_value r), (is_arg v); cbn [andb negb].
  all: split; auto. intros [H|H]; discriminate.
Qed.

(** Completeness *)
Lemma command_words : forall args g f, command dashed letter args g f -> forall fuel vals free,
  (length args < fuel)%nat ->
  words r c8s_options fuel args vals free = Done (Ok (vals ++ map gift g, free ++ f)).
Proof.
  intros args g f H.
  induction H as [|ws|w ws g f O _ IH|s gs ws g f Ns F _ IH|s gs v ws g f Nv F _ IH|s gs v ws g f A F _ IH
                  |s ws g f N _ IH|s ws g f N _ IH|s v ws g f N _ IH|s v ws g f N A _ IH];
    intros fuel vals free L; (destruct fuel as [|n]; [lia|]); cbn [length] in L.
  - cbn [words map]. rewrite !app_nil_r. reflexivity.
  - rewrite words_step. cbn [map]. rewrite app_nil_r. reflexivity.
  - rewrite words_step. apply ordinary_arg in O. rewrite O. cbn [negb]. rewrite IH by lia. rewrite <- app_assoc. reflexivity.
  - rewrite words_step. destruct s as [|d s]; [contradiction|].
    assert (D : (d =? c_ "-") = false) by (destruct (flags_letters _ _ F d (or_introl eq_refl)) as [-> | ->]; reflexivity).
    change (is_arg (c_ "-" :: d :: s)) with true. cbn [negb].
    change (str_eqb (c_ "-" :: d :: s) (u "--")) with ((d =? c_ "-") && str_eqb s []). rewrite D. cbn [andb].
    cbn [word_names]. rewrite D, (cluster_only _ _ F) by discriminate.
    rewrite <- (app_nil_r (map ShortName (d :: s))), (store_flags r None ws [] _ _ F) by auto. cbn [store].
    rewrite IH by lia. rewrite map_app, app_assoc. reflexivity.
  - rewrite words_step.
    assert (D : exists d tl, s ++ c_ "o" :: v = d :: tl /\ (d =? c_ "-") = false).
    { destruct s as [|d s]; [exists (c_ "o"), v; split; reflexivity|]. exists d, (s ++ c_ "o" :: v). split; [reflexivity|].
      destruct (flags_letters _ _ F d (or_introl eq_refl)) as [-> | ->]; reflexivity. }
    destruct D as (d & tl & E & D). rewrite E.
    change (is_arg (c_ "-" :: d :: tl)) with true. cbn [negb].
    change (str_eqb (c_ "-" :: d :: tl) (u "--")) with ((d =? c_ "-") && str_eqb tl []). rewrite D. cbn [andb].
    cbn [word_names]. rewrite D, <- E, (cluster_flags _ _ F) by discriminate. rewrite cluster_output.
    destruct v as [|x v]; [contradiction|].
    rewrite (store_flags r _ ws _ _ _ F) by (left; discriminate). rewrite store_out by reflexivity.
    rewrite IH by lia. rewrite map_app. cbn [map gift]. rewrite <- !app_assoc. reflexivity.
  - rewrite words_step. change (u "o") with (c_ "o" :: []) in *.
    assert (D : exists d tl, s ++ [c_ "o"] = d :: tl /\ (d =? c_ "-") = false).
    { destruct s as [|d s]; [exists (c_ "o"), []; split; reflexivity|]. exists d, (s ++ [c_ "o"]). split; [reflexivity|].
      destruct (flags_letters _ _ F d (or_introl eq_refl)) as [-> | ->]; reflexivity. }
    destruct D as (d & tl & E & D). rewrite E.
    change (is_arg (c_ "-" :: d :: tl)) with true. cbn [negb].
    change (str_eqb (c_ "-" :: d :: tl) (u "--")) with ((d =? c_ "-") && str_eqb tl []). rewrite D. cbn [andb].
    cbn [word_names]. rewrite D, <- E, (cluster_flags _ _ F) by discriminate. rewrite cluster_output.
    rewrite (store_flags r _ _ _ _ _ F) by (left; discriminate). rewrite store_out by reflexivity.
    apply argument_arg in A. rewrite A.
    rewrite IH by lia. rewrite map_app. cbn [map gift]. rewrite <- !app_assoc. reflexivity.
  - rewrite words_step. assert (Fo : find_opt c8s_options (long_name r s) = Some help_opt) by (apply find_long; auto).
    assert (P : existsb (N.eqb (c_ "=")) s = false) by (eapply named_plain; [exact N | reflexivity | reflexivity]).
    assert (Ns : s <> []) by (destruct N as [->|[_ ->]]; discriminate).
    change (u "--" ++ s) with (c_ "-" :: c_ "-" :: s).
    change (is_arg (c_ "-" :: c_ "-" :: s)) with true. cbn [negb].
    change (str_eqb (c_ "-" :: c_ "-" :: s) (u "--")) with (str_eqb s []). destruct s as [|x s]; [contradiction|]. cbn [str_eqb].
    cbn [word_names]. change (c_ "-" =? c_ "-") with true. cbn iota. rewrite (split_plain _ P).
    rewrite (store_flag _ _ _ _ _ _ Fo) by reflexivity. rewrite IH by lia. cbn [map gift]. rewrite <- app_assoc. reflexivity.
  - rewrite words_step. assert (Fo : find_opt c8s_options (long_name r s) = Some version_opt) by (apply find_long; auto).
    assert (P : existsb (N.eqb (c_ "=")) s = false) by (eapply named_plain; [exact N | reflexivity | reflexivity]).
    assert (Ns : s <> []) by (destruct N as [->|[_ ->]]; discriminate).
    change (u "--" ++ s) with (c_ "-" :: c_ "-" :: s).
    change (is_arg (c_ "-" :: c_ "-" :: s)) with true. cbn [negb].
    change (str_eqb (c_ "-" :: c_ "-" :: s) (u "--")) with (str_eqb s []). destruct s as [|x s]; [contradiction|]. cbn [str_eqb].
    cbn [word_names]. change (c_ "-" =? c_ "-") with true. cbn iota. rewrite (split_plain _ P).
    rewrite (store_flag _ _ _ _ _ _ Fo) by reflexivity. rewrite IH by lia. cbn [map gift]. rewrite <- app_assoc. reflexivity.
  - rewrite words_step. assert (Fo : find_opt c8s_options (long_name r s) = Some out_opt) by (apply find_long; auto).
    assert (P : existsb (N.eqb (c_ "=")) s = false) by (eapply named_plain; [exact N | reflexivity | reflexivity]).
    change (u "--" ++ s ++ c_ "=" :: v) with (c_ "-" :: c_ "-" :: s ++ c_ "=" :: v).
    change (is_arg (c_ "-" :: c_ "-" :: s ++ c_ "=" :: v)) with true. cbn [negb].
    change (str_eqb (c_ "-" :: c_ "-" :: s ++ c_ "=" :: v) (u "--")) with (str_eqb (s ++ c_ "=" :: v) []).
    replace (str_eqb (s ++ c_ "=" :: v) []) with false by (destruct s; reflexivity).
    cbn [word_names]. change (c_ "-" =? c_ "-") with true. cbn iota. rewrite (split_value _ _ P).
    rewrite store_out by exact Fo. rewrite IH by lia. cbn [map gift]. rewrite <- app_assoc. reflexivity.
  - rewrite words_step. assert (Fo : find_opt c8s_options (long_name r s) = Some out_opt) by (apply find_long; auto).
    assert (P : existsb (N.eqb (c_ "=")) s = false) by (eapply named_plain; [exact N | reflexivity | reflexivity]).
    assert (Ns : s <> []) by (destruct N as [->|[_ ->]]; discriminate).
    change (u "--" ++ s) with (c_ "-" :: c_ "-" :: s).
    change (is_arg (c_ "-" :: c_ "-" :: s)) with true. cbn [negb].
    change (str_eqb (c_ "-" :: c_ "-" :: s) (u "--")) with (str_eqb s []). destruct s as [|x s]; [contradiction|]. cbn [str_eqb].
    cbn [word_names]. change (c_ "-" =? c_ "-") with true. cbn iota. rewrite (split_plain _ P).
    rewrite store_out by exact Fo. apply argument_arg in A. rewrite A.
    rewrite IH by lia. cbn [map gift]. rewrite <- app_assoc. reflexivity.
Qed.

(** Soundness *)
Lemma words_command : forall fuel args vals free vals' free', (length args < fuel)%nat ->
  words r c8s_options fuel args vals free = Done (Ok (vals', free')) ->
  exists g f, command dashed letter args g f /\ vals' = vals ++ map gift g /\ free' = free ++ f.
Proof.
  induction fuel as [|n IH]; intros args vals free vals' free' L H; [lia|].
  destruct args as [|word rest].
  { cbn [words] in H. injection H as <- <-. exists [], []. split; [constructor|]. cbn [map]. rewrite !app_nil_r. auto. }
  cbn [length] in L. rewrite words_step in H.
  destruct (is_arg word) eqn:Ia; cbn [negb] in H.
  2:{ apply IH in H; [|lia]; destruct H as (g & f & C & -> & ->). exists g, (word :: f).
      split; [apply c_free; [apply ordinary_arg; exact Ia | exact C]|]. rewrite <- app_assoc. auto. }
  destruct (str_eqb word (u "--")) eqn:Ed.
  { apply str_eqb_eq in Ed. subst word. injection H as <- <-. exists [], rest. split; [constructor|]. cbn [map]. rewrite app_nil_r. auto. }
  destruct word as [|d0 [|d tail]]; [discriminate | discriminate |].
  cbn [is_arg] in Ia. apply N.eqb_eq in Ia. subst d0. cbn [word_names] in H.
  destruct (d =? c_ "-") eqn:Dd.
  - apply N.eqb_eq in Dd. subst d. destruct (split_equals tail) as [s a] eqn:S. destruct (split_spec _ _ _ S) as [_ Et].
    destruct (find_opt c8s_options (long_name r s)) as [o|] eqn:F; [|cbn [store] in H; rewrite F in H; discriminate].
    pose proof F as F'. apply find_long in F'. destruct F' as [[N ->]|F'].
    + rewrite store_out in H by exact F. destruct a as [v|].
      * apply IH in H; [|lia]; destruct H as (g & f & C & -> & ->). exists (GOutput v :: g), f.
        rewrite Et. split; [exact (c_long _ _ s v rest g f N C)|]. cbn [map gift]. rewrite <- app_assoc. auto.
      * destruct rest as [|v rest]; [discriminate|]. destruct (is_arg v && negb (r_dashed_value r)) eqn:A; [discriminate|].
        cbn [length] in L. apply IH in H; [|lia]; destruct H as (g & f & C & -> & ->). exists (GOutput v :: g), f.
        rewrite app_nil_r in Et. rewrite Et. apply argument_arg in A.
        split; [exact (c_long_next _ _ s v rest g f N A C)|]. cbn [map gift]. rewrite <- app_assoc. auto.
    + assert (Ao : o_argument o = false) by (destruct F' as [[_ ->]|[_ ->]]; reflexivity).
      rewrite (store_flag _ _ _ _ _ _ F Ao) in H. destruct a as [v|]; [discriminate|].
      apply IH in H; [|lia]; destruct H as (g & f & C & -> & ->). rewrite app_nil_r in Et. rewrite Et.
      destruct F' as [[N ->]|[N ->]].
      * exists (GHelp :: g), f. split; [exact (c_help _ _ s rest g f N C)|]. cbn [map gift]. rewrite <- app_assoc. auto.
      * exists (GVersion :: g), f. split; [exact (c_version _ _ s rest g f N C)|]. cbn [map gift]. rewrite <- app_assoc. auto.
  - destruct (cluster c8s_options (d :: tail)) as [[names a]|e] eqn:C; [|discriminate].
    destruct (cluster_inv (d :: tail) _ _ ltac:(discriminate) C) as [(gs & F & -> & ->)|(t & gs & v & F & E & -> & ->)].
    + rewrite <- (app_nil_r (map ShortName (d :: tail))), (store_flags r None rest [] _ _ F) in H by auto. cbn [store] in H.
      apply IH in H; [|lia]; destruct H as (g & f & Cm & -> & ->). exists (gs ++ g), f.
      split; [apply c_flags; [discriminate | exact F | exact Cm]|]. rewrite map_app, app_assoc. auto.
    + rewrite (store_flags r _ rest _ _ _ F) in H by (left; discriminate). rewrite store_out in H by reflexivity.
      destruct v as [|x v].
      * destruct rest as [|v rest]; [discriminate|]. destruct (is_arg v && negb (r_dashed_value r)) eqn:A; [discriminate|].
        cbn [length] in L. apply IH in H; [|lia]; destruct H as (g & f & Cm & -> & ->). exists (gs ++ GOutput v :: g), f.
        apply argument_arg in A. rewrite E. split; [exact (c_next _ _ t gs v rest g f A F Cm)|].
        rewrite map_app. cbn [map gift]. rewrite <- !app_assoc. auto.
      * apply IH in H; [|lia]; destruct H as (g & f & Cm & -> & ->). exists (gs ++ GOutput (x :: v) :: g), f.
        rewrite E. split; [apply (c_attached _ _ t gs (x :: v) rest g f); [discriminate | exact F | exact Cm]|].
        rewrite map_app. cbn [map gift]. rewrite <- !app_assoc. auto.
Qed.

(** Words are consumed, so the fuel is enough. *)
Lemma store_shorter : forall a names rest vals rest' vals',
  store r c8s_options a names rest vals = Ok (rest', vals') -> (length rest' <= length rest)%nat.
Proof.
  intros a. induction names as [|n names IH]; intros rest vals rest' vals' H; cbn [store] in H; [injection H as <- <-; lia|].
  destruct (find_opt c8s_options n) as [o|]; [|discriminate]. destruct (o_argument o).
  - destruct a as [v|]; [exact (IH _ _ _ _ H)|]. destruct names as [|n' names]; [|discriminate].
    destruct rest as [|v rest]; [discriminate|]. destruct (is_arg v && negb (r_dashed_value r)); [discriminate|].
    apply IH in H. cbn [length]. lia.
  - destruct names as [|n' names]; [destruct a; [discriminate|]|]; exact (IH _ _ _ _ H).
Qed.

Lemma words_done : forall fuel args vals free, (length args < fuel)%nat ->
  exists x, words r c8s_options fuel args vals free = Done x.
Proof.
  induction fuel as [|n IH]; intros args vals free L; [lia|].
  destruct args as [|word rest]; [eexists; reflexivity|]. cbn [length] in L. rewrite words_step.
  destruct (negb (is_arg word)); [apply IH; lia|]. destruct (str_eqb word (u "--")); [eexists; reflexivity|].
  destruct (word_names r word) as [[names a]|e]; [|eexists; reflexivity].
  destruct (store r c8s_options a names rest vals) as [[rest' vals']|e] eqn:S; [|eexists; reflexivity].
  apply IH. apply store_shorter in S. lia.
Qed.

(** ** What main.rs sees *)

Lemma vals_help : forall g, length (vals_of help_opt (map gift g)) = helps g.
Proof.
  induction g as [|x g IH]; [reflexivity|]. unfold vals_of, helps in *. cbn [map filter].
  destruct x; cbn [gift fst]; [change (same_opt help_opt help_opt) with true | change (same_opt help_opt version_opt) with false | change (same_opt help_opt out_opt) with false];
    cbn iota; cbn [length]; rewrite IH; reflexivity.
Qed.
Lemma vals_version : forall g, length (vals_of version_opt (map gift g)) = versions g.
Proof.
  induction g as [|x g IH]; [reflexivity|]. unfold vals_of, versions in *. cbn [map filter].
  destruct x; cbn [gift fst]; [change (same_opt version_opt help_opt) with false | change (same_opt version_opt version_opt) with true | change (same_opt version_opt out_opt) with false];
    cbn iota; cbn [length]; rewrite IH; reflexivity.
Qed.
Lemma vals_output : forall g, vals_of out_opt (map gift g) = map (fun v => (out_opt, Some v)) (outputs g).
Proof.
  induction g as [|x g IH]; [reflexivity|]. unfold vals_of, outputs in *. cbn [map filter flat_map].
  destruct x; cbn [gift fst]; [change (same_opt out_opt help_opt) with false | change (same_opt out_opt version_opt) with false | change (same_opt out_opt out_opt) with true];
    cbn iota; cbn [app map]; rewrite IH; reflexivity.
Qed.

Lemma helps_in : forall g, (0 < helps g)%nat <-> In GHelp g.
Proof.
  induction g as [|x g IH]; [split; [intros H; inversion H | intros []]|].
  destruct x; unfold helps in *; cbn [filter length In]; [split; [auto | lia] | |];
    (rewrite IH; split; [auto | intros [H|H]; [discriminate | exact H]]).
Qed.
Lemma versions_in : forall g, (0 < versions g)%nat <-> In GVersion g.
Proof.
  induction g as [|x g IH]; [split; [intros H; inversion H | intros []]|].
  destruct x; unfold versions in *; cbn [filter length In]; [|split; [auto | lia] |];
    (rewrite IH; split; [auto | intros [H|H]; [discriminate | exact H]]).
Qed.
Lemma outputs_in : forall g v, In v (outputs g) <-> In (GOutput v) g.
Proof.
  intros g v. unfold outputs. rewrite in_flat_map. split.
  - intros (x & I & H). destruct x; [destruct H | destruct H | destruct H as [->|[]]; exact I].
  - intros I. exists (GOutput v). split; [exact I | left; reflexivity].
Qed.

Theorem command_line_spec : forall args m, command_line r args = Done (Ok m) <-> asked dashed letter args m.
Proof.
  intros args m. unfold command_line, getopts, asked.
  assert (Dup : forall g, duplicated c8s_options (map gift g) = None <->
    (length (outputs g) <= 1)%nat /\ (helps g <= 1)%nat /\ (versions g <= 1)%nat).
  { intros g. unfold c8s_options. cbn [duplicated].
    change (mk_opt (c_ "o") (u "output") true) with out_opt. change (mk_opt (c_ "h") (u "help") false) with help_opt.
    change (mk_opt (c_ "v") (u "version") false) with version_opt.
    rewrite vals_help, vals_version, vals_output, map_length.
    destruct (Nat.ltb 1 (length (outputs g))) eqn:E1; [split; [discriminate | intros; exfalso; lia]|].
    destruct (Nat.ltb 1 (helps g)) eqn:E2; [split; [discriminate | intros; exfalso; lia]|].
    destruct (Nat.ltb 1 (versions g)) eqn:E3; [split; [discriminate | intros; exfalso; lia]|].
    split; [lia | reflexivity]. }
  assert (Seen : forall g, (length (outputs g) <= 1)%nat ->
    (opt_present c8s_options (map gift g) (c_ "h") = true <-> In GHelp g) /\
    (opt_present c8s_options (map gift g) (c_ "v") = true <-> In GVersion g) /\
    (forall v, opt_str c8s_options (map gift g) (c_ "o") = Some v <-> In (GOutput v) g)).
  { intros g Le. unfold opt_present, opt_str.
    change (find_opt c8s_options (ShortName (c_ "h"))) with (Some help_opt).
    change (find_opt c8s_options (ShortName (c_ "v"))) with (Some version_opt).
    change (find_opt c8s_options (ShortName (c_ "o"))) with (Some out_opt). cbn iota.
    rewrite vals_help, vals_version, vals_output, Nat.ltb_lt, Nat.ltb_lt.
    split; [apply helps_in|]. split; [apply versions_in|]. intros v. rewrite <- outputs_in.
    destruct (outputs g) as [|x [|y l]]; cbn [map In length] in *; [split; [discriminate | tauto]| |lia].
    split; [intros H; injection H as ->; auto | intros [->|[]]; reflexivity]. }
  split.
  - destruct (words r c8s_options (S (length args)) args [] []) as [[[vals free]|e]|why] eqn:W;
      cbn [try_]; [| discriminate | discriminate].
    destruct (words_command _ _ _ _ _ _ (Nat.lt_succ_diag_r _) W) as (g & f & C & -> & ->). cbn [app].
    destruct (duplicated c8s_options (map gift g)) as [e|] eqn:D; [discriminate|]. cbn [try_].
    intros H. injection H as <-. apply Dup in D. destruct D as (D1 & D2 & D3). destruct (Seen g D1) as (S1 & S2 & S3).
    exists g. cbn [m_free m_help m_version m_output]. auto 8.
  - intros (g & C & D1 & D2 & D3 & S1 & S2 & S3).
    rewrite (command_words _ _ _ C (S (length args)) [] []) by lia. cbn [app try_].
    rewrite (proj2 (Dup g)) by auto. cbn [try_]. destruct (Seen g D1) as (T1 & T2 & T3). destruct m as [mh mv mo mf].
    cbn [m_free m_help m_version m_output] in *. do 2 f_equal. f_equal.
    + apply Bool.eq_iff_eq_true. rewrite T1, S1. reflexivity.
    + apply Bool.eq_iff_eq_true. rewrite T2, S2. reflexivity.
    + destruct (opt_str _ _ _) as [v|].
      * symmetry. apply S3, T3. reflexivity.
      * destruct mo as [v|]; [|reflexivity]. apply T3, S3. reflexivity.
Qed.

Theorem command_line_total : forall args, exists x, command_line r args = Done x.
Proof.
  intros args. unfold command_line, getopts.
  destruct (words_done (S (length args)) args [] [] (Nat.lt_succ_diag_r _)) as ([[vals free]|e] & ->); cbn [try_]; [|eexists; reflexivity].
  destruct (duplicated c8s_options vals); cbn [try_]; eexists; reflexivity.
Qed.

End Rules.
