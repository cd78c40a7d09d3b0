(** * PropArgs: property C67, with instances. *)

From Verif Require Import Base Text Main Getopts SpecArgs SpecUtf8 BaseFacts MainProofs ArgsProofs PropOutput.
Open Scope string_scope.
Open Scope list_scope.
Open Scope N_scope.

(** The command line is read as [SpecArgs.v] says, whatever release of getopts it is. *)
Theorem C67_accepts : forall r args m,
  command_line r args = Done (Ok m) <-> asked (r_dashed_value r) (r_dashed_letter r) args m.
Proof. exact command_line_spec. Qed.
Print Assumptions C67_accepts.

Theorem C67_refuses : forall r args,
  (exists e, command_line r args = Done (Err e)) <-> forall m, ~ asked (r_dashed_value r) (r_dashed_letter r) args m.
Proof.
  intros r args. split.
  - intros (e & E) m A. apply command_line_spec in A. congruence.
  - intros N. destruct (command_line_total r args) as ([m|e] & E); [|eauto].
    exfalso. apply (N m). apply command_line_spec. exact E.
Qed.
Print Assumptions C67_refuses.

(** A command line means one thing. *)
Theorem C67_unique : forall dashed letter args g f g' f',
  command dashed letter args g f -> command dashed letter args g' f' -> g = g' /\ f = f'.
Proof.
  intros dashed letter args g f g' f' H H'.
  pose proof (command_words (mk_rules dashed letter) args g f H (S (length args)) [] [] (Nat.lt_succ_diag_r _)) as W.
  pose proof (command_words (mk_rules dashed letter) args g' f' H' (S (length args)) [] [] (Nat.lt_succ_diag_r _)) as W'.
  rewrite W in W'. cbn [app] in W'. injection W' as E <-. split; [|reflexivity]. clear - E. revert g' E.
  induction g as [|x g IH]; intros [|x' g'] E; try discriminate; [reflexivity|]. cbn [map] in E.
  injection E as Ex E. apply IH in E. subst g'. f_equal.
  destruct x, x'; cbn [gift] in Ex; try discriminate; [reflexivity | reflexivity | injection Ex as ->; reflexivity].
Qed.
Print Assumptions C67_unique.

(** Options and the other words may stand in any order, as long as "--" is not used. *)
Lemma command_app : forall dashed letter a ga fa, command dashed letter a ga fa -> ~ In (u "--") a ->
  forall b gb fb, command dashed letter b gb fb -> command dashed letter (a ++ b) (ga ++ gb) (fa ++ fb).
Proof.
  intros dashed letter a ga fa H. 
  induction H as [|ws|w ws g f O _ IH|s gs ws g f Ns F _ IH|s gs v ws g f Nv F _ IH|s gs v ws g f A F _ IH
                  |s ws g f N _ IH|s ws g f N _ IH|s v ws g f N _ IH|s v ws g f N A _ IH]; intros D b gb fb B;
    cbn [app]; rewrite <- ?app_assoc; cbn [app].
  - exact B.
  - exfalso. apply D. left. reflexivity.
  - constructor; [exact O|]. apply IH; [|exact B]. intros I. apply D. right. exact I.
  - apply c_flags; [exact Ns | exact F|]. apply IH; [|exact B]. intros I. apply D. right. exact I.
  - apply c_attached; [exact Nv | exact F|]. apply IH; [|exact B]. intros I. apply D. right. exact I.
  - apply c_next; [exact A | exact F|]. apply IH; [|exact B]. intros I. apply D. right. right. exact I.
  - apply c_help; [exact N|]. apply IH; [|exact B]. intros I. apply D. right. exact I.
  - apply c_version; [exact N|]. apply IH; [|exact B]. intros I. apply D. right. exact I.
  - apply (c_long _ _ s v); [exact N|]. apply IH; [|exact B]. intros I. apply D. right. exact I.
  - apply c_long_next; [exact N | exact A|]. apply IH; [|exact B]. intros I. apply D. right. right. exact I.
Qed.

Theorem C67_order : forall dashed letter a ga fa b gb fb m,
  command dashed letter a ga fa -> command dashed letter b gb fb -> ~ In (u "--") a -> ~ In (u "--") b ->
  asked dashed letter (a ++ b) m ->
  m_free m = fa ++ fb /\
  asked dashed letter (b ++ a) (mk_matches (m_help m) (m_version m) (m_output m) (fb ++ fa)).
Proof.
  intros dashed letter a ga fa b gb fb m A B Na Nb (g & C & Lo & Lh & Lv & Sh & Sv & So).
  destruct (C67_unique _ _ _ _ _ _ _ C (command_app _ _ _ _ _ A Na _ _ _ B)) as [-> E]. split; [exact E|].
  exists (gb ++ ga). cbn [m_free m_help m_version m_output].
  split; [exact (command_app _ _ _ _ _ B Nb _ _ _ A)|].
  unfold outputs, helps, versions in *. rewrite flat_map_app, app_length in *. rewrite filter_app, app_length in *. rewrite filter_app, app_length in *.
  split; [lia|]. split; [lia|]. split; [lia|].
  assert (X : forall x, In x (gb ++ ga) <-> In x (ga ++ gb)) by (intros x; rewrite !in_app_iff; tauto).
  split; [rewrite Sh; symmetry; apply X|]. split; [rewrite Sv; symmetry; apply X|]. intros v. rewrite So. symmetry. apply X.
Qed.
Print Assumptions C67_order.

(** ** The tool *)

(** The environment of a run with these arguments. *)
Definition started (r : rules) (text : failure -> str) (args : list str) (e : env) : Prop :=
  match command_line r args with
  | Done (Ok m) => e_options e = Ok m
  | Done (Err x) => e_options e = Err (text x)
  | Crash _ => False
  end.

Lemma started_asked : forall r text args e m, started r text args e ->
  asked (r_dashed_value r) (r_dashed_letter r) args m -> e_options e = Ok m.
Proof. intros r text args e m S A. apply command_line_spec in A. unfold started in S. rewrite A in S. exact S. Qed.

Lemma free_only : forall dashed letter input, ordinary input ->
  asked dashed letter [input] (mk_matches false false None [input]).
Proof.
  intros dashed letter input O. exists []. cbn [m_free m_help m_version m_output].
  split; [constructor; [exact O | constructor]|]. split; [cbn; lia|]. split; [cbn; lia|]. split; [cbn; lia|].
  split; [split; [discriminate | intros []]|]. split; [split; [discriminate | intros []]|].
  intros v. split; [discriminate | intros []].
Qed.

Lemma asked_output : forall dashed letter args input output,
  command dashed letter args [GOutput output] [input] ->
  asked dashed letter args (mk_matches false false (Some output) [input]).
Proof.
  intros dashed letter args input output C. exists [GOutput output]. cbn [m_free m_help m_version m_output].
  split; [exact C|]. split; [cbn; lia|]. split; [cbn; lia|]. split; [cbn; lia|].
  split; [split; [discriminate | intros [H|[]]; discriminate]|].
  split; [split; [discriminate | intros [H|[]]; discriminate]|].
  intros v. split; [intros H; injection H as ->; left; reflexivity | intros [H|[]]; injection H as ->; reflexivity].
Qed.

(** Only an input: the output is 'a.hex'. *)
Theorem C67_default : forall r text e input, ordinary input -> started r text [input] e -> asks e input (u "a.hex").
Proof.
  intros r text e input O S. exists (mk_matches false false None [input]).
  split; [exact (started_asked _ _ _ _ _ S (free_only _ _ _ O))|]. auto.
Qed.
Print Assumptions C67_default.

(** The ways to name the output. *)
Theorem C67_output : forall r text e input output args, ordinary input -> started r text args e ->
  (ordinary output /\ (args = [u "-o"; output; input] \/ args = [input; u "-o"; output] \/
                       args = [u "--output"; output; input] \/ args = [input; u "--output"; output]) \/
   output <> [] /\ (args = [u "-o" ++ output; input] \/ args = [input; u "-o" ++ output]) \/
   args = [u "--output=" ++ output; input] \/ args = [input; u "--output=" ++ output] \/
   ordinary output /\ args = [u "-o"; output; u "--"; input]) ->
  asks e input output.
Proof.
  intros r text e input output args O S H. exists (mk_matches false false (Some output) [input]).
  split; [|auto]. apply (started_asked _ _ _ _ _ S). apply asked_output.
  set (d := r_dashed_value r). set (l := r_dashed_letter r).
  assert (E : command d l [] [] []) by constructor.
  assert (I : command d l [input] [] [input]) by (constructor; [exact O | exact E]).
  destruct H as [[Oo H]|[[Ne H]|[H|[H|[Oo H]]]]].
  - assert (A : argument d output) by (right; exact Oo).
    destruct H as [-> | [-> | [-> | ->]]].
    + exact (c_next d l [] [] output _ _ _ A flags_none I).
    + apply c_free; [exact O|]. exact (c_next d l [] [] output _ _ _ A flags_none E).
    + exact (c_long_next d l (u "output") output _ _ _ (or_introl eq_refl) A I).
    + apply c_free; [exact O|]. exact (c_long_next d l (u "output") output _ _ _ (or_introl eq_refl) A E).
  - destruct H as [-> | ->].
    + exact (c_attached d l [] [] output _ _ _ Ne flags_none I).
    + apply c_free; [exact O|]. exact (c_attached d l [] [] output _ _ _ Ne flags_none E).
  - subst args. exact (c_long d l (u "output") output _ _ _ (or_introl eq_refl) I).
  - subst args. apply c_free; [exact O|]. exact (c_long d l (u "output") output _ _ _ (or_introl eq_refl) E).
  - subst args. exact (c_next d l [] [] output _ _ _ (or_intror Oo) flags_none (c_rest d l [input])).
Qed.
Print Assumptions C67_output.

(** Help and version, wherever they are asked for; help first. *)
Theorem C67_help : forall r text e f args m, started r text args e ->
  asked (r_dashed_value r) (r_dashed_letter r) args m ->
  (m_help m = true -> main e f = Done (mk_outcome (utf8 (e_usage e (u "USAGE: " ++ e_program e ++ u " [options] <input>"))) 0 f)) /\
  (m_help m = false -> m_version m = true -> main e f = Done (mk_outcome (utf8 (u "c8s version 0.1.3" ++ [10])) 0 f)).
Proof.
  intros r text e f args m S A. pose proof (started_asked _ _ _ _ _ S A) as E. unfold main. rewrite E.
  split; [intros ->; reflexivity|]. intros -> ->. reflexivity.
Qed.
Print Assumptions C67_help.

(** Anything else is refused and changes no file. *)
Theorem C67_refused : forall r text e f args, started r text args e ->
  (forall m, asked (r_dashed_value r) (r_dashed_letter r) args m ->
     m_help m = false /\ m_version m = false /\ length (m_free m) <> 1%nat) ->
  exists out, main e f = Done (mk_outcome out 1 f).
Proof.
  intros r text e f args S N. unfold main. destruct (e_options e) as [m|x] eqn:E; [|eexists; reflexivity].
  destruct (N m) as (-> & -> & Nf).
  - unfold started in S. destruct (command_line r args) as [[m'|y]|why] eqn:C; [|congruence|contradiction].
    apply command_line_spec in C. rewrite S in E. injection E as <-. exact C.
  - destruct (m_free m) as [|x [|y l]]; [eexists; reflexivity | contradiction Nf; reflexivity | eexists; reflexivity].
Qed.
Print Assumptions C67_refused.

Example C67_instance :
  let old := mk_rules false false in let new := mk_rules true true in
  command_line old [u "-o"; u "x.hex"; u "in.s"] = Done (Ok (mk_matches false false (Some (u "x.hex")) [u "in.s"])) /\
  command_line old [u "in.s"; u "-vox.hex"; u "--help"] = Done (Ok (mk_matches true true (Some (u "x.hex")) [u "in.s"])) /\
  command_line old [u "-"; u "--"; u "-o"] = Done (Ok (mk_matches false false None [u "-"; u "-o"])) /\
  command_line old [u "--output="; u "a"; u "b"] = Done (Ok (mk_matches false false (Some []) [u "a"; u "b"])) /\
  command_line old [u "-o"; u "-h"] = Done (Err (ArgumentMissing (ShortName (c_ "o")))) /\
  command_line new [u "-o"; u "-h"] = Done (Ok (mk_matches false false (Some (u "-h")) [])) /\
  command_line old [u "--h"] = Done (Err (UnrecognizedOption (LongName (u "h")))) /\
  command_line new [u "--h"] = Done (Ok (mk_matches true false None [])) /\
  command_line new [u "-x"] = Done (Err (UnrecognizedOption (ShortName (c_ "x")))) /\
  command_line new [u "--help=yes"] = Done (Err (UnexpectedArgument (LongName (u "help")))) /\
  command_line new [u "-oa"; u "-ob"; u "c"] = Done (Err (OptionDuplicated (LongName (u "output")))) /\
  command_line new [u "-vh"; u "-v"] = Done (Err (OptionDuplicated (LongName (u "version")))).
Proof. evaluate. Qed.

(** A run of the tool: an input and no more; two inputs. *)
Definition started_env (args : list str) : env :=
  mk_env (u "c8s") (match command_line (mk_rules true true) args with Done (Ok m) => Ok m | _ => Err (u "bad option") end)
         (fun s => s) None None None None (u "not found") (u "not UTF-8").

Example C67_instance_tool :
  started (mk_rules true true) (fun _ => u "bad option") [u "in.s"] (started_env [u "in.s"]) /\
  ordinary (u "in.s") /\ asks (started_env [u "in.s"]) (u "in.s") (u "a.hex") /\
  started (mk_rules true true) (fun _ => u "bad option") [u "a"; u "b"] (started_env [u "a"; u "b"]) /\
  (forall m, asked true true [u "a"; u "b"] m -> m_help m = false /\ m_version m = false /\ length (m_free m) <> 1%nat) /\
  command true true [u "-o"; u "x"] [GOutput (u "x")] [] /\ command true true [u "in.s"] [] [u "in.s"].
Proof.
  assert (O : forall c s, c <> c_ "-" -> ordinary (c :: s)) by (intros c s N; right; intros r E; congruence).
  assert (S : started (mk_rules true true) (fun _ => u "bad option") [u "in.s"] (started_env [u "in.s"])) by (vm_compute; reflexivity).
  split; [exact S|]. split; [apply (O (c_ "i")); discriminate|].
  split; [apply (C67_default _ _ _ _ (O (c_ "i") _ ltac:(discriminate)) S)|].
  split; [vm_compute; reflexivity|]. split.
  - intros m A. apply (C67_accepts (mk_rules true true)) in A. vm_compute in A. injection A as <-.
    split; [reflexivity|]. split; [reflexivity | discriminate].
  - split.
    + apply (c_next true true [] []); [left; reflexivity | constructor | constructor].
    + constructor; [apply (O (c_ "i")); discriminate | constructor].
Qed.

(** The two parts of that command, in both orders. *)
Example C67_instance_order :
  ~ In (u "--") [u "-o"; u "x"] /\ ~ In (u "--") [u "in.s"] /\
  asked true true ([u "-o"; u "x"] ++ [u "in.s"]) (mk_matches false false (Some (u "x")) [u "in.s"]) /\
  asked true true ([u "in.s"] ++ [u "-o"; u "x"]) (mk_matches false false (Some (u "x")) [u "in.s"]).
Proof.
  split; [intros [H|[H|[]]]; discriminate H|]. split; [intros [H|[]]; discriminate H|].
  split; apply (C67_accepts (mk_rules true true)); vm_compute; reflexivity.
Qed.
