(** * SpecArgs: the command lines of the tool. *)

From Verif Require Import Base Text Main.
Open Scope N_scope.

Inductive given : Type :=
| GHelp
| GVersion
| GOutput (path : str).

(** Words that are not options. *)
Definition ordinary (w : str) : Prop := w = u "-" \/ forall r, w <> c_ "-" :: r.

(** Letters of options without argument, and what they ask for. *)
Inductive flags : str -> list given -> Prop :=
| flags_none : flags [] []
| flags_help : forall s g, flags s g -> flags (c_ "h" :: s) (GHelp :: g)
| flags_version : forall s g, flags s g -> flags (c_ "v" :: s) (GVersion :: g).

(** What may be written after two dashes: the long name, and the letter if [letter]. *)
Definition named (letter : bool) (long short s : str) : Prop := s = long \/ (letter = true /\ s = short).

(** What may be the argument of the option in the word before it. *)
Definition argument (dashed : bool) (w : str) : Prop := dashed = true \/ ordinary w.

(** [command dashed letter args g free]: the options given, and the words which are not
    options, in their order. *)
Inductive command (dashed letter : bool) : list str -> list given -> list str -> Prop :=
| c_end : command dashed letter [] [] []
| c_rest : forall ws, command dashed letter (u "--" :: ws) [] ws
| c_free : forall w ws g f, ordinary w -> command dashed letter ws g f ->
    command dashed letter (w :: ws) g (w :: f)
| c_flags : forall s gs ws g f, s <> [] -> flags s gs -> command dashed letter ws g f ->
    command dashed letter ((c_ "-" :: s) :: ws) (gs ++ g) f
| c_attached : forall s gs v ws g f, v <> [] -> flags s gs -> command dashed letter ws g f ->
    command dashed letter ((c_ "-" :: s ++ c_ "o" :: v) :: ws) (gs ++ GOutput v :: g) f
| c_next : forall s gs v ws g f, argument dashed v -> flags s gs -> command dashed letter ws g f ->
    command dashed letter ((c_ "-" :: s ++ u "o") :: v :: ws) (gs ++ GOutput v :: g) f
| c_help : forall s ws g f, named letter (u "help") (u "h") s -> command dashed letter ws g f ->
    command dashed letter ((u "--" ++ s) :: ws) (GHelp :: g) f
| c_version : forall s ws g f, named letter (u "version") (u "v") s -> command dashed letter ws g f ->
    command dashed letter ((u "--" ++ s) :: ws) (GVersion :: g) f
| c_long : forall s v ws g f, named letter (u "output") (u "o") s -> command dashed letter ws g f ->
    command dashed letter ((u "--" ++ s ++ c_ "=" :: v) :: ws) (GOutput v :: g) f
| c_long_next : forall s v ws g f, named letter (u "output") (u "o") s -> argument dashed v ->
    command dashed letter ws g f ->
    command dashed letter ((u "--" ++ s) :: v :: ws) (GOutput v :: g) f.

(** Nothing is given twice, and this is what main.rs sees. *)
Definition outputs (g : list given) : list str :=
  flat_map (fun x => match x with GOutput v => [v] | _ => [] end) g.
Definition helps (g : list given) : nat := length (filter (fun x => match x with GHelp => true | _ => false end) g).
Definition versions (g : list given) : nat := length (filter (fun x => match x with GVersion => true | _ => false end) g).

Definition asked (dashed letter : bool) (args : list str) (m : matches) : Prop :=
  exists g, command dashed letter args g (m_free m) /\
    (length (outputs g) <= 1)%nat /\ (helps g <= 1)%nat /\ (versions g <= 1)%nat /\
    (m_help m = true <-> In GHelp g) /\ (m_version m = true <-> In GVersion g) /\
    (forall v, m_output m = Some v <-> In (GOutput v) g).
