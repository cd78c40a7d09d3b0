(** * SpecLayout: what a program means, stated without reference to the assembler.

    Of the assembler's code only the types of directives and errors are used.  The
    address of a statement is a function of the statements before it; labels stand
    for addresses or constants; the output is one block of bytes for every '.org'
    section. *)

From Verif Require Import Base Text Parser Directive Instruction DataRange Assembler SpecOpcode SpecRefusal.
Open Scope N_scope.

(** ** Directives *)

Definition names (id : str) (name : string) : bool := str_eqb (map upper id) (u name).

(** The bytes of a '.db' argument. *)
Definition literal_bytes (a : literal) : list byte :=
  match a with LString s => utf8 s | LNumeric v => [v] end.

Definition byte_literal (a : literal) : Prop :=
  match a with LString _ => True | LNumeric v => v <= 255 end.

(** What a directive means. *)
Inductive means : str -> list literal -> directive -> Prop :=
| means_org : forall id a, names id "ORG" = true -> a <= 4095 -> means id [LNumeric a] (Org a)
| means_equ : forall id a, names id "EQU" = true -> a <= 4095 -> means id [LNumeric a] (Equ a)
| means_db : forall id args, names id "DB" = true -> args <> [] -> Forall byte_literal args ->
    means id args (Db (flat_map literal_bytes args)).

(** Why a directive means nothing. *)
Inductive rejects : str -> list literal -> directive_error -> Prop :=
| rejects_unknown : forall id args,
    names id "ORG" = false -> names id "DB" = false -> names id "EQU" = false ->
    rejects id args (UnrecognizedDirective id)
| rejects_count : forall id args name low,
    In (name, low) [("ORG", "org"); ("EQU", "equ")]%string -> names id name = true ->
    length args <> 1%nat ->
    rejects id args (IncorrectNumberOfParameters (u low) (N.of_nat (length args)) 1 false)
| rejects_string : forall id s name low,
    In (name, low) [("ORG", "org"); ("EQU", "equ")]%string -> names id name = true ->
    rejects id [LString s] (DirectiveRequiresOneNumericLiteral (u low))
| rejects_number : forall id v name low,
    In (name, low) [("ORG", "org"); ("EQU", "equ")]%string -> names id name = true -> 4095 < v ->
    rejects id [LNumeric v] (DirectiveRequiresOneNumericLiteral (u low))
| rejects_empty : forall id, names id "DB" = true ->
    rejects id [] (IncorrectNumberOfParameters (u "db") 0 1 true)
| rejects_wide : forall id before v after,
    names id "DB" = true -> Forall byte_literal before -> 255 < v ->
    rejects id (before ++ LNumeric v :: after) (AllNumericParametersMustBeByteLiterals (u "db") v).

(** ** Addresses *)

(** The address an '.org' moves to. *)
Definition origin (n : node) : option N :=
  match n with
  | NDirective _ id [LNumeric a] => if names id "ORG" then Some a else None
  | _ => None
  end.

(** The constant an '.equ' gives. *)
Definition constant (n : node) : option N :=
  match n with
  | NDirective _ id [LNumeric c] => if names id "EQU" && (c <=? 4095) then Some c else None
  | _ => None
  end.

(** The number of bytes a statement emits. *)
Definition size (n : node) : N :=
  match n with
  | NInstruction _ _ _ => 2
  | NDirective _ id args =>
      if names id "DB" then N.of_nat (length (flat_map literal_bytes args)) else 0
  | NLabel _ _ => 0
  end.

(** The address after a statement. *)
Definition after (a : N) (n : node) : N :=
  match origin n with Some o => o | None => a + size n end.

(** The address after the statements [p], which start at [a]. *)
Definition counter (a : N) (p : list node) : N := fold_left after p a.

(** The address of the statement of index [i]. *)
Definition address (p : list node) (i : nat) : N := counter 0 (firstn i p).

(** ** Labels *)

(** The value of a label standing at [a] before [rest]. *)
Definition label_value (a : N) (rest : list node) : N :=
  match rest with
  | n :: _ => match constant n with Some c => c | None => a end
  | [] => a
  end.

Fixpoint lookup_from (a : N) (p : list node) (label : str) : option N :=
  match p with
  | [] => None
  | n :: rest =>
      match n with
      | NLabel _ id =>
          if list_eq_dec N.eq_dec id label then Some (label_value a rest)
          else lookup_from (after a n) rest label
      | _ => lookup_from (after a n) rest label
      end
  end.

(** The value of a label of the program. *)
Definition lookup (p : list node) : str -> option N := lookup_from 0 p.

Fixpoint labels_of (p : list node) : list str :=
  match p with
  | [] => []
  | NLabel _ id :: rest => id :: labels_of rest
  | _ :: rest => labels_of rest
  end.

(** ** Errors *)

Definition is_label (n : node) : bool := match n with NLabel _ _ => true | _ => false end.

(** The statement of index [i] is preceded by a label. *)
Definition labelled (p : list node) (i : nat) : Prop :=
  exists j l id, i = S j /\ nth_error p j = Some (NLabel l id).

(** [violates p i e]: the statement of index [i] is in error, before considering how
    instructions are encoded. *)
Inductive violates (p : list node) (i : nat) : semantic_error -> Prop :=
| violates_directive : forall l id args e,
    nth_error p i = Some (NDirective l id args) -> rejects id args e ->
    violates p i (DirectiveInvalid l e)
| violates_size : forall l id args d,
    nth_error p i = Some (NDirective l id args) -> means id args d ->
    4095 < size (NDirective l id args) ->
    violates p i (DirectiveTooLarge l d)
| violates_space : forall l id args d,
    nth_error p i = Some (NDirective l id args) -> means id args d ->
    size (NDirective l id args) <= 4095 ->
    4095 < address p i + size (NDirective l id args) ->
    violates p i (DirectiveWouldOverflow l d)
| violates_constant : forall l id args c,
    nth_error p i = Some (NDirective l id args) -> means id args (Equ c) -> ~ labelled p i ->
    violates p i (ConstantWithoutLabel l)
| violates_instruction : forall l m fields,
    nth_error p i = Some (NInstruction l m fields) -> 4095 < address p i + 2 ->
    violates p i (InstructionWouldOverflow l)
| violates_label : forall l id,
    nth_error p i = Some (NLabel l id) -> In id (labels_of (firstn i p)) ->
    violates p i (RedefinitionOfLabel l id).

(** An instruction which cannot be encoded. *)
Definition unencodable (p : list node) (i : nat) (e : semantic_error) : Prop :=
  exists l m fields r,
    nth_error p i = Some (NInstruction l m fields) /\ refuses (lookup p) m fields r /\
    e = AssemblyFailed l r.

(** The error to report: the first violation, or else the first instruction which
    cannot be encoded. *)
Definition first {A : Type} (bad : nat -> A -> Prop) (i : nat) (e : A) : Prop :=
  bad i e /\ forall j e', (j < i)%nat -> ~ bad j e'.

Definition reported (p : list node) (e : semantic_error) : Prop :=
  (exists i, first (violates p) i e) \/
  ((forall i e', ~ violates p i e') /\ exists i, first (unencodable p) i e).

(** ** Well-formed programs *)

Record well_formed (p : list node) : Prop := {
  wf_directives : forall l id args, In (NDirective l id args) p -> exists d, means id args d;
  wf_constants : forall i l id args c,
    nth_error p i = Some (NDirective l id args) -> means id args (Equ c) -> labelled p i;
  wf_labels : NoDup (labels_of p);
  wf_space : forall i n, nth_error p i = Some n -> address p i + size n <= 4095;
  wf_instructions : forall l m fields, In (NInstruction l m fields) p ->
    exists w, encodes (lookup p) m fields w
}.

(** ** The bytes *)

(** The bytes of a statement, given the values of labels. *)
Inductive node_bytes (lookup : str -> option N) : node -> list byte -> Prop :=
| nb_instruction : forall l m fields w, encodes lookup m fields w ->
    node_bytes lookup (NInstruction l m fields) [w / 256; w mod 256]
| nb_db : forall l id args bytes, means id args (Db bytes) ->
    node_bytes lookup (NDirective l id args) bytes
| nb_org : forall l id args a, means id args (Org a) ->
    node_bytes lookup (NDirective l id args) []
| nb_equ : forall l id args c, means id args (Equ c) ->
    node_bytes lookup (NDirective l id args) []
| nb_label : forall l id, node_bytes lookup (NLabel l id) [].

(** The statements before the first '.org', and then those of each '.org'. *)
Fixpoint split_sections (p : list node) : list node * list (N * list node) :=
  match p with
  | [] => ([], [])
  | n :: rest =>
      let '(first, others) := split_sections rest in
      match origin n with
      | Some a => ([], (a, first) :: others)
      | None => (n :: first, others)
      end
  end.

Definition sections (p : list node) : list (N * list node) :=
  let '(first, others) := split_sections p in (0, first) :: others.

(** The bytes of a section are those of its statements. *)
Definition section_block (lookup : str -> option N) (s : N * list node) (r : data_range) : Prop :=
  dr_start r = fst s /\
  exists bytes, Forall2 (node_bytes lookup) (snd s) bytes /\ dr_data r = concat bytes.

Definition nonempty (r : data_range) : bool := negb (Nat.eqb (length (dr_data r)) 0).

(** [output p rs]: the blocks of the program, empty ones left out. *)
Definition output (p : list node) (rs : list data_range) : Prop :=
  exists all, Forall2 (section_block (lookup p)) (sections p) all /\ rs = filter nonempty all.

(** The addresses and bytes of blocks, in order. *)
Fixpoint place (a : N) (bytes : list byte) : list (N * byte) :=
  match bytes with
  | [] => []
  | b :: rest => (a, b) :: place (a + 1) rest
  end.

Definition memory (rs : list data_range) : list (N * byte) :=
  flat_map (fun r => place (dr_start r) (dr_data r)) rs.

(** The statements a program can contain: names are ASCII, registers 0 to 15, numeric
    operands at most 12 bits. *)
Definition node_ok (n : node) : Prop :=
  match n with
  | NDirective _ id _ => ascii id
  | NLabel _ _ => True
  | NInstruction _ m fields => ascii m /\ Forall field_ok fields
  end.
