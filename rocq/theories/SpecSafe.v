(** * SpecSafe: programs that stay among their instructions.

    Where the README's table (README.md lines 74 to 121) sends the processor after each
    instruction, and which instructions store into memory.  What else instructions do is left
    open, as in [SpecRun]. *)

From Verif Require Import Base Text Parser SpecOpcode SpecDisasm SpecLayout SpecRun.
Open Scope N_scope.

(** ** Where an instruction leads *)

Inductive flow : Type :=
| Onward                  (* to the next instruction *)
| Waiting                 (* to the next instruction, after some time *)
| Skipping                (* to the next instruction, or the one after *)
| Jumping (a : N)
| Calling (a : N)
| Returning
| Elsewhere.              (* anywhere *)

Definition flow_of (i : meaning) : flow :=
  let '(name, os) := i in
  if existsb (String.eqb name) ["SE"; "SNE"; "SKP"; "SKNP"]%string then Skipping
  else if String.eqb name "RET" then Returning
  else if existsb (String.eqb name) ["TRAP"; "TRAPRET"]%string then Elsewhere
  else if String.eqb name "JP" then match os with [Number a] => Jumping a | _ => Elsewhere end
  else if String.eqb name "CALL" then match os with [Number a] => Calling a | _ => Elsewhere end
  else if String.eqb name "LD" then
    match os with [_; Fixed k] => if String.eqb k "K" then Waiting else Onward | _ => Onward end
  else Onward.

(** 'LD B, Vx' and 'LD [I], Vx'. *)
Definition stores (i : meaning) : bool :=
  match i with
  | (name, Fixed o :: _) => String.eqb name "LD" && existsb (String.eqb o) ["B"; "[I]"]%string
  | _ => false
  end.

(** ** Processors which go where the README says

    [stack] gives the addresses to return to, the next one first.  Nothing is said of a program
    counter that passes the end of memory, nor of returning when there is nowhere to return to. *)
Record obedient (P : processor) (stack : state P -> list N) : Prop := {
  goes : forall i s,
    match flow_of i with
    | Onward => pc P s + 2 < 4096 -> pc P (exec P i s) = pc P s + 2 /\ stack (exec P i s) = stack s
    | Waiting => pc P s + 2 < 4096 ->
        (pc P (exec P i s) = pc P s \/ pc P (exec P i s) = pc P s + 2) /\ stack (exec P i s) = stack s
    | Skipping => pc P s + 4 < 4096 ->
        (pc P (exec P i s) = pc P s + 2 \/ pc P (exec P i s) = pc P s + 4) /\ stack (exec P i s) = stack s
    | Jumping a => pc P (exec P i s) = a /\ stack (exec P i s) = stack s
    | Calling a => pc P s + 2 < 4096 -> pc P (exec P i s) = a /\ stack (exec P i s) = (pc P s + 2) :: stack s
    | Returning => forall a rest, stack s = a :: rest -> pc P (exec P i s) = a /\ stack (exec P i s) = rest
    | Elsewhere => True
    end;
  keeps : forall i s, stores i = false -> forall a, mem P (exec P i s) a = mem P s a
}.

(** ** Programs *)

(** There is an instruction of the program at the address [a]. *)
Definition instruction_at (p : list node) (a : N) : Prop :=
  exists k l m fields, nth_error p k = Some (NInstruction l m fields) /\ address p k = a.

(** Whatever the instruction [i] at [a] leads to is an instruction of the program. *)
Definition leads (p : list node) (a : N) (i : meaning) : Prop :=
  match flow_of i with
  | Onward | Waiting => instruction_at p (a + 2)
  | Skipping => instruction_at p (a + 2) /\ instruction_at p (a + 4)
  | Jumping b => instruction_at p b
  | Calling b => instruction_at p b /\ instruction_at p (a + 2)
  | Returning => True
  | Elsewhere => False
  end.

Definition contained (p : list node) : Prop :=
  forall k l m fields i, nth_error p k = Some (NInstruction l m fields) ->
    statement_says (lookup p) m fields i -> leads p (address p k) i.

(** No instruction stores into memory. *)
Definition harmless (p : list node) : Prop :=
  forall k l m fields i, nth_error p k = Some (NInstruction l m fields) ->
    statement_says (lookup p) m fields i -> stores i = false.

(** ** States *)

(** The instructions of the program are in memory, as in [image]. *)
Definition code_loaded (P : processor) (p : list node) (image : list (N * byte)) (s : state P) : Prop :=
  forall a b, In (a, b) image -> instruction_at p a \/ (exists c, instruction_at p c /\ a = c + 1) -> mem P s a = b.

(** The program counter and the addresses to return to are at instructions. *)
Definition safe (P : processor) (stack : state P -> list N) (p : list node) (image : list (N * byte))
  (s : state P) : Prop :=
  code_loaded P p image s /\ instruction_at p (pc P s) /\ Forall (instruction_at p) (stack s).

(** The instruction to come returns, and there is nowhere to return to. *)
Definition leaving (P : processor) (stack : state P -> list N) (s : state P) : Prop :=
  stack s = [] /\ exists i, word_says (256 * mem P s (pc P s) + mem P s (pc P s + 1)) i /\ flow_of i = Returning.

(** The instruction to come leaves the instructions of the program in memory as they are. *)
Definition spares (P : processor) (p : list node) (image : list (N * byte)) (s : state P) : Prop :=
  forall s', machine_step P s s' -> code_loaded P p image s'.

(** ** Deciding containment *)

(** What a statement says, if it says anything. *)
Fixpoint operands_said (lookup : str -> option N) (cs : list string) (fs : list field) : option (list operand) :=
  match cs, fs with
  | [], [] => Some []
  | c :: cs, f :: fs =>
      match
        match f with
        | FRegister r => Some (Register r)
        | FNumeric v => Some (Number v)
        | FIdentifier label => match lookup label with Some v => Some (Number v) | None => None end
        | _ => Some (Fixed c)
        end, operands_said lookup cs fs
      with
      | Some o, Some os => Some (o :: os)
      | _, _ => None
      end
  | _, _ => None
  end.

(** The kinds of fields which columns of the table ask for. *)
Definition column_takes (c : string) (f : field) : bool :=
  match f with
  | FRegister r => existsb (String.eqb c) ["Vx"; "Vy"]%string || (String.eqb c "V0" && (r =? 0))
  | FNumeric _ | FIdentifier _ => existsb (String.eqb c) ["addr"; "nn"; "n"]%string
  | FIndex => String.eqb c "I"
  | FIndexIndirect => String.eqb c "[I]"
  | FDelayTimer => String.eqb c "DT"
  | FSoundTimer => String.eqb c "ST"
  | FKeypad => String.eqb c "K"
  | FSprite => String.eqb c "F"
  | FBcd => String.eqb c "B"
  end.

Fixpoint columns_take (cs : list string) (fs : list field) : bool :=
  match cs, fs with
  | [], [] => true
  | c :: cs, f :: fs => column_takes c f && columns_take cs fs
  | _, _ => false
  end.

Definition statement_said (lookup : str -> option N) (m : str) (fields : list field) : option meaning :=
  match find (fun row => str_eqb (map upper m) (u (snd (fst row))) && columns_take (snd row) fields) table with
  | Some row => match operands_said lookup (snd row) fields with Some os => Some (snd (fst row), os) | None => None end
  | None => None
  end.

(** The addresses of the instructions. *)
Fixpoint instructions_from (a : N) (p : list node) : list N :=
  match p with
  | [] => []
  | n :: rest =>
      match n with NInstruction _ _ _ => [a] | _ => [] end ++ instructions_from (after a n) rest
  end.

Definition leads_within (there : N -> bool) (a : N) (i : meaning) : bool :=
  match flow_of i with
  | Onward | Waiting => there (a + 2)
  | Skipping => there (a + 2) && there (a + 4)
  | Jumping b => there b
  | Calling b => there b && there (a + 2)
  | Returning => true
  | Elsewhere => false
  end.

Fixpoint each_leads (lookup : str -> option N) (there : N -> bool) (a : N) (p : list node) : bool :=
  match p with
  | [] => true
  | n :: rest =>
      match n with
      | NInstruction _ m fields =>
          match statement_said lookup m fields with Some i => leads_within there a i | None => true end
      | _ => true
      end && each_leads lookup there (after a n) rest
  end.

Definition contained_check (p : list node) : bool :=
  let there := instructions_from 0 p in
  each_leads (lookup p) (fun a => existsb (N.eqb a) there) 0 p.

Definition harmless_check (p : list node) : bool :=
  forallb (fun n =>
    match n with
    | NInstruction _ m fields => match statement_said (lookup p) m fields with Some i => negb (stores i) | None => true end
    | _ => true
    end) p.
