(** * SpecCalls: what was read, and what is in the output file, after some answers of the operating system. *)

From Verif Require Import Base Text Main Calls.
Open Scope N_scope.

(** The bytes read so far. *)
Definition bytes_read (answers : list answer) : list byte :=
  flat_map (fun a => match a with Got bytes => bytes | _ => [] end) answers.

(** No call failed, and no write took nothing. *)
Definition untroubled (answers : list answer) : Prop :=
  forall a, In a answers -> match a with Failed _ => False | Took n => n <> O | _ => True end.

(** The file the process has made, with what is in it if the process ends now. *)
Definition made_so_far (s : state) : option (str * list byte) :=
  match s with
  | Writing output written _ => Some (output, written)
  | Over _ _ file => file
  | _ => None
  end.

(** The files, when that file is made. *)
Definition with_file (f : fs) (file : option (str * list byte)) : fs :=
  match file with Some (path, bytes) => fs_set f path bytes | None => f end.

(** The same environment with other errors. *)
Definition with_errors (e : env) (opening reading creating : option str) (writing : option (str * nat)) : env :=
  mk_env (e_program e) (e_options e) (e_usage e) opening reading creating writing (e_not_found e) (e_invalid_utf8 e).
