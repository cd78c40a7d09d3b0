(** * SrcTool: what src/main.rs asks for outside the files: the command line, the getopts
    crate, the files and the standard output. *)

From Coq Require Import String List NArith Bool.
From Verif Require Import Base Text Main MainIO SrcParse SrcRun SrcCode SrcEnc SrcFacts.
Import ListNotations.
Open Scope string_scope.
Open Scope list_scope.
Open Scope N_scope.

(** An option as main.rs:131-133 declares it: whether it has an argument, and the texts *)
Definition declared : Type := bool * list str.

(** The machine the tool runs on.  [h_parse] and [h_usage] are [Options::parse] and
    [Options::usage] of getopts, of what has been declared; the rest is as in Main.v. *)
Record host : Type := mk_host {
  h_program : str;                       (* argv[0] *)
  h_args : list str;                     (* argv[1..] *)
  h_parse : list declared -> list str -> result str matches;
  h_usage : list declared -> str -> str;
  h_open_error : option str;
  h_read_error : option str;
  h_create_error : option str;
  h_write_error : option (str * nat);
  h_not_found : str;
  h_invalid_utf8 : str;
  h_full : str                           (* the reason of a standard output that takes no more *)
}.

(** What a declared option is in a value *)
Definition v_declared (v : value) : declared :=
  match v with VTup (VBool b :: l) => (b, v_strs l) | _ => (false, []) end.
(** The options and the free arguments found, main.rs:136 *)
Definition e_matches (m : matches) : value :=
  VCon "Matches" [("help", VBool (m_help m)); ("version", VBool (m_version m));
                  ("output", e_option VStr (m_output m)); ("free", VVec (enc VStr (m_free m)))].
(** An [io::Result], the reason of an error being its text *)
Definition e_io (r : result str value) : value :=
  match r with Ok v => ok_ v | Err reason => err_ (VStr reason) end.
(** [std::fs::File] *)
Definition e_file (path : str) : value := VCon "File" [("0", VStr path)].

(** What is asked for, the value it gives and the values its arguments are left with:
    [None] for what main.rs does not ask for *)
Definition perform (h : host) (f : string) (vs : list value) (w : world)
  : option (MainIO.step (value * list value) * world) :=
  let pure v := Some (MainIO.Next (v, @nil value), w) in
  match vs with
  | [] =>
      (* main.rs:127 *)
      if String.eqb f "env::args" then pure (VIter (enc VStr (h_program h :: h_args h))) else None
  | [VStr s] =>
      (* main.rs:57, 63, 116, 123, 137 and 167 *)
      if String.eqb f "print!" then
        let (ok, w') := MainIO.put (utf8 s) w in
        Some (if ok then MainIO.Next (unit_, []) else Panicked, w')
      (* main.rs:37 *)
      else if String.eqb f "File::open" then
        pure (e_io (match h_open_error h, w_fs w s with
                    | Some reason, _ => Err reason
                    | None, None => Err (h_not_found h)
                    | None, Some _ => Ok (e_file s)
                    end))
      (* main.rs:90 *)
      else if String.eqb f "File::create" then
        match h_create_error h with
        | Some reason => pure (e_io (Err reason))
        | None => Some (MainIO.Next (e_io (Ok (e_file s)), []),
                        mk_world (w_room w) (w_out w) (w_held w) (fs_set (w_fs w) s []))
        end
      (* main.rs:123; Cargo.toml:3 *)
      else if String.eqb f "env!" then
        if str_eqb s (u "CARGO_PKG_VERSION") then pure (VStr (u "0.1.3")) else None
      else None
  | [VInt _ n] =>
      (* main.rs:40, 49, 58, 64, 79, 93, 103, 138 and 161 *)
      if String.eqb f "process::exit" then Some (Exited n, w) else None
  | [VCon c [(_, VStr path)]; VStr buffer] =>
      (* main.rs:46 *)
      if String.eqb f "File::read_to_string" then
        match h_read_error h, w_fs w path with
        | Some reason, _ => pure (e_io (Err reason))
        | None, None => None
        | None, Some bytes =>
            match utf8_decode bytes with
            | None => pure (e_io (Err (h_invalid_utf8 h)))
            | Some text =>
                Some (MainIO.Next (e_io (Ok (VInt IUsize (N.of_nat (length bytes)))),
                                   [e_file path; VStr (buffer ++ text)]), w)
            end
        end
      else None
  | [VCon c [(_, VStr path)]; VVec l] =>
      (* main.rs:100, a file *)
      if String.eqb f "File::write_all" then
        let before := match w_fs w path with Some bytes => bytes | None => [] end in
        let after bytes := mk_world (w_room w) (w_out w) (w_held w) (fs_set (w_fs w) path (before ++ bytes)) in
        match h_write_error h with
        | Some (reason, n) =>
            Some (MainIO.Next (e_io (Err reason), []), after (firstn n (map v_int l)))
        | None => Some (MainIO.Next (e_io (Ok unit_), []), after (map v_int l))
        end
      else None
  | [VCon c []; VVec l] =>
      (* main.rs:100, the standard output *)
      if String.eqb f "Stdout::write_all" then
        let (ok, w') := MainIO.put (map v_int l) w in
        Some (MainIO.Next (e_io (if ok then Ok unit_ else Err (h_full h)), []), w')
      else None
  | [VCon c [(_, VVec l)]; VVec words] =>
      (* main.rs:136 *)
      if String.eqb f "Options::parse" then
        pure (match h_parse h (map v_declared l) (v_strs words) with
              | Ok m => ok_ (e_matches m)
              | Err reason => err_ (VStr reason)
              end)
      else None
  | [VCon c [(_, VVec l)]; VStr brief] =>
      (* main.rs:116 *)
      if String.eqb f "Options::usage" then pure (VStr (h_usage h (map v_declared l) brief)) else None
  | [VCon c [(_, VBool help); (_, VBool version); (_, output); (_, VVec _)]; VStr s] =>
      (* main.rs:142, 148 *)
      if String.eqb f "Matches::opt_present" then
        if str_eqb s (u "h") then pure (VBool help)
        else if str_eqb s (u "v") then pure (VBool version)
        else None
      (* main.rs:154 *)
      else if String.eqb f "Matches::opt_str" then
        if str_eqb s (u "o") then pure output else None
      else None
  | VCon c [(x, VVec l)] :: texts =>
      (* main.rs:131-133 *)
      let with_ b := Some (MainIO.Next (unit_, [VCon c [(x, VVec (l ++ [VTup (VBool b :: texts)]))]]), w) in
      if String.eqb f "Options::optopt" then with_ true
      else if String.eqb f "Options::optflag" then with_ false
      else None
  | _ => None
  end.

(** A run of the tool: the machine runs until it asks, is answered, and goes on *)
Inductive runs (h : host) : state -> world -> MainIO.step unit * world -> Prop :=
| runs_end : forall s w finals, reaches c8s s (Back unit_ finals []) -> runs h s w (MainIO.Next tt, w)
| runs_panic : forall s w why, reaches c8s s (Panic why) -> runs h s w (Panicked, w)
| runs_ask : forall s w f vs k v finals w1 r,
    reaches c8s s (Ask f vs k) -> perform h f vs w = Some (MainIO.Next (v, finals), w1) ->
    runs h (Back v finals k) w1 r -> runs h s w r
| runs_exit : forall s w f vs k n w1,
    reaches c8s s (Ask f vs k) -> perform h f vs w = Some (Exited n, w1) -> runs h s w (Exited n, w1)
| runs_died : forall s w f vs k w1,
    reaches c8s s (Ask f vs k) -> perform h f vs w = Some (Panicked, w1) -> runs h s w (Panicked, w1).

(** main.rs:131-133 *)
Definition c8s_declared : list declared :=
  [(true, [u "o"; u "output"; u "Write output to <file>"; u "<file>"]);
   (false, [u "h"; u "help"; u "Display available options"]);
   (false, [u "v"; u "version"; u "Display version information"])].

(** The environment of Main.v on a host *)
Definition env_of (h : host) : Main.env :=
  mk_env (h_program h) (h_parse h c8s_declared (h_args h)) (h_usage h c8s_declared)
    (h_open_error h) (h_read_error h) (h_create_error h) (h_write_error h)
    (h_not_found h) (h_invalid_utf8 h).
