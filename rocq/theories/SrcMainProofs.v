(** * SrcMainProofs: running the text of main.rs. *)

From Coq Require Import String List NArith Bool Lia FMapPositive.
From Verif Require Import Base BaseFacts Text U12 Location Token Scanner Parser DataRange Assembler IHex Main MainIO
  Instruction SpecLex SpecGrammar LexTheorems ScanProofs ParseProofs PipelineProofs PropLayout PropMessage
  SrcParse SrcRun SrcCode SrcEnc SrcFacts SrcRangeProofs SrcScannerProofs SrcParserProofs SrcAssemblerProofs SrcHexProofs SrcTool.
Import ListNotations.
Open Scope string_scope.
Open Scope list_scope.
Open Scope N_scope.

Lemma runs_reaches h s s' w r : reaches c8s s s' -> runs h s' w r -> runs h s w r.
Proof.
  intros H Z. revert H. destruct Z as [s0 w0 fin R|s0 w0 why R|s0 w0 f vs k v fin w1 r0 R P Q|s0 w0 f vs k n w1 R P|s0 w0 f vs k w1 R P]; intro H.
  - eapply runs_end. exact (reaches_trans _ _ _ _ H R).
  - eapply runs_panic. exact (reaches_trans _ _ _ _ H R).
  - eapply runs_ask; [exact (reaches_trans _ _ _ _ H R)|exact P|exact Q].
  - eapply runs_exit; [exact (reaches_trans _ _ _ _ H R)|exact P].
  - eapply runs_died; [exact (reaches_trans _ _ _ _ H R)|exact P].
Qed.

(** A run has one end *)
Lemma meet s t t' : reaches c8s s t -> reaches c8s s t' -> ended t = true -> ended t' = true -> t = t'.
Proof. intros A B H H'. exact (one_end _ _ _ _ H H' A B). Qed.
Lemma asks_once s f vs k f' vs' k' : reaches c8s s (Ask f vs k) -> reaches c8s s (Ask f' vs' k') ->
  f = f' /\ vs = vs' /\ k = k'.
Proof. intros A B. pose proof (meet _ _ _ A B eq_refl eq_refl) as E. injection E as -> -> ->. auto. Qed.
Lemma runs_once h s w r r' : runs h s w r -> runs h s w r' -> r = r'.
Proof.
  intro H. revert r'.
  induction H as [s w fin R|s w why R|s w f vs k v fin w1 r R P Q IH|s w f vs k n w1 R P|s w f vs k w1 R P]; intros r' H'.
  all: inversion H' as [s0 w0 fin' R'|s0 w0 why' R'|s0 w0 f' vs' k' v' fin' w1' r0 R' P' Q'|s0 w0 f' vs' k' n' w1' R' P'|s0 w0 f' vs' k' w1' R' P']; subst.
  all: try reflexivity; try discriminate (meet _ _ _ R R' eq_refl eq_refl).
  all: destruct (asks_once _ _ _ _ _ _ _ R R') as (<- & <- & <-); rewrite P in P'; try discriminate P'; injection P'; intros; subst; auto.
Qed.

(** ** One effect after another *)
Lemma assoc_io {A B C} (m : io A) (f : A -> io B) (g : B -> io C) w :
  and_then (and_then m f) g w = and_then m (fun x => and_then (f x) g) w.
Proof. unfold and_then. destruct (m w) as [[a|n|] w1]; reflexivity. Qed.
Lemma exit_io {A B} n (g : A -> io B) w : and_then (exit_with n) g w = exit_with n w.
Proof. reflexivity. Qed.
Lemma give_io {A B} (a : A) (g : A -> io B) w : and_then (give a) g w = g a w.
Proof. reflexivity. Qed.

Lemma runs_say h text text' k (m : io unit) w : text = text' ->
  (forall w1, runs h (Back unit_ [] k) w1 (m w1)) ->
  runs h (Ask "print!" [VStr text] k) w (and_then (say text') (fun _ => m) w).
Proof.
  intros -> H. assert (P : perform h "print!" [VStr text'] w =
    let (ok, w') := MainIO.put (utf8 text') w in Some (if ok then MainIO.Next (unit_, []) else Panicked, w')) by reflexivity.
  unfold and_then, say. destruct (MainIO.put (utf8 text') w) as [[|] w1]; cbv iota.
  - eapply runs_ask; [apply reaches_refl|exact P|apply H].
  - eapply runs_died; [apply reaches_refl|exact P].
Qed.
Lemma runs_leave h t n k w : runs h (Ask "process::exit" [VInt t n] k) w (exit_with n w).
Proof. eapply runs_exit; [apply reaches_refl|reflexivity]. Qed.
Lemma runs_pure h f vs k v fin w r : perform h f vs w = Some (MainIO.Next (v, fin), w) ->
  runs h (Back v fin k) w r -> runs h (Ask f vs k) w r.
Proof. intros P Q. eapply runs_ask; [apply reaches_refl|exact P|exact Q]. Qed.

Ltac quick t ::=
  eval lazy -[N.add N.sub N.mul N.eqb N.leb N.ltb N.land N.lor N.shiftl N.shiftr N.modulo N.div
              N.pow N.max N.min str_eqb to_lowercase byte_len drop_bytes take_bytes slice
              from_str_radix fmt_hex fmt_dec pad_left join starts_with label_get utf8 enc
              s_app v_len v_app v_rev v_chunks v_from v_int v_written v_concat v_chars v_bytes v_strs v_range map_get has v_get v_slice found
              find_whitespace find_string_literal find_hex_literal find_bin_literal
              find_decimal_literal find_identifier u12_unchecked_into u12_failable_into
              u12_checked_add u12_wrapping_add u8_failable_from_u12 usize_checked_shl
              u12_max len_utf8 both either u e_pairs ] in t.
(** On to the next question *)
Ltac walk stops :=
  eapply runs_reaches; [run_to stops; apply reaches_refl|].
Ltac to_call f := walk (calls_of [f]).

(** ** main.rs:34-105 *)

(** The closure of main.rs:166-168: its number, and the variables it is in *)
Definition closure_id : N :=
  Eval vm_compute in
    hd 0 (flat_map (fun iv => match snd iv with NFn _ _ => [Npos (fst iv)] | _ => [] end) (PositiveMap.elements (code c8s))).
Definition e_log (e : SrcRun.env) : value := VCon "closure" (("%", VInt IAny closure_id) :: e).

Lemma runs_at {A} h s (m m' : io A) (k : A -> io unit) w : m w = m' w ->
  runs h s w (and_then m' k w) -> runs h s w (and_then m k w).
Proof. intros E H. unfold and_then in *. rewrite E. exact H. Qed.

(** ** The places of the messages *)
Lemma located_pos file before m : 0 < l_location (located file before m).
Proof. unfold located. cbn [l_location]. lia. Qed.
Lemma parse_placed file s ts e : scan file s = Done ts -> parse ts = Done (Err e) -> placed e.
Proof.
  intros S P. destruct e as [expected|expected t]; [exact I|]. cbn [placed].
  destruct (parse_error_token _ _ _ P) as (b & a & E & _).
  destruct (scan_location file s ts (length b) t S) as (before & m & after & _ & _ & El & _).
  { rewrite E, nth_error_app2, PeanoNat.Nat.sub_diag by reflexivity. reflexivity. }
  rewrite El. apply located_pos.
Qed.
Lemma assemble_placed file s ts p e : scan file s = Done ts -> parse ts = Done (Ok p) -> assemble p = Done (Err e) ->
  0 < l_location (error_loc e).
Proof.
  intros S P A. destruct (C30_location p e (parsed_node_ok _ _ _ _ S P) A) as (i & n & Ni & El & _).
  change (error_loc e) with (error_location e). rewrite El.
  apply parse_program in P. pose proof (program_names _ _ P n (nth_error_In _ _ Ni)) as I.
  apply In_nth_error in I. destruct I as (j & Nj).
  destruct (scan_location file s ts j _ S Nj) as (before & m & after & _ & _ & Lm & _).
  cbn [token_location] in Lm. rewrite Lm. apply located_pos.
Qed.
(** The parser on the scanner *)
Lemma src_parse_text file s ts : scan file s = Done ts ->
  exists r, parse ts = Done r /\
    gives "parse" [e_scanner (scanner_new file s)] (Done (e_result e_parse_error (fun ns => VVec (enc e_node ns)) r)).
Proof.
  intro S. assert (L : lexes file [] s ts) by (apply scan_lexes; exact S).
  assert (Y : of_scanner (e_scanner (scanner_new file s)) ts).
  { eexists. split; [reflexivity|]. left. exists file, [], s. split; [apply at_new|exact L]. }
  exact (src_parse of_scanner feeds_scanner primes_scanner shaped_scanner _ ts Y).
Qed.

Lemma bytes_int l : map v_int (v_bytes l) = l.
Proof. unfold v_bytes. rewrite map_map. apply map_id. Qed.

Section File.
Variable h : host.
Variables program_ input output : str.
Hypothesis Hp : h_program h = program_.
Variables matches_ options_ arguments_ : value.
Let log : value := e_log
  [("input_path", VStr input); ("output_path", VStr output); ("matches", matches_); ("options", options_);
   ("program", VStr program_); ("arguments", arguments_)].

Ltac newline_ := change (u "
") with [10].
Ltac log_text :=
  unfold program_error, s_app; cbn [e_program env_of]; rewrite Hp; newline_; repeat rewrite <- app_assoc; reflexivity.
(** A message; leaving *)
Ltac says := walk (calls_of []); rewrite ?assoc_io; unfold log_error at 1; eapply runs_say; [log_text|intro].
Ltac leaves := walk (calls_of []); rewrite ?exit_io; apply runs_leave.

Lemma src_assemble_file w K : (forall fin w, runs h (Back unit_ fin K) w (MainIO.Next tt, w)) ->
  runs h (Call "assemble_file" [VStr input; VStr output; log] K) w (assemble_file_io (env_of h) (h_full h) input output w).
Proof.
  intro HK. unfold log, assemble_file_io.
  walk (calls_of []).
  destruct (h_open_error h) as [reason|] eqn:Eo.
  { eapply runs_at; [unfold open_input; cbn [e_open_error env_of]; rewrite Eo; reflexivity|].
    eapply runs_pure; [cbn; rewrite Eo; reflexivity|]. says. says. leaves. }
  destruct (w_fs w input) as [bytes|] eqn:Ef.
  2: { eapply runs_at; [unfold open_input; cbn [e_open_error env_of]; rewrite Eo, Ef; reflexivity|].
    eapply runs_pure; [cbn; rewrite Eo, Ef; reflexivity|]. says. says. leaves. }
  eapply runs_at; [unfold open_input; cbn [e_open_error env_of]; rewrite Eo, Ef; reflexivity|]. rewrite give_io.
  eapply runs_pure; [cbn; rewrite Eo, Ef; reflexivity|]. walk (calls_of []).
  destruct (h_read_error h) as [reason|] eqn:Er.
  { eapply runs_at; [unfold read_to_string; cbn [e_read_error env_of]; rewrite Er; reflexivity|].
    eapply runs_pure; [cbn; rewrite Er; reflexivity|]. says. says. leaves. }
  destruct (utf8_decode bytes) as [buffer|] eqn:Ed.
  2: { eapply runs_at; [unfold read_to_string; cbn [e_read_error env_of]; rewrite Er, Ed; reflexivity|].
    eapply runs_pure; [cbn; rewrite Er, Ef, Ed; reflexivity|]. says. says. leaves. }
  eapply runs_at; [unfold read_to_string; cbn [e_read_error env_of]; rewrite Er, Ed; reflexivity|]. rewrite give_io.
  eapply runs_pure; [cbn; rewrite Er, Ef, Ed; reflexivity|]. cbn [app]. clear Ef Ed Eo Er.
  walk (calls_of ["Scanner::new"]). eapply runs_reaches; [apply (src_scanner_new input buffer)|].
  unfold translate. destruct (scan_total input buffer) as (ts & S).
  rewrite assoc_io. eapply runs_at; [rewrite S; reflexivity|]. cbn [lift]. rewrite give_io.
  destruct (src_parse_text input buffer ts S) as (r & P & G).
  rewrite assoc_io. eapply runs_at; [rewrite P; reflexivity|]. cbn [lift]. rewrite give_io.
  walk (calls_of ["parse"]). eapply runs_reaches; [apply G|]. clear G.
  destruct r as [nodes|e].
  2: { pose proof (src_parse_error_fmt e (parse_placed _ _ _ _ S P)) as M.
       generalize dependent (parse_error_fmt e). intros t M.
       cbn [e_result]. destruct t as [t|why].
       2: { destruct e; cbn [e_parse_error] in *; walk (calls_of ["parser::Error::fmt"]);
              (eapply runs_panic; apply M). }
       cbn [lift]. rewrite !assoc_io, !give_io, !assoc_io.
       destruct e; cbn [e_parse_error] in *; walk (calls_of ["parser::Error::fmt"]); (eapply runs_reaches; [apply M|]); clear M.
       all: walk (calls_of []); (eapply runs_say; [unfold s_app; newline_; reflexivity|intro]); leaves. }
  cbn [e_result]. rewrite assoc_io, give_io. 
  walk (calls_of ["assemble"]). eapply runs_reaches; [apply (src_assemble nodes)|].
  destruct (assemble nodes) as [[ranges|e]|why] eqn:A; cbn [done_ranges].
  3: { eapply runs_panic. apply reaches_refl. }
  2: { pose proof (src_semantic_error_fmt e (assemble_placed _ _ _ _ _ S P A)) as M.
       cbn [lift]. rewrite !assoc_io, !give_io. cbv beta iota. rewrite !assoc_io.
       generalize dependent (semantic_error_fmt e). intros t M. clear A.
       destruct e; cbn [e_semantic_error] in *; walk (calls_of ["SemanticError::fmt"]); (eapply runs_reaches; [apply M|]); clear M.
       all: walk (calls_of []); (eapply runs_say; [unfold s_app; newline_; reflexivity|intro]); leaves. }
  cbn [lift]. rewrite !assoc_io, !give_io. cbv beta iota. rewrite !assoc_io, !give_io, assoc_io.
  clear P A S. 
  walk (calls_of ["find_overlapping_ranges"]).
  lazymatch goal with |- context [("syntax_list", ?v)] => generalize v end. intro nodes_.
  eapply runs_reaches; [apply (src_overlapping ranges)|].
  generalize (find_overlapping_ranges ranges). intro O. walk (calls_of []).
  assert (EO : (0 <? v_len (enc e_overlap O)) = Nat.ltb 0 (length O)) by (rewrite enc_length; lia).
  lazymatch goal with |- runs _ (Branch ?b _ _) _ _ => change b with (0 <? v_len (enc e_overlap O)) end.
  eapply runs_reaches; [apply reaches_branch; rewrite EO; apply reaches_refl|]. clear EO.
  destruct (Nat.ltb 0 (length O)); cbv iota.
  { says. says. walk (calls_of []).
    lazymatch goal with |- context [("data_ranges", ?v)] => generalize v end. intro ranges_.
    lazymatch goal with |- context [("overlapping_ranges", ?v)] => generalize v end. intro overlapping_. rewrite ?assoc_io.
    lazymatch goal with
    | |- runs h (Loop ?W _ ?e ?k) _ (and_then _ ?kk _) =>
        assert (M : forall l w, runs h (Loop W (enc e_overlap l) e k) w (and_then (log_overlaps (env_of h) l) kk w))
    end.
    { induction l as [|[a b] l IH]; intro w2; cbn [log_overlaps].
      - rewrite give_io. rewrite enc_nil. eapply runs_reaches; [apply reaches_step; run; apply reaches_refl|].
        leaves.
      - rewrite enc_cons, assoc_io. pose proof (src_range_fmt a) as Fa. pose proof (src_range_fmt b) as Fb.
        eapply runs_reaches; [apply reaches_step; run_to (calls_of ["DataRange::fmt"]); apply reaches_refl|].
        eapply runs_reaches; [apply Fa|]. clear Fa. destruct (range_fmt a) as [sa|why]; cbn [lift].
        2: { eapply runs_panic. apply reaches_refl. }
        rewrite give_io. says. rewrite ?assoc_io.
        walk (calls_of ["DataRange::fmt"]). eapply runs_reaches; [apply Fb|]. clear Fb.
        destruct (range_fmt b) as [sb|why]; cbn [lift].
        2: { eapply runs_panic. apply reaches_refl. }
        rewrite give_io. says. walk (calls_of []). apply IH. }
    apply M. }
  rewrite give_io. walk (calls_of ["ihex_representation_of_data_ranges"]).
  eapply runs_reaches; [apply (src_hex ranges)|].
  destruct (ihex_representation ranges) as [text|why]; cbn [lift].
  2: { eapply runs_panic. apply reaches_refl. }
  rewrite give_io. walk (calls_of []).
  lazymatch goal with |- context [("data_ranges", ?v)] => generalize v end. intro ranges_.
  lazymatch goal with |- context [("overlapping_ranges", ?v)] => generalize v end. intro overlapping_.
  unfold write_result.
  eapply runs_reaches; [apply reaches_branch; apply reaches_refl|].
  destruct (str_eqb output (u "-")); cbv iota.
  - walk (calls_of []). 
    assert (P : forall l, perform h "Stdout::write_all" [VCon "Stdout" []; VVec l] w
      = let (ok, w') := MainIO.put (map v_int l) w in
        Some (MainIO.Next (e_io (if ok then Ok unit_ else Err (h_full h)), []), w')) by reflexivity.
    specialize (P (v_bytes (utf8 text))). rewrite bytes_int in P.
    destruct (MainIO.put (utf8 text) w) as [[|] w1]; cbv iota.
    + eapply runs_ask; [apply reaches_refl|exact P|]. walk (calls_of []). apply HK.
    + eapply runs_ask; [apply reaches_refl|exact P|]. says. says. leaves.
  - walk (calls_of []). destruct (h_create_error h) as [reason|] eqn:Ec; cbn [e_create_error env_of]; rewrite Ec.
    { eapply runs_pure; [cbn; rewrite Ec; reflexivity|]. says. says. leaves. }
    set (w1 := mk_world (w_room w) (w_out w) (w_held w) (fs_set (w_fs w) output [])).
    eapply runs_ask; [apply reaches_refl|cbn; rewrite Ec; reflexivity|]. fold w1.
    change (and_then (set_file output []) ?k w) with (k tt w1). cbv beta.
    assert (Ew : w_fs w1 output = Some []).
    { unfold w1, fs_set. cbn [w_fs]. rewrite str_eqb_refl. reflexivity. }
    clearbody w1.
    walk (calls_of []). destruct (h_write_error h) as [[reason n]|] eqn:Er; cbn [e_write_error env_of]; rewrite Er.
    + eapply runs_ask; [apply reaches_refl|cbn; rewrite Er, Ew, bytes_int; reflexivity|]. cbn [app].
      lazymatch goal with |- runs _ (Back _ _ _) ?w2 _ => 
        change (and_then (set_file output (firstn n (utf8 text))) ?k w1) with (k tt w2) end. cbv beta.
      says. says. leaves.
    + eapply runs_ask; [apply reaches_refl|cbn; rewrite Er, Ew, bytes_int; reflexivity|]. cbn [app].
      walk (calls_of []). apply HK.
Qed.
End File.

(** ** main.rs:107-169 *)
Lemma strs_enc l : v_strs (enc VStr l) = l.
Proof. unfold v_strs, enc. rewrite map_map. apply map_id. Qed.
Lemma say_last text w : say text w = and_then (say text) (fun _ => give tt) w.
Proof. unfold and_then, say. destruct (MainIO.put (utf8 text) w) as [[|] w1]; reflexivity. Qed.
Lemma from_one a l : v_from (enc VStr (a :: l)) 1 = Done (VVec (enc VStr l)).
Proof.
  unfold v_from. rewrite enc_length. cbn [length]. replace (1 <=? N.of_nat (S (length l))) with true by lia.
  rewrite enc_cons. reflexivity.
Qed.
Ltac onward := eapply runs_reaches; [apply reaches_step; run_to (calls_of []); apply reaches_refl|].
Ltac asked := eapply runs_pure; [reflexivity|]; walk (calls_of []).

Lemma src_main h w : runs h (Call "main" [] []) w (main_io (env_of h) (h_full h) w).
Proof.
  unfold main_io.
  assert (Eo : e_options (env_of h) = h_parse h c8s_declared (h_args h)) by reflexivity.
  assert (Ep : e_program (env_of h) = h_program h) by reflexivity.
  assert (Eu : usage_text (env_of h) = h_usage h c8s_declared (u "USAGE: " ++ h_program h ++ u " [options] <input>")) by reflexivity.
  rewrite Eo, Eu. clear Eo. walk (calls_of []).
  assert (A : perform h "env::args" [] w = Some (MainIO.Next (VIter (enc VStr (h_program h :: h_args h)), []), w)) by reflexivity.
  remember (h_program h) as program_ eqn:Hp. remember (h_args h) as arguments_.
  eapply runs_pure; [exact A|]. rewrite enc_cons.
  walk (calls_of []). change (v_get (VStr program_ :: enc VStr arguments_) 0) with (Some (VStr program_)). cbv iota.
  eapply runs_reaches; [apply reaches_step; run_to (calls_of []); apply reaches_refl|]. asked. asked. asked.
  rewrite <- enc_cons, from_one.
  eapply runs_reaches; [apply reaches_step; run_to (calls_of []); apply reaches_refl|].
  assert (Q : forall x, map v_declared
    [VTup [VBool true; VStr (u "o"); VStr (u "output"); VStr (u "Write output to <file>"); VStr (u "<file>")];
     VTup [VBool false; VStr (u "h"); VStr (u "help"); VStr (u "Display available options")];
     VTup [VBool false; VStr (u "v"); VStr (u "version"); VStr (u "Display version information")]] = x -> x = c8s_declared).
  { intros x <-. reflexivity. }
  specialize (Q _ eq_refl).
  destruct (h_parse h c8s_declared arguments_) as [m|reason] eqn:Eq.
  2: { eapply runs_pure.
       { cbn [perform String.eqb Ascii.eqb Bool.eqb]. rewrite Q, strs_enc, Eq. reflexivity. }
       walk (calls_of []). eapply runs_say; [|intro; walk (calls_of []); apply runs_leave].
       unfold program_error. rewrite Ep. unfold s_app. change (u "
") with [10]. repeat rewrite <- app_assoc. reflexivity. }
  eapply runs_pure.
  { cbn [perform String.eqb Ascii.eqb Bool.eqb]. rewrite Q, strs_enc, Eq. reflexivity. }
  clear Eq. destruct m as [help version output_ free_].
  unfold e_matches. cbn [m_help m_version m_output m_free].
  destruct help.
  { walk (calls_of []). asked. onward. 
    eapply runs_pure.
    { cbn [perform String.eqb Ascii.eqb Bool.eqb]. rewrite Q. reflexivity. }
    walk (calls_of []). rewrite say_last. eapply runs_say.
    { unfold s_app. reflexivity. }
    intro. walk (calls_of []). eapply runs_end. apply reaches_refl. }
  walk (calls_of []). asked. onward. asked. destruct version.
  { onward. asked. rewrite say_last. eapply runs_say; [reflexivity|].
    intro. walk (calls_of []). eapply runs_end. apply reaches_refl. }
  onward. assert (F : (exists i, free_ = [i]) \/ ((v_len (enc VStr free_) =? 1) = false /\
    forall (a : str -> io unit) b, match free_ with [i] => a i | _ => b end = b)).
  { destruct free_ as [|i [|j l]]; [right|left; exists i; reflexivity|right];
      (split; [rewrite enc_length; cbn [length]; lia|reflexivity]). }
  destruct F as [(i & ->)|(F & G)].
  - rewrite enc_cons, enc_nil. destruct output_ as [output_|].
    all: asked; change (v_len [VStr i] =? 1) with true; onward.
    all: change (v_get [VStr i] 0) with (Some (VStr i)); cbv iota.
    all: (eapply runs_reaches; [apply reaches_step; run_to (calls_of ["assemble_file"]); apply reaches_refl|]).
    all: (eapply (src_assemble_file h); [symmetry; exact Hp|]); intros fin w0.
    all: walk (calls_of []); eapply runs_end; apply reaches_refl.
  - rewrite G. clear G. destruct output_ as [output_|].
    all: asked; rewrite F; onward.
    all: (eapply runs_pure; [cbn [perform String.eqb Ascii.eqb Bool.eqb]; rewrite Q; reflexivity|]).
    all: walk (calls_of []); (eapply runs_say; [unfold s_app; reflexivity|]); intro.
    all: walk (calls_of []); apply runs_leave.
Qed.
