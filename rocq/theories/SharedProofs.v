(** * SharedProofs: each of several runs does what it would do alone. *)

From Verif Require Import Base Text Main Calls Shared SpecUtf8 SpecTool SpecCalls SpecShared BaseFacts MainProofs CallsProofs.
Open Scope N_scope.

Lemma calls_of_snoc : forall i tr ev, calls_of i (tr ++ [ev]) =
  calls_of i tr ++ match ev with Call j a => if Nat.eqb i j then [a] else [] | Other => [] end.
Proof. intros. unfold calls_of. rewrite flat_map_app. cbn [flat_map]. rewrite app_nil_r. reflexivity. Qed.

Lemma begin_asks : forall e i o, begin_main e = Opening i o <-> asks e i o.
Proof.
  intros e i o. unfold begin_main, asks, quit. split.
  - destruct (e_options e) as [m|r]; [|discriminate]. destruct (m_help m) eqn:H; [discriminate|].
    destruct (m_version m) eqn:V; [discriminate|]. cbv zeta. destruct (m_free m) as [|x [|y l]] eqn:F; [discriminate | | discriminate].
    intros E. injection E as -> <-. exists m. auto.
  - intros (m & -> & -> & -> & -> & ->). reflexivity.
Qed.

Lemma begin_cases : forall e, (exists i o, begin_main e = Opening i o) \/
  (exists out st, begin_main e = Over out st None /\ forall i o, ~ asks e i o).
Proof.
  intros e. destruct (begin_main e) as [i o|i o got|o r|o w r|out st file|] eqn:B.
  1: left; exists i, o; reflexivity.
  all: assert (Na : forall i o, ~ asks e i o) by (intros i' o' A; apply begin_asks in A; rewrite B in A; discriminate A).
  all: unfold begin_main, quit in B; destruct (e_options e) as [m|]; try discriminate B;
       try (destruct (m_help m); try discriminate B; try (destruct (m_version m); try discriminate B; 
         try (cbv zeta in B; destruct (m_free m) as [|x [|y l]]; try discriminate B))).
  all: injection B as <- <- <-; right; eexists; eexists; (split; [reflexivity | exact Na]).
Qed.

Lemma asks_names : forall e i o, asks e i o -> names e i /\ names e o.
Proof. intros e i o A. apply begin_asks in A. unfold names. rewrite A. auto. Qed.

Lemma patch_end : forall old new, patch old (length old) new = old ++ new.
Proof.
  intros. unfold patch. rewrite firstn_all, Nat.sub_diag, skipn_all2 by lia. cbn [repeat app]. rewrite app_nil_r. reflexivity.
Qed.

(** The output file of a run, as the run has left it. *)
Definition output_is (f0 f : fs) (s : state) (out : str) : Prop :=
  f out = match made_so_far s with Some (_, b) => Some b | None => f0 out end.

Lemma fs_set_same : forall f p b, fs_set f p b p = Some b.
Proof. intros. unfold fs_set. rewrite str_eqb_refl. reflexivity. Qed.

Lemma fs_set_other : forall f p b q, q <> p -> fs_set f p b q = f q.
Proof. intros f p b q D. unfold fs_set. apply str_eqb_neq in D. rewrite D. reflexivity. Qed.

(** Only the output file of the run is touched. *)
Lemma effect_other : forall e l f s a p, sound e l s -> (forall i, asks e i p -> p = u "-") -> effect f s a p = f p.
Proof.
  intros e l f s a p S D. destruct s as [i o|i o got|o result|o w r|out st file|]; try reflexivity; destruct a; try reflexivity; cbn [effect].
  - destruct S as ((i & s & t & A & N & _) & _). apply fs_set_other. intros ->. exact (N (D i A)).
  - destruct S as ((i & s & t & A & N & _) & _). apply fs_set_other. intros ->. exact (N (D i A)).
Qed.

Lemma effect_output : forall e z l f0 f s a s' i o, sound e l s -> answered e z s a = Some s' -> asks e i o ->
  output_is f0 f s o -> output_is f0 (effect f s a) s' o.
Proof.
  intros e z l f0 f s a s' i o S H A O. unfold output_is in *.
  destruct s as [i' o'|i' o' got|o' result|o' w r|out st file|]; cbn [answered] in H; try discriminate H.
  - destruct a; try discriminate H; injection H as <-; exact O.
  - destruct S as (A' & -> & U). destruct a as [|b| | |]; try discriminate H; try (injection H as <-; exact O).
    destruct b; injection H as <-; [|exact O]. cbn [effect]. unfold go_on, quit, begin_output.
    destruct (utf8_decode _); [|exact O]. destruct (assemble_text _ _ _) as [[t|m]|]; [destruct (str_eqb _ _) | |]; exact O.
  - destruct S as ((i' & s & t & A' & _) & _). destruct (asks_det _ _ _ _ _ A A') as [-> ->].
    destruct a; try discriminate H; injection H as <-; try exact O. cbn [effect]. rewrite fs_set_same. unfold begin_writing.
    destruct result; reflexivity.
  - destruct S as ((i' & s & t & A' & _) & _). destruct (asks_det _ _ _ _ _ A A') as [-> ->]. cbn [made_so_far] in O.
    destruct a as [|b|n| |rs]; try discriminate H.
    + cbn [effect]. rewrite fs_set_same, O, patch_end. destruct n as [|n].
      * injection H as <-. cbn [quit made_so_far firstn]. rewrite app_nil_r. reflexivity.
      * destruct (Nat.leb (S n) (length r)); [|discriminate H]. injection H as <-. unfold begin_writing.
        match goal with |- context [match ?x with [] => Over _ _ _ | _ => _ end] => destruct x end; reflexivity.
    + injection H as <-. exact O.
    + injection H as <-. exact O.
Qed.

(** What a run has read, in terms of the files at the beginning. *)
Definition has_read (f0 : fs) (e : env) (l : list answer) (s : state) : Prop :=
  match s with
  | Opening _ _ => True
  | Reading i _ got => exists rest, f0 i = Some (got ++ rest)
  | Creating _ _ | Writing _ _ _ => forall i o, asks e i o -> f0 i = Some (bytes_read l)
  | Over out status file =>
      (forall i o, asks e i o -> f0 i = Some (bytes_read l)) \/
      (~ untroubled l /\ file = None /\
       exists oe re ce we, main (with_errors e oe re ce we) f0 = Done (mk_outcome out status f0))
  | Broken => True
  end.

Lemma go_on_read : forall f0 e l i o, asks e i o -> f0 i = Some (bytes_read l) -> has_read f0 e l (go_on e i o (bytes_read l)).
Proof.
  intros f0 e l i o A F. assert (G : forall i o, asks e i o -> f0 i = Some (bytes_read l)).
  { intros i' o' A'. destruct (asks_det _ _ _ _ _ A A') as [-> _]. exact F. }
  unfold go_on, quit, begin_output. destruct (utf8_decode _); [|left; exact G].
  destruct (assemble_text _ _ _) as [[t|m]|]; [destruct (str_eqb _ _) | |]; try (left; exact G); [exact G | exact I].
Qed.

Lemma answered_read : forall f0 f e z l s a s', sound e l s -> answered e z s a = Some s' -> allowed f s a ->
  (forall i o, asks e i o -> made_so_far s = None -> f i = f0 i) ->
  has_read f0 e l s -> has_read f0 e (l ++ [a]) s'.
Proof.
  intros f0 f e z l s a s' S H W F R.
  destruct s as [i o|i o got|o result|o w r|out st file|]; cbn [answered] in H; try discriminate H.
  - destruct S as (A & E & U). specialize (F i o A eq_refl). destruct a as [|b|n| |r]; try discriminate H; injection H as <-.
    + cbn [allowed] in W. cbn [has_read]. rewrite F in W. destruct (f0 i) as [d|]; [|contradiction]. exists d. reflexivity.
    + exact I.
    + right. split; [intros X; exact (troubled_failed _ _ X)|]. split; [reflexivity|]. exists (Some r), None, None, None.
      rewrite (main_errors e _ _ _ _ i o f0 A). reflexivity.
  - destruct S as (A & E & U). specialize (F i o A eq_refl). destruct R as (rest & R). destruct a as [|b|n| |r]; try discriminate H.
    + destruct W as (data & more & D & K & Z). rewrite F, R in D. injection D as <-.
      rewrite skipn_app, skipn_all, Nat.sub_diag in K. cbn [app skipn] in K. subst rest.
      destruct b as [|b0 b]; injection H as <-.
      * rewrite (Z eq_refl) in R. cbn [app] in R. rewrite app_nil_r in R.
        assert (B : bytes_read (l ++ [Got []]) = got) by (rewrite bytes_read_snoc, app_nil_r; symmetry; exact E).
        pose proof (go_on_read f0 e (l ++ [Got []]) i o A) as G. rewrite B in G. exact (G R).
      * exists more. rewrite <- app_assoc. exact R.
    + injection H as <-. exists rest. exact R.
    + injection H as <-. right. split; [intros X; exact (troubled_failed _ _ X)|]. split; [reflexivity|]. exists None, (Some r), None, None.
      rewrite (main_errors e _ _ _ _ i o f0 A). unfold assemble_file, read_input. cbn [e_open_error e_read_error with_errors].
      rewrite R. reflexivity.
  - assert (B : match a with Got b => b = [] | _ => True end -> forall i o, asks e i o -> f0 i = Some (bytes_read (l ++ [a]))).
    { intros Z i o' A. rewrite (R i o' A), bytes_read_snoc. destruct a; try (rewrite app_nil_r; reflexivity). rewrite Z, app_nil_r. reflexivity. }
    destruct a; try discriminate H; injection H as <-; specialize (B I).
    + unfold begin_writing. destruct result; [left; exact B | exact B].
    + exact B.
    + left. exact B.
  - assert (B : match a with Got b => b = [] | _ => True end -> forall i o, asks e i o -> f0 i = Some (bytes_read (l ++ [a]))).
    { intros Z i o' A. rewrite (R i o' A), bytes_read_snoc. destruct a; try (rewrite app_nil_r; reflexivity). rewrite Z, app_nil_r. reflexivity. }
    destruct a as [|b|n| |rs]; try discriminate H; specialize (B I).
    + destruct n as [|n]; [injection H as <-; left; exact B|]. destruct (Nat.leb (Datatypes.S n) (length r)); [|discriminate H]. injection H as <-.
      unfold begin_writing. match goal with |- has_read _ _ _ match ?x with _ => _ end => destruct x end; [left; exact B | exact B].
    + injection H as <-. exact B.
    + injection H as <-. left. exact B.
Qed.

(** The three together. *)
Definition in_order (zero : str) (runs : list env) (f0 : fs) (tr : list event) (f : fs) : Prop :=
  (forall i e, nth_error runs i = Some e -> exists s, process_after e zero (calls_of i tr) = Some s /\
     has_read f0 e (calls_of i tr) s /\
     forall input output, asks e input output -> output <> u "-" -> output_is f0 f s output) /\
  (forall e path, In e runs -> names e path -> ~ writes runs path -> f path = f0 path).

Theorem all_in_order : forall zero runs f0 tr f, separate runs -> happens zero runs f0 tr f -> in_order zero runs f0 tr f.
Proof.
  intros zero runs f0 tr f Sep H. induction H as [|tr f i e s a s' H IH N P An Al|tr f f' H IH O].
  - split; [|reflexivity]. intros i e N. exists (begin_main e). split; [reflexivity|].
    split.
    + destruct (begin_cases e) as [(i0 & o & ->)|(out & st & -> & Na)]; [exact I|]. left. intros i0 o A. contradiction (Na i0 o A).
    + intros i0 o A D. unfold output_is. apply begin_asks in A. rewrite A. reflexivity.
  - destruct IH as [IH1 IH2]. pose proof (process_sound _ _ _ _ P) as S. split.
    + intros j e' Nj. rewrite calls_of_snoc. destruct (Nat.eqb_spec j i) as [-> | D].
      * rewrite N in Nj. injection Nj as <-. destruct (IH1 i e N) as (s1 & P1 & R & O). rewrite P in P1. injection P1 as <-.
        exists s'. split; [unfold process_after in *; rewrite after_snoc, P; exact An|]. split.
        -- apply (answered_read f0 f e zero (calls_of i tr) s a s' S An Al); [|exact R].
           intros input output A M. destruct (list_eq_dec N.eq_dec input output) as [-> | Dio].
           ++ destruct (list_eq_dec N.eq_dec output (u "-")) as [-> | Do].
              ** apply IH2 with e; [eapply nth_error_In; exact N | apply (asks_names _ _ _ A)|].
                 intros (e2 & i2 & _ & _ & X). exact (X eq_refl).
              ** specialize (O _ _ A Do). unfold output_is in O. rewrite M in O. exact O.
           ++ apply IH2 with e; [eapply nth_error_In; exact N | apply (asks_names _ _ _ A)|].
              intros (e2 & i2 & I2 & A2 & D2). apply In_nth_error in I2. destruct I2 as (j & Nj).
              destruct (Nat.eq_dec j i) as [-> | Dj].
              ** rewrite N in Nj. injection Nj as <-. destruct (asks_det _ _ _ _ _ A A2) as [_ Z]. congruence.
              ** destruct (Sep j i e2 e i2 input input output Dj Nj N A2 A D2) as [Z _]. congruence.
        -- intros input output A D. apply (effect_output e zero (calls_of i tr) f0 f s a s' input output S An A). exact (O _ _ A D).
      * rewrite app_nil_r. destruct (IH1 j e' Nj) as (s1 & P1 & R & O). exists s1. split; [exact P1|]. split; [exact R|].
        intros input output A Do. specialize (O _ _ A Do). unfold output_is in *.
        rewrite (effect_other e (calls_of i tr) f s a output S); [exact O|].
        intros i2 A2. destruct (list_eq_dec N.eq_dec output (u "-")) as [-> | Dd]; [reflexivity|].
        destruct (Sep j i e' e input output i2 output D Nj N A A2 Do) as [_ Z]. congruence.
    + intros e' p I Np Nw. rewrite (effect_other e (calls_of i tr) f s a p S); [exact (IH2 e' p I Np Nw)|].
      intros i2 A2. destruct (list_eq_dec N.eq_dec p (u "-")) as [-> | Dd]; [reflexivity|]. exfalso. apply Nw.
      exists e, i2. split; [eapply nth_error_In; exact N|]. split; assumption.
  - destruct IH as [IH1 IH2]. split.
    + intros i e N. rewrite calls_of_snoc, app_nil_r. destruct (IH1 i e N) as (s & P & R & Ou). exists s. split; [exact P|]. split; [exact R|].
      intros input output A D. unfold output_is in *. rewrite (O e output (nth_error_In _ _ N) (proj2 (asks_names _ _ _ A))). exact (Ou _ _ A D).
    + intros e p I Np Nw. rewrite (O e p I Np). exact (IH2 e p I Np Nw).
Qed.

(** ** Events as a program, for examples *)

Definition allowed_b (f : fs) (s : state) (a : answer) : bool :=
  match s, a with
  | Opening input _, Opened => match f input with Some _ => true | None => false end
  | Reading input _ got, Got bytes =>
      match f input with
      | Some data =>
          let rest := skipn (length got) data in
          str_eqb (firstn (length bytes) rest) bytes &&
          match bytes, rest with [], _ :: _ => false | _, _ => true end
      | None => false
      end
  | _, _ => true
  end.

Lemma allowed_b_ok : forall f s a, allowed_b f s a = true -> allowed f s a.
Proof.
  intros f s a H. destruct s as [i o|i o got|o r|o w r|out st file|]; try exact I; destruct a as [|b| | |]; try exact I; cbn [allowed_b allowed] in *.
  - destruct (f i); [discriminate | discriminate H].
  - destruct (f i) as [data|]; [|discriminate H]. cbv zeta in H. apply andb_true_iff in H. destruct H as [H Z]. apply str_eqb_eq in H.
    exists data, (skipn (length b) (skipn (length got) data)). split; [reflexivity|]. split.
    + rewrite <- (firstn_skipn (length b) (skipn (length got) data)) at 1. rewrite H. reflexivity.
    + intros ->. destruct (skipn (length got) data); [reflexivity | discriminate Z].
Qed.

Fixpoint play (zero : str) (runs : list env) (done_ : list event) (f : fs) (evs : list event) : option fs :=
  match evs with
  | [] => Some f
  | Other :: _ => None
  | Call i a :: r =>
      match nth_error runs i with
      | None => None
      | Some e =>
          match process_after e zero (calls_of i done_) with
          | None => None
          | Some s =>
              match answered e zero s a with
              | Some _ => if allowed_b f s a then play zero runs (done_ ++ [Call i a]) (effect f s a) r else None
              | None => None
              end
          end
      end
  end.

Lemma play_happens : forall zero runs f0 evs done_ f f', happens zero runs f0 done_ f -> play zero runs done_ f evs = Some f' ->
  happens zero runs f0 (done_ ++ evs) f'.
Proof.
  intros zero runs f0. induction evs as [|ev evs IH]; intros done_ f f' H P.
  - cbn [play] in P. injection P as <-. rewrite app_nil_r. exact H.
  - destruct ev as [i a|]; cbn [play] in P; [|discriminate P]. destruct (nth_error runs i) as [e|] eqn:N; [|discriminate P].
    destruct (process_after e zero (calls_of i done_)) as [s|] eqn:Ps; [|discriminate P].
    destruct (answered e zero s a) as [s'|] eqn:An; [|discriminate P]. destruct (allowed_b f s a) eqn:Al; [|discriminate P].
    apply allowed_b_ok in Al. change (Call i a :: evs) with ([Call i a] ++ evs). rewrite app_assoc. eapply IH; [|exact P].
    eapply h_call; eassumption.
Qed.

Definition untroubled_b (l : list answer) : bool :=
  forallb (fun a => match a with Failed _ | Took O => false | _ => true end) l.

Lemma untroubled_b_ok : forall l, untroubled_b l = true -> untroubled l.
Proof.
  intros l H a I. unfold untroubled_b in H. rewrite forallb_forall in H. specialize (H a I). destruct a as [| |[|n]| |]; try exact Logic.I;
    discriminate.
Qed.
