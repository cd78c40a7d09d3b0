(** * DepthProofs: the counting parser is the parser, and how deep it gets *)

From Verif Require Import Base Text U12 Location Token Parser BaseFacts ParseProofs DepthParser SpecDepth.
Open Scope nat_scope.

(** ** The results are those of Parser.v *)

Lemma after_call_fst : forall (A B : Type) (r : dresult A) m k (r' : presult A) (k' : A * parser -> presult B),
  fst r = r' -> (forall x p d, fst (k x p d) = k' (x, p)) -> fst (after_call r m k) = try_ r' k'.
Proof.
  intros A B [r d] m k r' k' E K. cbn [fst] in E. subst r'.
  destruct r as [[[x p]|e]|c]; cbn [after_call try_]; [apply K | reflexivity | reflexivity].
Qed.

Lemma literal_list_same : forall n p acc, fst (parse_literal_list_d n p acc) = parse_literal_list n p acc.
Proof.
  induction n as [|n IH]; intros p acc; [reflexivity|]. cbn [parse_literal_list_d parse_literal_list].
  assert (G : fst (after_call (parse_literal_d p) 0 (fun lit p m =>
            let acc := acc ++ [lit] in
            match p_current p with
            | Some (Comma _) =>
                after_call (parse_literal_list_d n (snd (consume_token p)) acc) m
                  (fun l p m => return_ (Done (Ok (l, p))) m)
            | _ => return_ (Done (Ok (acc, p))) m
            end)) =
          (try* (lit, p) := parse_literal p in
            let acc := acc ++ [lit] in
            match p_current p with
            | Some (Comma _) => parse_literal_list n (snd (consume_token p)) acc
            | _ => Done (Ok (acc, p))
            end)).
  { apply after_call_fst; [reflexivity|]. intros x q d. cbv zeta.
    destruct (p_current q) as [[]|]; try reflexivity.
    pose proof (IH (snd (consume_token q)) (acc ++ [x])) as E.
    destruct (parse_literal_list_d n (snd (consume_token q)) (acc ++ [x])) as [[[[? ?]|?]|?] ?];
      cbn [fst] in E; rewrite <- E; reflexivity. }
  destruct (p_current p) as [[]|]; try exact G. reflexivity.
Qed.

Lemma field_list_same : forall n p acc, fst (parse_field_list_d n p acc) = parse_field_list n p acc.
Proof.
  induction n as [|n IH]; intros p acc; [reflexivity|]. cbn [parse_field_list_d parse_field_list].
  assert (G : fst match parse_field p with
          | Done (Ok (f, p)) =>
              let acc := acc ++ [f] in
              match p_current p with
              | Some (Comma _) =>
                  after_call (parse_field_list_d n (snd (consume_token p)) acc) 0
                    (fun l p m => return_ (Done (Ok (l, p))) m)
              | _ => return_ (Done (Ok (acc, p))) 0
              end
          | Done (Err e) => return_ (Done (Err e)) 0
          | Crash c => return_ (Crash c) 0
          end =
          (try* (f, p) := parse_field p in
            let acc := acc ++ [f] in
            match p_current p with
            | Some (Comma _) => parse_field_list n (snd (consume_token p)) acc
            | _ => Done (Ok (acc, p))
            end)).
  { destruct (parse_field p) as [[[x q]|e]|c]; try reflexivity. cbn [try_]. cbv zeta.
    destruct (p_current q) as [[]|]; try reflexivity.
    pose proof (IH (snd (consume_token q)) (acc ++ [x])) as E.
    destruct (parse_field_list_d n (snd (consume_token q)) (acc ++ [x])) as [[[[? ?]|?]|?] ?];
      cbn [fst] in E; rewrite <- E; reflexivity. }
  destruct (p_current p) as [[]|]; try exact G; reflexivity.
Qed.

Lemma directive_same : forall n p, fst (parse_directive_d n p) = parse_directive n p.
Proof.
  intros n p. unfold parse_directive_d, parse_directive. destruct (consume_token p) as [[[]|] q]; try reflexivity.
  apply after_call_fst; [reflexivity|]. intros [id l'] r d. cbv beta iota.
  apply after_call_fst; [apply literal_list_same | reflexivity].
Qed.

Lemma label_same : forall p, fst (parse_label_d p) = parse_label p.
Proof.
  intros p. unfold parse_label_d, parse_label. apply after_call_fst; [reflexivity|].
  intros [id l'] r d. cbv beta iota. destruct (consume_token r) as [[[]|] q]; reflexivity.
Qed.

Lemma instruction_same : forall n p, fst (parse_instruction_d n p) = parse_instruction n p.
Proof.
  intros n p. unfold parse_instruction_d, parse_instruction. apply after_call_fst; [reflexivity|].
  intros [id l'] r d. cbv beta iota. apply after_call_fst; [apply field_list_same | reflexivity].
Qed.

Lemma pass_same : forall (r : dresult node) r', fst r = r' ->
  fst (after_call r 0 (fun n p m => return_ (Done (Ok (n, p))) m)) = r'.
Proof. intros [[[[x p]|e]|c] d] r' <-; reflexivity. Qed.

Lemma statement_same : forall n p, fst (parse_statement_d n p) = parse_statement n p.
Proof.
  intros n p. unfold parse_statement_d, parse_statement. cbv zeta.
  pose proof (pass_same _ _ (directive_same n p)). pose proof (pass_same _ _ (label_same p)).
  pose proof (pass_same _ _ (instruction_same n p)).
  destruct (p_current p) as [[]|]; try reflexivity; try assumption.
  destruct (p_next p) as [[]|]; assumption.
Qed.

Lemma statement_list_same : forall n p acc m,
  fst (parse_statement_list_d n p acc m) = parse_statement_list n p acc.
Proof.
  induction n as [|n IH]; intros p acc m; [reflexivity|]. cbn [parse_statement_list_d parse_statement_list].
  pose proof (statement_same (S n) p) as E.
  destruct (parse_statement_d (S n) p) as [[[[x q]|e]|c] d]; cbn [fst] in E; rewrite <- E;
    (destruct (p_current p) as [[]|]; try reflexivity; try apply IH).
Qed.

Theorem parse_same : forall ts, fst (parse_d ts) = parse ts.
Proof.
  intros ts. unfold parse_d, parse. pose proof (statement_list_same (S (length ts)) (parser_new ts) [] 0) as E.
  destruct (parse_statement_list_d (S (length ts)) (parser_new ts) [] 0) as [r d]. exact E.
Qed.

(** ** How deep a list takes the parser *)

(** The commas before the first end of line. *)
Fixpoint head_commas (ts : list token) : nat :=
  match ts with
  | [] => 0
  | Newline _ :: _ => 0
  | Comma _ :: r => S (head_commas r)
  | _ :: r => head_commas r
  end.

(** What is left after a list, and the depths reached. *)
Definition list_depth {A : Type} (low high : nat) (acc : list A) (ts : list token) (r : dresult (list A)) : Prop :=
  snd r <= head_commas ts + high /\
  match fst r with
  | Done (Ok (l, p)) => (exists a ts', p = parser_new ts' /\ ts = a ++ ts') /\
      length l - length acc + low <= snd r <= length l - length acc + high /\ length acc <= length l
  | _ => True
  end.

Lemma literal_list_depth : forall n ts acc,
  list_depth 1 2 acc ts (parse_literal_list_d n (parser_new ts) acc).
Proof.
  induction n as [|n IH]; intros ts acc; [split; [cbn; lia | exact I]|].
  cbn [parse_literal_list_d]. rewrite current_new.
  assert (G : list_depth 1 2 acc ts (after_call (parse_literal_d (parser_new ts)) 0 (fun lit p m =>
            let acc := acc ++ [lit] in
            match p_current p with
            | Some (Comma _) =>
                after_call (parse_literal_list_d n (snd (consume_token p)) acc) m
                  (fun l p m => return_ (Done (Ok (l, p))) m)
            | _ => return_ (Done (Ok (acc, p))) m
            end))).
  { destruct ts as [|t ts].
    { unfold parse_literal_d, parse_literal. rewrite current_new. split; [cbn; lia | exact I]. }
    destruct (literal_dec t) as [[a Ha]|N].
    2: { unfold parse_literal_d. rewrite parse_literal_no_item by (intros t' a E; injection E as <-; apply N).
         split; [cbn; lia | exact I]. }
    unfold parse_literal_d. rewrite (parse_literal_item t a ts Ha). cbn [return_ after_call]. cbv zeta.
    rewrite current_new.
    assert (H : head_commas (t :: ts) = head_commas ts) by (inversion Ha; reflexivity).
    assert (Stop : list_depth 1 2 acc (t :: ts)
      (return_ (Done (Ok (acc ++ [a], parser_new ts))) (Nat.max 0 1))).
    { split; [cbn; lia|]. cbn [fst return_ snd]. split; [exists [t], ts; split; reflexivity|].
      rewrite app_length. cbn [length]. lia. }
    destruct ts as [|t' ts]; [exact Stop|]. cbn [hd_error].
    destruct t'; try exact Stop. rewrite consume_new. cbn [snd].
    specialize (IH ts (acc ++ [a])). unfold list_depth in *. rewrite H. cbn [head_commas].
    destruct (parse_literal_list_d n (parser_new ts) (acc ++ [a])) as [[[[l' p]|e]|c] d];
      cbn [fst snd after_call return_] in *; destruct IH as [U V]; (split; [lia|]); try exact I.
    rewrite app_length in V. cbn [length] in V. destruct V as ((b & ts' & -> & ->) & V & W).
    split; [exists (t :: Comma l :: b), ts'; split; reflexivity | lia]. }
  destruct ts as [|t ts]; [exact G|]. cbn [hd_error]. destruct t; try exact G.
  split; [cbn; lia|]. cbn [fst return_ snd]. split; [exists [], (Newline l :: ts); split; reflexivity | lia].
Qed.

Lemma field_list_depth : forall n ts acc,
  list_depth 0 1 acc ts (parse_field_list_d n (parser_new ts) acc).
Proof.
  induction n as [|n IH]; intros ts acc; [split; [cbn; lia | exact I]|].
  cbn [parse_field_list_d]. rewrite current_new.
  assert (G : list_depth 0 1 acc ts match parse_field (parser_new ts) with
          | Done (Ok (f, p)) =>
              let acc := acc ++ [f] in
              match p_current p with
              | Some (Comma _) =>
                  after_call (parse_field_list_d n (snd (consume_token p)) acc) 0
                    (fun l p m => return_ (Done (Ok (l, p))) m)
              | _ => return_ (Done (Ok (acc, p))) 0
              end
          | Done (Err e) => return_ (Done (Err e)) 0
          | Crash c => return_ (Crash c) 0
          end).
  { destruct ts as [|t ts].
    { rewrite parse_field_no_item by discriminate. split; [cbn; lia | exact I]. }
    destruct (field_dec t) as [[a Ha]|N].
    2: { rewrite parse_field_no_item by (intros t' a E; injection E as <-; apply N). split; [cbn; lia | exact I]. }
    rewrite (parse_field_item t a ts Ha). cbv zeta. rewrite current_new.
    assert (H : head_commas (t :: ts) = head_commas ts) by (inversion Ha; reflexivity).
    assert (Stop : list_depth 0 1 acc (t :: ts) (return_ (Done (Ok (acc ++ [a], parser_new ts))) 0)).
    { split; [cbn; lia|]. cbn [fst return_ snd]. split; [exists [t], ts; split; reflexivity|].
      rewrite app_length. cbn [length]. lia. }
    destruct ts as [|t' ts]; [exact Stop|]. cbn [hd_error].
    destruct t'; try exact Stop. rewrite consume_new. cbn [snd].
    specialize (IH ts (acc ++ [a])). unfold list_depth in *. rewrite H. cbn [head_commas].
    destruct (parse_field_list_d n (parser_new ts) (acc ++ [a])) as [[[[l' p]|e]|c] d];
      cbn [fst snd after_call return_] in *; destruct IH as [U V]; (split; [lia|]); try exact I.
    rewrite app_length in V. cbn [length] in V. destruct V as ((b & ts' & -> & ->) & V & W).
    split; [exists (t :: Comma l :: b), ts'; split; reflexivity | lia]. }
  destruct ts as [|t ts]; [exact G|]. cbn [hd_error]. destruct t; try exact G;
  (split; [cbn; lia|]; cbn [fst return_ snd]; split; [eexists [], _; split; reflexivity | lia]).
Qed.

(** ** Statements *)

(** Operands below the depth of a list, by kind of statement. *)
Definition list_level (n : node) : nat := match n with NDirective _ _ _ => 1 | _ => 0 end.

Definition node_depth (ts : list token) (levels : nat) (r : dresult node) : Prop :=
  snd r <= head_commas ts + levels + 2 /\
  match fst r with
  | Done (Ok (n, p)) => (exists a ts', p = parser_new ts' /\ ts = a ++ ts') /\
      operands n + list_level n + levels <= snd r <= operands n + list_level n + levels + 1
  | _ => True
  end.

Lemma identifier_new : forall ts, match parse_identifier (parser_new ts) with
  | Done (Ok (x, p)) => exists t r, ts = t :: r /\ p = parser_new r /\ head_commas ts = head_commas r
  | Done (Err _) => True
  | Crash _ => False
  end.
Proof.
  intros [|t ts]; unfold parse_identifier; [rewrite consume_new_nil; exact I|]. rewrite consume_new.
  destruct t; try exact I. exists (Identifier id l), ts. auto.
Qed.

Lemma instruction_depth : forall n ts, node_depth ts 1 (parse_instruction_d n (parser_new ts)).
Proof.
  intros n ts. unfold node_depth, parse_instruction_d, parse_identifier_d. pose proof (identifier_new ts) as E.
  destruct (parse_identifier (parser_new ts)) as [[[x p]|e]|c]; cbn [return_ after_call];
    [|split; [cbn; lia | exact I] | contradiction].
  destruct E as (t & r & -> & -> & H). destruct x as [m l]. pose proof (field_list_depth n r []) as D.
  unfold list_depth in D. rewrite H.
  destruct (parse_field_list_d n (parser_new r) []) as [[[[fs p]|e]|c] d]; cbn [fst snd after_call return_] in *;
    destruct D as [U V]; (split; [lia|]); try exact I.
  destruct V as ((a & ts' & -> & ->) & V & _). split; [exists (t :: a), ts'; split; reflexivity|].
  cbn [operands list_level length] in *. lia.
Qed.

Lemma label_depth : forall ts, node_depth ts 1 (parse_label_d (parser_new ts)).
Proof.
  intros ts. unfold node_depth, parse_label_d, parse_identifier_d. pose proof (identifier_new ts) as E.
  destruct (parse_identifier (parser_new ts)) as [[[x p]|e]|c]; cbn [return_ after_call];
    [|split; [cbn; lia | exact I] | contradiction].
  destruct E as (t & r & -> & -> & H). destruct x as [m l].
  destruct r as [|t' r]; [rewrite consume_new_nil; split; [cbn; lia | exact I]|]. rewrite consume_new.
  destruct t'; try (split; [cbn; lia | exact I]).
  split; [cbn; lia|]. cbn [fst return_ snd operands list_level].
  split; [exists [t; LabelMarker l0], r; split; reflexivity | lia].
Qed.

Lemma directive_depth : forall n ts, node_depth ts 1 (parse_directive_d n (parser_new ts)).
Proof.
  intros n ts. unfold node_depth, parse_directive_d, parse_identifier_d.
  destruct ts as [|t0 ts]; [rewrite consume_new_nil; split; [cbn; lia | exact I]|]. rewrite consume_new.
  destruct t0; try (split; [cbn; lia | exact I]).
  pose proof (identifier_new ts) as E.
  destruct (parse_identifier (parser_new ts)) as [[[x p]|e]|c]; cbn [return_ after_call];
    [|split; [cbn; lia | exact I] | contradiction].
  destruct E as (t & r & -> & -> & H). destruct x as [m l'].
  cbn [head_commas]. change (match t with | Newline _ => 0 | Comma _ => S (head_commas r) | _ => head_commas r end)
    with (head_commas (t :: r)). rewrite H.
  pose proof (literal_list_depth n r []) as D. unfold list_depth in D.
  destruct (parse_literal_list_d n (parser_new r) []) as [[[[fs p]|e]|c] d]; cbn [fst snd after_call return_] in *;
    destruct D as [U V]; (split; [lia|]); try exact I.
  destruct V as ((a & ts' & -> & ->) & V & _). split; [exists (DirectiveMarker l :: t :: a), ts'; split; reflexivity|].
  cbn [operands list_level length] in *. lia.
Qed.

Lemma pass_depth : forall ts (r : dresult node), node_depth ts 1 r ->
  node_depth ts 2 (after_call r 0 (fun n p m => return_ (Done (Ok (n, p))) m)).
Proof.
  intros ts [[[[n p]|e]|c] d] H; unfold node_depth in *; cbn [fst snd after_call return_] in *;
    destruct H as [U V]; (split; [lia|]); try exact I.
  destruct V as [V W]. split; [exact V | lia].
Qed.

Lemma statement_depth : forall n ts, node_depth ts 2 (parse_statement_d n (parser_new ts)).
Proof.
  intros n ts. unfold parse_statement_d. cbv zeta.
  pose proof (pass_depth ts _ (directive_depth n ts)). pose proof (pass_depth ts _ (label_depth ts)).
  pose proof (pass_depth ts _ (instruction_depth n ts)).
  assert (E : forall e, node_depth ts 2 (return_ (Done (Err e)) 0)) by (intros e; split; [cbn; lia | exact I]).
  destruct (p_current (parser_new ts)) as [[]|]; try apply E; try assumption.
  destruct (p_next (parser_new ts)) as [[]|]; assumption.
Qed.

(** ** The whole *)

Lemma per_line_suffix : forall k a b, commas_per_line k (a ++ b) -> commas_per_line k b.
Proof. intros k a b H x c y E N. apply (H (a ++ x) c y); [rewrite E, <- app_assoc; reflexivity | exact N]. Qed.

Lemma head_commas_line : forall ts, exists c b, ts = c ++ b /\ one_line c /\ commas c = head_commas ts.
Proof.
  induction ts as [|t ts (c & b & E & N & C)]; [exists [], []; repeat split; intros l []|].
  assert (G : (forall l, t <> Newline l) -> exists c b, t :: ts = c ++ b /\ one_line c /\
    commas c = (if is_comma t then 1 else 0) + head_commas ts).
  { intros Nt. exists (t :: c), b. split; [rewrite E; reflexivity|]. split.
    - intros l [X|X]; [exact (Nt l X) | exact (N l X)].
    - rewrite <- C. destruct t; reflexivity. }
  destruct t; try (apply G; discriminate). exists [], (Newline l :: ts). repeat split. intros ? [].
Qed.

Lemma head_commas_bound : forall k ts, commas_per_line k ts -> head_commas ts <= k.
Proof.
  intros k ts H. destruct (head_commas_line ts) as (c & b & E & N & <-). apply (H [] c b); assumption.
Qed.

(** The bounds on the depth after the statements [acc]. *)
Definition lower (ns : list node) (d : nat) : Prop := Forall (fun n => operands n + list_level n + 2 <= d) ns.
Definition upper_ (ns : list node) (d : nat) : Prop :=
  d = 0 \/ Exists (fun n => d <= operands n + list_level n + 3) ns.

Lemma lower_more : forall ns d d', lower ns d -> d <= d' -> lower ns d'.
Proof. intros ns d d' H L. eapply Forall_impl; [|exact H]. intros n. cbv beta. lia. Qed.

Lemma statement_list_depth : forall n ts acc m k,
  commas_per_line k ts -> m <= k + 4 ->
  let r := parse_statement_list_d n (parser_new ts) acc m in
  snd r <= k + 5 /\
  (forall ns, fst r = Done (Ok ns) -> lower acc m -> upper_ acc m ->
     exists d, snd r = S d /\ lower ns d /\ upper_ ns d).
Proof.
  induction n as [|n IH]; intros ts acc m k C M; cbv zeta; [split; [cbn; lia | discriminate]|].
  cbn [parse_statement_list_d]. rewrite current_new.
  destruct ts as [|t ts].
  { cbn [hd_error fst snd]. split; [lia|]. intros ns E L U. injection E as <-. exists m. auto. }
  cbn [hd_error]. rewrite consume_new. cbn [snd].
  assert (C' : commas_per_line k ts) by (apply (per_line_suffix k [t] ts); exact C).
  pose proof (IH ts acc m k C' M) as Skip. cbv zeta in Skip.
  pose proof (statement_depth (S n) (t :: ts)) as D. pose proof (head_commas_bound _ _ C) as B.
  assert (G : let r := match parse_statement_d (S n) (parser_new (t :: ts)) with
          | (Done (Ok (nd, p)), d) => parse_statement_list_d n p (acc ++ [nd]) (Nat.max m d)
          | (Done (Err e), d) => (Done (Err e), S (Nat.max m d))
          | (Crash c, d) => (Crash c, S (Nat.max m d))
          end in
    snd r <= k + 5 /\
    (forall ns, fst r = Done (Ok ns) -> lower acc m -> upper_ acc m ->
     exists d, snd r = S d /\ lower ns d /\ upper_ ns d)).
  { cbv zeta. unfold node_depth in D.
    destruct (parse_statement_d (S n) (parser_new (t :: ts))) as [[[[nd p]|e]|c] d]; cbn [fst snd] in *;
      destruct D as [D1 D2].
    - destruct D2 as ((a & ts' & -> & E) & D2).
      assert (C'' : commas_per_line k ts') by (rewrite E in C; exact (per_line_suffix k a ts' C)).
      destruct (IH ts' (acc ++ [nd]) (Nat.max m d) k C'' ltac:(lia)) as [I1 I2]. split; [exact I1|].
      intros ns R L U. apply I2; [exact R | |].
      + apply Forall_app. split; [apply (lower_more acc m); [exact L | lia]|]. constructor; [lia | constructor].
      + right. destruct (Nat.le_ge_cases m d) as [Le|Ge].
        * apply Exists_app. right. constructor. lia.
        * destruct U as [->|U]; [lia|]. apply Exists_app. left.
          rewrite Nat.max_l by lia. exact U.
    - split; [lia | discriminate].
    - split; [lia | discriminate]. }
  destruct t; try exact G; exact Skip.
Qed.

Theorem parse_depth : forall ts k, commas_per_line k ts -> snd (parse_d ts) <= k + 6.
Proof.
  intros ts k C. unfold parse_d.
  destruct (statement_list_depth (S (length ts)) ts [] 0 k C ltac:(lia)) as [H _].
  destruct (parse_statement_list_d (S (length ts)) (parser_new ts) [] 0) as [r d]. cbn [snd] in *. lia.
Qed.

Lemma total_commas : forall ts, commas_per_line (commas ts) ts.
Proof.
  intros ts a c b -> _. unfold commas. rewrite !filter_app, !app_length. lia.
Qed.

Theorem parse_depth_nodes : forall ts ns, parse ts = Done (Ok ns) ->
  exists d, snd (parse_d ts) = 2 + d /\ lower ns d /\ upper_ ns d.
Proof.
  intros ts ns H. rewrite <- parse_same in H. unfold parse_d in *.
  destruct (statement_list_depth (S (length ts)) ts [] 0 (commas ts) (total_commas ts) ltac:(lia)) as [_ G].
  destruct (parse_statement_list_d (S (length ts)) (parser_new ts) [] 0) as [r d]. cbn [fst snd] in *.
  destruct (G ns H (Forall_nil _) (or_introl eq_refl)) as (d' & -> & L & U). exists d'. auto.
Qed.
