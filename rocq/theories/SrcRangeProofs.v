(** * SrcRangeProofs: running the text of data_range.rs, source_file_location.rs and token.rs. *)

From Coq Require Import String List NArith Lia.
From Verif Require Import Base BaseFacts Text U12 Location Token DataRange
  SrcParse SrcRun SrcCode SrcEnc SrcFacts.
Import ListNotations.
Open Scope string_scope.
Open Scope list_scope.
Open Scope N_scope.

(** ** data_range.rs *)
Lemma src_range_new a : gives "DataRange::new" [e_u12 a] (Done (e_range (range_new a))).
Proof. intro K. run. unfold range_new, e_range, e_bytes. cbn [dr_data dr_start]. rewrite enc_nil. finish. Qed.

Lemma src_range_len r : gives "DataRange::len" [e_range r] (Done (e_usize (range_len r))).
Proof. intro K. destruct r as [a l]. run. unfold range_len. cbn [dr_data]. rewrite <- (enc_length e_u8). finish. Qed.

Lemma src_range_data r : gives "DataRange::data" [e_range r] (Done (e_bytes (dr_data r))).
Proof. intro K. destruct r as [a l]. run. finish. Qed.

Lemma src_address_range r : gives "DataRange::address_range" [e_range r]
  (Done (VCon "Range" [("start", e_u12 (fst (address_range r))); ("end", e_u12 (snd (address_range r)))])).
Proof.
  intro K. destruct r as [a l]. run_to (calls_of ["DataRange::len"]). 
  use (src_range_len (mk_range a l)). run. finish.
Qed.

Lemma src_bytes_remaining r : gives "DataRange::bytes_remaining" [e_range r]
  match bytes_remaining r with Done n => Done (e_usize n) | Crash w => Crash w end.
Proof.
  intro K. destruct r as [a l]. run. unfold bytes_remaining. cbn [dr_start]. try_if; [|finish].
  run_to (calls_of ["DataRange::len"]). use (src_range_len (mk_range a l)). run. try_if; run; finish.
Qed.

Lemma src_append r l : returns "DataRange::append" [e_range r; e_bytes l]
  match range_append r l with
  | Done (b, r') => Done (VBool b, [e_range r'; e_bytes l])
  | Crash w => Crash w
  end.
Proof.
  intro K. destruct r as [a d]. run_to (calls_of ["DataRange::bytes_remaining"]).
  use (src_bytes_remaining (mk_range a d)). unfold range_append. destruct (bytes_remaining (mk_range a d)); [|finish].
  cbn [bind dr_start dr_data]. rewrite <- (enc_length e_u8). run_on (calls_of []); [|finish].
  change e_u8 with (fun n => VInt IU8 n). rewrite E. unfold e_range, e_bytes. cbn [dr_start dr_data]. rewrite enc_app. finish.
Qed.

Lemma src_intersects r r' : gives "DataRange::intersects" [e_range r; e_range r'] (Done (VBool (intersects r r'))).
Proof.
  intro K. destruct r as [a d], r' as [a' d']. 
  run_to (calls_of ["DataRange::address_range"]). use (src_address_range (mk_range a d)).
  run_to (calls_of ["DataRange::address_range"]). use (src_address_range (mk_range a' d')).
  run. finish.
Qed.

Lemma src_range_fmt r : returns "DataRange::fmt" [e_range r; VStr []]
  match range_fmt r with
  | Done s => Done (ok_ unit_, [e_range r; VStr s])
  | Crash w => Crash w
  end.
Proof.
  intro K. pose proof (src_address_range r) as A. pose proof (src_range_len r) as L. unfold range_fmt.
  generalize dependent (range_len r). generalize dependent (address_range r). intros [x y] A n L. destruct r as [a d]. 
  run_to (calls_of ["DataRange::address_range"]). use A. cbn [fst snd].
  run. try_if; [|finish]. run_to (calls_of ["DataRange::len"]). use L. run. finish_fmt.
Qed.

(** ** source_file_location.rs *)
Lemma src_loc_new f a b c : gives "SourceFileLocation::new" [VStr f; e_usize a; e_usize b; e_usize c]
  match loc_new f a b c with Done l => Done (e_loc l) | Crash w => Crash w end.
Proof. intro K. unfold loc_new. run_on (calls_of []); finish. Qed.

Lemma src_loc_fmt l : 0 < l_location l -> returns "SourceFileLocation::fmt" [e_loc l; VStr []]
  (Done (ok_ unit_, [e_loc l; VStr (loc_fmt l)])).
Proof. intros H K. destruct l as [f a b c]. cbn [l_location] in H. unfold loc_fmt. cbn [l_length l_file l_line l_location]. run_on (calls_of []).
  - finish_fmt.
  - try_if; [|lia]. run. finish_fmt.
Qed.

(** ** token.rs *)
Lemma src_token_location t : gives "Token::location" [e_token t] (Done (e_loc (token_location t))).
Proof. intro K. destruct t; run; finish. Qed.

(** ** find_overlapping_ranges, data_range.rs:95-115 *)
Lemma v_range_cons a b : a < b -> v_range a b = VInt IUsize a :: v_range (a + 1) b.
Proof.
  intro H. unfold v_range. replace (N.to_nat (b - a)) with (S (N.to_nat (b - (a + 1)))) by lia. reflexivity.
Qed.
Lemma v_range_nil a : v_range a a = [].
Proof. unfold v_range. rewrite N.sub_diag. reflexivity. Qed.

(** The element at a place *)
Definition at_ (l : list data_range) (i : N) : option data_range := nth_error l (N.to_nat i).
Lemma ranges_get l i r : at_ l i = Some r -> v_get (enc e_range l) i = Some (e_range r).
Proof. intro H. unfold v_get, enc. rewrite nth_error_map. unfold at_ in H. rewrite H. reflexivity. Qed.

(** What is left of a list *)
Definition from (l : list data_range) (i : N) (rest : list data_range) : Prop := skipn (N.to_nat i) l = rest.
Lemma from_cons l i a r : from l i (a :: r) -> at_ l i = Some a /\ from l (i + 1) r /\ i < N.of_nat (length l).
Proof.
  unfold from, at_. replace (N.to_nat (i + 1)) with (S (N.to_nat i)) by lia.
  enough (H : forall n l, skipn n l = a :: r -> nth_error l n = Some a /\ skipn (S n) l = r /\ (n < length l)%nat).
  { intro E. destruct (H _ _ E) as (A & B & C). repeat split; try assumption. lia. }
  induction n as [|n IH]; intros [|x l'] E; try discriminate E.
  - injection E as -> ->. repeat split. cbn [length]. lia.
  - destruct (IH l' E) as (A & B & C). repeat split; try assumption. cbn [length]. lia.
Qed.
Lemma from_nil l i : from l i [] -> i <= N.of_nat (length l) -> i = N.of_nat (length l).
Proof.
  unfold from. intros E H. enough (length l <= N.to_nat i)%nat by lia.
  apply (f_equal (@length _)) in E. rewrite skipn_length in E. cbn [length] in E. lia.
Qed.

Definition e_overlap (p : data_range * data_range) : value := VTup [e_range (fst p); e_range (snd p)].

Lemma src_overlapping l : gives "find_overlapping_ranges" [VVec (enc e_range l)]
  (Done (VVec (enc e_overlap (find_overlapping_ranges l)))).
Proof.
  intro K. set (V := enc e_range l). assert (N : v_len V = N.of_nat (length l)) by apply enc_length.
  assert (G : forall i r, at_ l i = Some r -> v_get V i = Some (e_range r)) by apply ranges_get.
  clearbody V. unfold gives. cbv iota. run.
  match goal with
  | |- reaches c8s (Loop ?w _ (_ :: ?e) ?k) _ =>
      assert (M : forall rest i done, from l i rest -> i <= v_len V ->
        reaches c8s (Loop w (v_range i (v_len V)) (("overlapping_ranges", VVec (enc e_overlap done)) :: e) k)
          (Back (VVec (enc e_overlap (done ++ find_overlapping_ranges rest))) [VVec V] K))
  end.
  { induction rest as [|a rest IH]; intros i done H Hi.
    - rewrite N in *. rewrite <- (from_nil l i H Hi), v_range_nil, app_nil_r. one. run. finish.
    - destruct (from_cons _ _ _ _ H) as (A & B & C). rewrite v_range_cons by lia. rewrite <- N in C.
      again (calls_of []).
      match goal with
      | |- reaches c8s (Loop ?w2 _ (_ :: ?e2) ?k2) _ =>
          assert (M : forall rest2 j done, from l j rest2 -> j <= v_len V ->
            reaches c8s (Loop w2 (v_range j (v_len V)) (("i", VInt IUsize i) :: ("overlapping_ranges", VVec (enc e_overlap done)) :: tl e2) k2)
              (Back (VVec (enc e_overlap ((done ++ map (fun rhs => (a, rhs)) (filter (intersects a) rest2)) ++ find_overlapping_ranges rest))) [VVec V] K))
      end.
      { induction rest2 as [|b rest2 IH2]; intros j done2 H2 Hj.
        - pose proof (IH (i + 1) done2 B ltac:(lia)) as T. rewrite N in Hj. pose proof (from_nil l j H2 Hj) as J. rewrite <- N in J. subst j.
          cbn [filter map]. rewrite app_nil_r, v_range_nil. again (calls_of []). exact T.
        - destruct (from_cons _ _ _ _ H2) as (A2 & B2 & C2). rewrite <- N in C2. rewrite v_range_cons by lia.
          again (calls_of []). rewrite (G i a A). try_closed. run. rewrite (G j b A2). try_closed. 
          run_to (calls_of ["DataRange::intersects"]). pose proof (src_intersects a b) as L.
          cbn [filter map]. generalize dependent (intersects a b). intros t L. use L. run_on (calls_of []).
          + specialize (IH2 (j + 1) (done2 ++ [(a, b)]) B2 ltac:(lia)). cbn [map]. rewrite <- (app_assoc done2) in IH2. rewrite (enc_app _ done2) in IH2. exact IH2.
          + exact (IH2 (j + 1) done2 B2 ltac:(lia)). }
      cbn [find_overlapping_ranges]. rewrite app_assoc. apply M; [exact B|lia]. }
  apply (M l 0 []); [reflexivity|lia].
Qed.

(** ** The texts of tokens, token.rs:63-75 and scanner.rs:44-71 *)
Lemma src_scan_error_fmt e : returns "scanner::Error::fmt" [e_scan_error e; VStr []]
  (Done (ok_ unit_, [e_scan_error e; VStr (scan_error_fmt e)])).
Proof. intro K. destruct e; run; finish_fmt. Qed.

Lemma src_token_fmt t : returns "Token::fmt" [e_token t; VStr []]
  (Done (ok_ unit_, [e_token t; VStr (token_fmt t)])).
Proof.
  intro K. destruct t; try match goal with e : scan_error |- _ => destruct e end; run; finish_fmt.
Qed.
