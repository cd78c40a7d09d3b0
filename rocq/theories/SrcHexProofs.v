(** * SrcHexProofs: running the text of ihex_writer.rs. *)

From Coq Require Import String List NArith Lia.
From Verif Require Import Base BaseFacts Text U12 DataRange IHex
  SrcParse SrcRun SrcCode SrcEnc SrcFacts SrcRangeProofs.
Import ListNotations.
Open Scope string_scope.
Open Scope list_scope.
Open Scope N_scope.

(** A record of the crate, ihex_writer.rs:49 and 64 *)
Definition e_record (r : record) : value :=
  match r with
  | RData offset value => VCon "Record::Data" [("offset", VInt IU16 offset); ("value", VVec (enc e_u8 value))]
  | REndOfFile => VCon "Record::EndOfFile" []
  end.
(** What [chunks] gives *)
Definition e_chunk (c : list byte) : value := VVec (enc e_u8 c).

Lemma chunks_enc n l : v_chunks n (enc e_u8 l) = enc e_chunk (chunks (N.to_nat n) l).
Proof.
  unfold v_chunks, chunks, enc at 1. rewrite map_length. generalize (length l). intro f. revert l.
  induction f as [|f IH]; intro l; destruct l as [|b l]; try reflexivity.
  change (chunks_fuel (S f) (N.to_nat n) (b :: l))
    with (firstn (N.to_nat n) (b :: l) :: chunks_fuel f (N.to_nat n) (skipn (N.to_nat n) (b :: l))).
  change (chunks_of (S f) (N.to_nat n) (enc e_u8 (b :: l)))
    with (VVec (firstn (N.to_nat n) (map e_u8 (b :: l))) :: chunks_of f (N.to_nat n) (skipn (N.to_nat n) (map e_u8 (b :: l)))).
  rewrite firstn_map, skipn_map, enc_cons. f_equal. exact (IH (skipn (N.to_nat n) (b :: l))).
Qed.
Lemma chunks_short n l : List.Forall (fun c => (length c <= n)%nat) (chunks n l).
Proof.
  unfold chunks. generalize (length l). intro f. revert l. induction f as [|f IH]; intros [|b l]; cbn [chunks_fuel]; constructor.
  - apply firstn_le_length.
  - apply IH.
Qed.
Lemma ints_enc l : map v_int (enc e_u8 l) = l.
Proof. unfold enc. rewrite map_map. apply map_id. Qed.
Lemma written_enc l : v_written (enc e_record l) = match create_object_file l with Some s => Some (VStr s) | None => None end.
Proof.
  unfold v_written. replace (all_some (map v_record (enc e_record l))) with (Some l); [reflexivity|].
  induction l as [|r l IH]; [reflexivity|]. rewrite enc_cons. cbn [map all_some].
  replace (v_record (e_record r)) with (Some r) by (destruct r; cbn; rewrite ?ints_enc; reflexivity).
  rewrite <- IH. reflexivity.
Qed.
Lemma v_rev_rev l : v_rev (rev l) = l.
Proof. apply rev_involutive. Qed.

Ltac to f := run_to (calls_of [f]).

Lemma src_hex l : gives "ihex_representation_of_data_ranges" [VVec (enc e_range l)]
  match ihex_representation l with Done s => Done (VStr s) | Crash w => Crash w end.
Proof.
  intro K. to "find_overlapping_ranges". use (src_overlapping l). run.
  unfold ihex_representation, assert_.
  lazymatch goal with |- reaches c8s (Branch ?b _ _) _ => 
    assert (E : b = Nat.eqb (length (find_overlapping_ranges l)) 0) end.
  { change (v_len (enc e_overlap (find_overlapping_ranges l)) =? 0 = Nat.eqb (length (find_overlapping_ranges l)) 0).
    rewrite enc_length. lia. }
  apply reaches_branch. rewrite E. clear E. destruct (Nat.eqb (length (find_overlapping_ranges l)) 0); cbn [bind]; cbv iota; [|run; finish].
  run.
  match goal with
  | |- reaches c8s (Loop ?w _ (_ :: ?e) ?k) _ =>
      assert (M : forall rest done,
        reaches c8s (Loop w (enc e_range rest) (("records", VVec (enc e_record done)) :: e) k)
          (outcome match range_records rest with
                   | Done rs =>
                       match create_object_file ((done ++ rs) ++ [REndOfFile]) with
                       | Some s => Done (VStr (s ++ [10]), [VVec (enc e_range l)])
                       | None => Crash UnwrapFailed
                       end
                   | Crash why => Crash why
                   end K))
  end.
  { induction rest as [|r rest IH]; intro done; cbn [range_records].
    - rewrite enc_nil, app_nil_r. pose proof (written_enc (done ++ [REndOfFile])) as W.
      rewrite enc_app, enc_cons, enc_nil in W. again (calls_of []). 
      lazymatch goal with |- reaches c8s (Opt _ _ ?o _ _) _ => change o with (v_written (v_app (enc e_record done) [e_record REndOfFile])) end.
      apply reaches_opt. rewrite W. destruct (create_object_file (done ++ [REndOfFile])) as [s|]; cbv iota; run; [finish|].
      try_closed. finish.
    - rewrite enc_cons. apply reaches_step. to "DataRange::address_range". use (src_address_range r).
      to "DataRange::data". use (src_range_data r). unfold e_bytes. run. rewrite chunks_enc.
      change (N.to_nat 16) with 16%nat. pose proof (chunks_short 16 (dr_data r)) as C.
      change (let (_, d) := r in d) with (dr_data r) in *. change (let (d, _) := r in d) with (dr_start r).
      cbn [address_range fst]. generalize dependent (chunks 16 (dr_data r)). intros cs C.
      match goal with
      | |- reaches c8s (Mapping ?w _ _ (_ :: ?e) ?k) _ =>
          assert (M : forall cs a d, List.Forall (fun c => (length c <= 16)%nat) cs ->
            match data_records a cs with
            | Done rs => exists a', 
                reaches c8s (Mapping w (rev (enc e_record d)) (enc e_chunk cs) (("record_address", VInt IU16 a) :: e) k)
                            (Retn (VIter (enc e_record (d ++ rs))) (("record_address", VInt IU16 a') :: e) k)
            | Crash why =>
                reaches c8s (Mapping w (rev (enc e_record d)) (enc e_chunk cs) (("record_address", VInt IU16 a) :: e) k)
                            (Panic why)
            end)
      end.
      { clear cs C. induction cs as [|c cs IH2]; intros a d C; cbn [data_records].
        - exists a. rewrite enc_nil, app_nil_r. one. rewrite v_rev_rev. finish.
        - pose proof (List.Forall_inv C) as Hc. apply List.Forall_inv_tail in C. cbv beta in Hc.
          specialize (IH2 (a + N.of_nat (length c)) (d ++ [RData a c]) C).
          assert (D : rev (enc e_record (d ++ [RData a c])) = e_record (RData a c) :: rev (enc e_record d))
            by (rewrite enc_app; unfold v_app; rewrite rev_app_distr; reflexivity).
          rewrite D in IH2. clear D.
          assert (Hl : v_len (enc e_u8 c) mod 65536 = N.of_nat (length c)) by (rewrite enc_length; apply N.mod_small; lia).
          rewrite enc_cons. unfold e_chunk at 1 3.
          set (D := rev (enc e_record d)) in *. clearbody D. 
          destruct (a + N.of_nat (length c) <? 65536) eqn:B.
          + destruct (data_records (a + N.of_nat (length c)) cs) as [rs|why]; cbn [bind].
            * destruct IH2 as (a' & IH2). rewrite <- app_assoc in IH2. exists a'. eapply reaches_trans; [|exact IH2].
              again (calls_of []). change (fun n : N => VInt IU8 n) with e_u8. rewrite Hl. try_if. run. finish.
            * eapply reaches_trans; [|exact IH2]. again (calls_of []). change (fun n : N => VInt IU8 n) with e_u8. rewrite Hl. try_if. run. finish.
          + again (calls_of []). change (fun n : N => VInt IU8 n) with e_u8. rewrite Hl. try_if. run. finish. }
      specialize (M cs (dr_start r) [] C). cbn [app] in M.
      destruct (data_records (dr_start r) cs) as [rs|why]; cbn [bind].
      + destruct M as (a' & M). eapply reaches_trans; [exact M|]. run.
        specialize (IH (done ++ rs)). rewrite (enc_app _ done) in IH.
        destruct (range_records rest); cbn [bind]; [rewrite (app_assoc done)|]; exact IH.
      + eapply reaches_trans; [exact M|]. finish. }
  specialize (M l []). cbn [app] in M. rewrite enc_nil in M. 
  destruct (range_records l) as [rs|why]; cbn [bind]; [|exact M].
  unfold unwrap. destruct (create_object_file (rs ++ [REndOfFile])); exact M.
Qed.
