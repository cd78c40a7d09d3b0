(** * SrcDirectiveProofs: running the text of directive.rs. *)

From Coq Require Import String List NArith Lia.
From Verif Require Import Base BaseFacts Text U12 Parser Directive
  SrcParse SrcRun SrcCode SrcEnc SrcFacts SrcOpcodeProofs.
Import ListNotations.
Open Scope string_scope.
Open Scope list_scope.
Open Scope N_scope.

Lemma src_directive_error_fmt e : returns "directive::Error::fmt" [e_directive_error e; VStr []]
  (Done (ok_ unit_, [e_directive_error e; VStr (directive_error_fmt e)])).
Proof. intro K. destruct e as [? ? ? []| | |]; run_on (calls_of []); finish_fmt. Qed.

Lemma src_directive_fmt d : returns "Directive::fmt" [e_directive d; VStr []]
  (Done (ok_ unit_, [e_directive d; VStr (directive_fmt d)])).
Proof.
  intro K. destruct d as [|l|]; run; try finish_fmt. 
  unfold directive_fmt. rewrite <- (enc_length e_u8). finish_fmt.
Qed.

Lemma src_directive_size d : gives "Directive::size" [e_directive d] (Done (e_usize (directive_size d))).
Proof.
  intro K. destruct d as [|l|]; run; try finish.
  unfold directive_size. rewrite <- (enc_length e_u8). finish.
Qed.

Lemma src_directive_into_vec d : gives "Directive::into_vec" [e_directive d] (Done (e_bytes (directive_into_vec d))).
Proof. intro K. destruct d as [|l|]; run; finish. Qed.

Lemma one_numeric_other name make args : negb (v_len (enc e_literal args) =? 1) = true ->
  one_numeric name make args = Err (IncorrectNumberOfParameters name (v_len (enc e_literal args)) 1 false).
Proof.
  rewrite enc_length. intro E. destruct args as [|a [|b r]]; [reflexivity|discriminate E|].
  cbn [one_numeric]. destruct a; reflexivity.
Qed.

Lemma one_argument (args : list literal) : negb (v_len (enc e_literal args) =? 1) = false -> exists a, args = [a].
Proof.
  rewrite enc_length. destruct args as [|a [|b r]]; [discriminate|exists a; reflexivity|].
  cbn [length]. lia.
Qed.

Lemma src_directive_from i args : gives "Directive::from_identifier_and_parameters" [VStr i; VVec (enc e_literal args)]
  (Done (e_result e_directive_error e_directive (directive_from i args))).
Proof.
  intro K. unfold directive_from. run_on (calls_of []).
  - unfold name_org at 1. rewrite E, one_numeric_other by exact E0. finish.
  - unfold name_org at 1. rewrite E. destruct (one_argument args E0) as [[s|n] ->]; unfold one_numeric; try_closed; run_on (calls_of []); finish.
  - unfold name_org at 1, name_db at 1. rewrite E, E0. destruct args; [finish|discriminate].
  - unfold name_org at 1, name_db at 1. rewrite E, E0.
    match goal with
    | |- reaches c8s (Loop ?w _ (_ :: ?e) ?k) _ =>
        assert (M : forall todo done,
          reaches c8s (Loop w (enc e_literal todo) (("bytes", e_bytes done) :: e) k)
            (Back (e_result e_directive_error e_directive
                     match db_bytes done todo with Ok bytes => Ok (Db bytes) | Err x => Err x end)
               (map snd (tl (tl e))) K))
    end.
    { induction todo as [|[s|n] r IH]; intro done.
      - rewrite enc_nil. one. run. finish.
      - rewrite enc_cons. cbn [db_bytes]. eapply reaches_trans; [|apply IH]. unfold e_bytes. rewrite enc_app. again (calls_of []).
        finish.
      - rewrite enc_cons. cbn [db_bytes]. again (calls_of []).
        + finish.
        + eapply reaches_trans; [|apply IH]. unfold e_bytes. rewrite enc_app, byte_small by reflexivity. rewrite enc_cons, enc_nil. finish. }
    destruct args as [|a r]; [discriminate|]. exact (M (a :: r) []).
  - unfold name_org at 1, name_db at 1, name_equ at 1. rewrite E, E0, E1, one_numeric_other by exact E2. finish.
  - unfold name_org at 1, name_db at 1, name_equ at 1. rewrite E, E0, E1. destruct (one_argument args E2) as [[s|n] ->]; unfold one_numeric; try_closed; run_on (calls_of []); finish.
  - unfold name_org at 1, name_db at 1, name_equ at 1. rewrite E, E0, E1. finish.
Qed.
