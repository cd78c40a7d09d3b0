(** * LexCode: the runs named in SpecCode, and the grammars. *)

From Verif Require Import Base Text Location Token Scanner Parser SpecLex SpecCode
  BaseFacts LexProofs ScanProofs LexTheorems.
Open Scope N_scope.

Lemma reading_lexes : forall file before s ts, reading file before s ts <-> lexes file before s ts.
Proof.
  intros file before s ts. unfold reading. change (standing file before s) with (at_ file before s).
  destruct (scan_fuel_lexes (S (length s)) file before s ltac:(lia)) as (ts' & E & L). rewrite E.
  split.
  - intros H. inversion H; subst. exact L.
  - intros H. f_equal. eapply lexes_det; eassumption.
Qed.

(** The states the scanner is in, from the start of the text, are of the form [standing]. *)
Lemma nexts_standing : forall n file before s ts, lexes file before s ts ->
  (n <= length ts)%nat -> existsb is_error_token (firstn n ts) = false ->
  exists m rest, s = m ++ rest /\
    nexts n (standing file before s) = Done (map Some (firstn n ts), standing file (before ++ m) rest) /\
    lexes file (before ++ m) rest (skipn n ts).
Proof.
  induction n as [|n IH]; intros file before s ts L Le Ne.
  - exists [], s. rewrite app_nil_r. repeat split. exact L.
  - change (standing file before s) with (at_ file before s). cbn [nexts].
    destruct ts as [|t0 ts]; [cbn in Le; lia|].
    pose proof (next_token_spec file before s) as H. destruct H as
      [sc B F | w s' k m rest t -> Hw -> Lx T | w s' k m rest e sc -> Hw Lx B F
       | w c s' sc -> Hw Hc St F]; cbn [bind].
    + exfalso. assert (E : t0 :: ts = []).
      { eapply lexes_det; [exact L|]. rewrite <- (app_nil_r s). apply lexes_blanks; [exact B | constructor]. }
      discriminate.
    + destruct (scan_fuel_lexes (S (length rest)) file ((before ++ w) ++ m) rest ltac:(lia))
        as (ts' & _ & L').
      assert (E : t0 :: ts = t :: ts').
      { eapply lexes_det; [exact L|]. apply lexes_blanks; [exact Hw|]. eapply lex_token; eauto. }
      injection E as -> ->. cbn [firstn existsb] in Ne. apply orb_false_iff in Ne. destruct Ne as [_ Ne].
      destruct (IH _ _ _ _ L') as (m' & rest' & -> & N & L''); [cbn in Le; lia | exact Ne|].
      exists (w ++ m ++ m'), rest'. rewrite <- !app_assoc in *. split; [reflexivity|].
      change (standing file (before ++ w ++ m) (m' ++ rest')) with (at_ file (before ++ w ++ m) (m' ++ rest')) in N.
      rewrite N. cbn [bind firstn map skipn]. split; [reflexivity | exact L''].
    + exfalso. assert (E : t0 :: ts = [ErrorToken e (located file (before ++ w) m)]).
      { eapply lexes_det; [exact L|]. apply lexes_blanks; [exact Hw|]. eapply lex_bad; eauto. }
      injection E as -> ->. discriminate.
    + exfalso. assert (E : t0 :: ts = [ErrorToken (no_lexeme_error c) (located file (before ++ w) [c])]).
      { eapply lexes_det; [exact L|]. apply lexes_blanks; [exact Hw|]. apply lex_stuck; assumption. }
      injection E as -> ->. discriminate.
Qed.

Lemma scan_standing : forall file s ts n, scan file s = Done ts -> (n <= length ts)%nat ->
  existsb is_error_token (firstn n ts) = false ->
  exists before rest, s = before ++ rest /\
    nexts n (scanner_new file s) = Done (map Some (firstn n ts), standing file before rest) /\
    reading file before rest (skipn n ts).
Proof.
  intros file s ts n S Le Ne. apply scan_lexes in S.
  destruct (nexts_standing n file [] s ts S Le Ne) as (m & rest & -> & N & L).
  exists m, rest. split; [reflexivity|]. split; [exact N | apply reading_lexes; exact L].
Qed.
