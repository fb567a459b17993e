(** Lemmas about Model/Frames.v. *)
From Verif.Lib Require Import Py.
From Verif.Model Require Import Frames.
From Verif.Spec Require Import FramesSpec.

Section P.
  Context (faults : kind -> nat -> bool).
  Notation run := (run faults).
  Lemma same_session_refl s : same_session s s. Proof. done. Qed.
  Lemma same_session_trans s1 s2 s3 : same_session s1 s2 -> same_session s2 s3 -> same_session s1 s3.
  Proof. intros (A & B & C) (A' & B' & C'). split_and!; [congruence..|]. intros f. rewrite C', C. done. Qed.
  Lemma access_ok k s : reliable faults k -> access faults k s = (tick s, None).
  Proof. unfold access. intros ->. done. Qed.

  Definition restores (b : fstate -> fstate * flight) : Prop := forall s, same_session s (fst (b s)).
  Lemma seq_restores a b : restores a -> restores b -> restores (seq a b).
  Proof.
    intros Ha Hb s. unfold seq. pose proof (Ha s) as H. destruct (a s) as [s1 [e|]]; cbn in *; [done|].
    eapply same_session_trans; [exact H|apply Hb].
  Qed.
  Section Reliable.
    Context (Hc : reliable faults KCrash).
    Lemma exit_portal_ok p e s l : opened s = p :: l ->
      exists s', exit_portal faults p e s = (s', match e with None => None | Some _ => Some true end, false) /\
        opened s' = l /\ stdout s' = stdout s /\ frames s' = frames s.
    Proof.
      intros H. unfold exit_portal. destruct e as [[|]|].
      - unfold pop_portal. rewrite H, decide_True by done. eauto.
      - rewrite access_ok by done. unfold pop_portal. cbn [opened tick]. rewrite H, decide_True by done. eexists. split; [done|]. done.
      - unfold pop_portal. rewrite H, decide_True by done. eauto.
    Qed.
    Lemma with_portal_restores p b : restores b -> restores (with_portal faults p b).
    Proof.
      intros Hb s. unfold with_portal. pose proof (Hb (set_opened (p :: opened s) s)) as (H1 & H2 & H3).
      destruct (b _) as [s1 e]. cbn in H1, H2, H3. destruct (exit_portal_ok p e s1 (opened s) H1) as (s2 & -> & E1 & E2 & E3).
      split_and!; cbn; [done|congruence|]. intros f. rewrite E3. apply H3.
    Qed.
    Lemma function_restores b : restores b -> restores (function faults b).
    Proof.
      intros Hb s. unfold function. pose proof (Hb s) as H. destruct (b s) as [s1 [[|]|]]; try done.
      rewrite access_ok by done. destruct H as (H1 & H2 & H3). done.
    Qed.
    Context (Ha : reliable faults KAttempt) (Ho : reliable faults KOutput).
    Lemma frame_restores f p b : restores b -> restores (frame faults f p b).
    Proof.
      intros Hb s. unfold frame. rewrite access_ok by done.
      set (s4 := tick _). pose proof (Hb s4) as (H1 & H2 & H3). destruct (b s4) as [s5 e]. cbn [fst] in H1, H2, H3.
      rewrite access_ok by done. destruct (exit_portal_ok p e (tick (set_stdout (stdout s) s5)) (opened s)) as (s8 & -> & E1 & E2 & E3).
      { cbn. rewrite H1. done. }
      split_and!; [done|cbn; rewrite E2; done|]. intros g. cbn. rewrite E3. cbn. rewrite !H3. cbn. destruct (decide (g = f)) as [->|]; [|done].
      rewrite decide_True by done. done.
    Qed.
    Lemma run_restores pr : restores (run pr).
    Proof.
      induction pr as [| | |p IHp q IHq|p IHp q IHq|p b IHb|b IHb|f p pre IH1 before IH2 body IH3 after IH4]; intros s; cbn [Frames.run].
      - apply same_session_refl.
      - done.
      - apply same_session_refl.
      - apply seq_restores; done.
      - pose proof (IHp s) as H. destruct (run p s) as [s1 [e|]]; cbn in *; [|done]. eapply same_session_trans; [exact H|apply IHq].
      - apply with_portal_restores; done.
      - apply function_restores; done.
      - apply with_portal_restores. apply seq_restores; [done|]. apply frame_restores. apply seq_restores; [done|].
        apply seq_restores; [|done]. apply with_portal_restores. apply function_restores. done.
    Qed.
  End Reliable.

  (** The streams alone need less. *)
  Section Streams.
    Context (Ha : reliable faults KAttempt).
    Definition keeps_streams (b : fstate -> fstate * flight) : Prop := forall s, stdout (fst (b s)) = stdout s.
    Lemma access_streams k s : stdout (fst (access faults k s)) = stdout s. Proof. done. Qed.
    Lemma exit_streams p e s : stdout (fst (fst (exit_portal faults p e s))) = stdout s.
    Proof.
      assert (H : forall e s, stdout (fst (fst (pop_portal p e s))) = stdout s).
      { intros e0 s0. unfold pop_portal. destruct (opened s0) as [|q l]; [done|]. destruct (decide (q = p)); done. }
      unfold exit_portal. destruct e as [[|]|]; [apply H| |apply H]. unfold access. destruct (faults _ _); [done|]. rewrite H. done.
    Qed.
    Lemma seq_streams a b : keeps_streams a -> keeps_streams b -> keeps_streams (seq a b).
    Proof. intros H1 H2 s. unfold seq. pose proof (H1 s) as H. destruct (a s) as [s1 [e|]]; cbn in *; [done|]. rewrite H2. done. Qed.
    Lemma with_streams p b : keeps_streams b -> keeps_streams (with_portal faults p b).
    Proof.
      intros H s. unfold with_portal. pose proof (H (set_opened (p :: opened s) s)) as H1. destruct (b _) as [s1 e]. cbn in H1.
      pose proof (exit_streams p e s1) as H2. destruct (exit_portal faults p e s1) as [[s2 e2] r]. cbn in *. congruence.
    Qed.
    Lemma function_streams b : keeps_streams b -> keeps_streams (function faults b).
    Proof.
      intros H s. unfold function. pose proof (H s) as H1. destruct (b s) as [s1 [[|]|]]; try done. unfold access.
      destruct (faults _ _); cbn in *; done.
    Qed.
    Lemma frame_streams f p b : keeps_streams b -> keeps_streams (frame faults f p b).
    Proof.
      intros H s. unfold frame. rewrite access_ok by done. destruct (b _) as [s5 e]. unfold access. destruct (faults KOutput _); [done|].
      pose proof (exit_streams p e (tick (set_stdout (stdout s) s5))) as H2. destruct (exit_portal _ _ _ _) as [[s8 e8] [|]]; cbn in *; done.
    Qed.
    Lemma run_streams pr : keeps_streams (run pr).
    Proof.
      induction pr as [| | |p IHp q IHq|p IHp q IHq|p b IHb|b IHb|f p pre IH1 before IH2 body IH3 after IH4]; intros s; cbn [Frames.run].
      - done.
      - done.
      - done.
      - apply seq_streams; done.
      - pose proof (IHp s) as H. destruct (run p s) as [s1 [e|]]; cbn in *; [|done]. rewrite IHq. done.
      - apply with_streams; done.
      - apply function_streams; done.
      - apply with_streams. apply seq_streams; [done|]. apply frame_streams. apply seq_streams; [done|].
        apply seq_streams; [|done]. apply with_streams. apply function_streams. done.
    Qed.
  End Streams.

  (** A failure to record the attempt always leaves everything behind. *)
  Lemma attempt_failure_leaks f p pre before body after s s1 : run pre (set_opened (p :: opened s) s) = (s1, None) ->
    same_session (set_opened (p :: opened s) s) s1 -> faults KAttempt (clock s1) = true -> faults KCrash (S (clock s1)) = false ->
    exists s', run (FPure f p pre before body after) s = (s', Some true) /\
      opened s' = p :: opened s /\ stdout s' = next_session s1 :: stdout s /\ frames s' f = next_session s1 :: frames s f.
  Proof.
    intros H1 (S1 & S2 & S3) H2 H3. cbn [Frames.run]. unfold with_portal at 1. unfold seq at 1. rewrite H1. unfold frame, access. cbn.
    rewrite H2. cbn. unfold exit_portal, access. cbn. rewrite H3. unfold pop_portal. cbn. rewrite decide_True by done.
    eexists. split; [done|]. cbn in *. split_and!; [congruence|congruence|]. rewrite decide_True by done. rewrite S3. done.
  Qed.
End P.
