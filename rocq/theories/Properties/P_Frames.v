(** C76: executing functions leaves the session as it was. *)
From Verif.Lib Require Import Py.
From Verif.Model Require Import Frames.
From Verif.Spec Require Import FramesSpec.
From Verif.Proofs Require Import FramesP.

Definition start : fstate := FState [] [] (fun _ => []) 0 0.
Definition fail_at (k : kind) (n : nat) : kind -> nat -> bool := fun k' m =>
  match k, k' with KAttempt, KAttempt | KOutput, KOutput | KCrash, KCrash | KOther, KOther => m =? n | _, _ => false end.

(** Whatever raises or is interrupted inside function bodies, guards, packing of arguments or the storing of results, at
    any depth and however often, the entered portals, the output streams and the frames of all functions are as before,
    provided that the library's own records of attempts, outputs and crashes can be written. *)
Theorem C76_session_restored_partial : forall faults,
  reliable faults KAttempt -> reliable faults KOutput -> reliable faults KCrash ->
  forall pr s, same_session s (fst (run faults pr s)).
Proof. intros faults Ha Ho Hc pr s. apply run_restores; done. Qed.
Print Assumptions C76_session_restored_partial.
(** The output streams are restored even if outputs and crashes cannot be recorded. *)
Theorem C76_streams_restored_partial : forall faults, reliable faults KAttempt ->
  forall pr s, stdout (fst (run faults pr s)) = stdout s.
Proof. intros faults Ha pr s. apply run_streams; done. Qed.
Print Assumptions C76_streams_restored_partial.
(** If recording the attempt fails, every execution leaves a portal entered, the output captured and a stale frame. *)
Theorem C76_attempt_failure_leaks_refuted : forall faults f p pre before body after s s1,
  run faults pre (set_opened (p :: opened s) s) = (s1, None) -> same_session (set_opened (p :: opened s) s) s1 ->
  faults KAttempt (clock s1) = true -> faults KCrash (S (clock s1)) = false ->
  exists s', run faults (FPure f p pre before body after) s = (s', Some true) /\
    opened s' = p :: opened s /\ stdout s' <> stdout s /\ length (frames s' f) = S (length (frames s f)).
Proof.
  intros faults f p pre before body after s s1 H1 H2 H3 H4.
  destruct (attempt_failure_leaks faults f p pre before body after s s1 H1 H2 H3 H4) as (s' & E & E1 & E2 & E3).
  exists s'. split_and!; try done; [rewrite E2|rewrite E3; done]. intros X. apply (f_equal length) in X. cbn in X. lia.
Qed.
Print Assumptions C76_attempt_failure_leaks_refuted.
(** The other two places: recording the output, and recording a crash while leaving a portal. *)
Theorem C76_output_failure_leaks_refuted : exists s' e, run (fail_at KOutput 2) (FPure 7 1 FAccess FSkip FSkip FSkip) start = (s', e)
  /\ opened s' = [1] /\ stdout s' = [] /\ frames s' 7 = [0].
Proof. eexists _, _. split; [reflexivity|]. split; [reflexivity|]. split; reflexivity. Qed.
Print Assumptions C76_output_failure_leaks_refuted.
Theorem C76_crash_failure_leaks_refuted : exists s' e, run (fail_at KCrash 0) (FTry (FWith 1 FRaise) FSkip) start = (s', e)
  /\ e = None /\ opened s' = [1].
Proof. eexists _, _. split; [reflexivity|]. split; reflexivity. Qed.
Print Assumptions C76_crash_failure_leaks_refuted.
(** If that happens while a call is left with an exception, the stale frame stays too. *)
Theorem C76_crash_failure_in_a_call_leaks_refuted : exists s' e, run (fail_at KCrash 2) (FTry (FPure 7 1 FSkip FRaise FSkip FSkip) FSkip) start = (s', e)
  /\ e = None /\ opened s' = [1] /\ stdout s' = [] /\ frames s' 7 = [0].
Proof. eexists _, _. split; [reflexivity|]. split; [reflexivity|]. split; [reflexivity|]. split; reflexivity. Qed.
Print Assumptions C76_crash_failure_in_a_call_leaks_refuted.
(** After such a leak the next exit of another portal is noticed: a 'with' whose body left something else on top of the
    stack raises and leaves the stack alone. *)
Theorem C76_wrong_exit_is_noticed : forall faults p body s s1 e1 s' e, run faults body (set_opened (p :: opened s) s) = (s1, e1) ->
  head (opened s1) <> Some p -> run faults (FWith p body) s = (s', e) -> e <> None /\ opened s' = opened s1.
Proof.
  intros faults p body s s1 e1 s' e H1 H2 H3. cbn in H3. unfold with_portal in H3. rewrite H1 in H3.
  assert (Hp : forall e0 s0, head (opened s0) <> Some p -> pop_portal p e0 s0 = (s0, Some false, true)).
  { intros e0 s0 H. unfold pop_portal. destruct (opened s0) as [|q l]; [done|]. rewrite decide_False; [done|]. intros ->. done. }
  unfold exit_portal in H3. destruct e1 as [[]|].
  - rewrite Hp in H3 by done. by injection H3 as <- <-.
  - destruct (access faults KCrash s1) as [s2 [x|]] eqn:Ea; unfold access in Ea; injection Ea as <- Ea.
    + by injection H3 as <- <-.
    + rewrite Hp in H3 by done. by injection H3 as <- <-.
  - rewrite Hp in H3 by done. by injection H3 as <- <-.
Qed.
Print Assumptions C76_wrong_exit_is_noticed.
Example C76_wrong_exit_example : run (fail_at KCrash 0) (FWith 2 (FTry (FWith 1 FRaise) FSkip)) start =
  (FState [1; 2] [] (fun _ => []) 1 0, Some false).
Proof. reflexivity. Qed.
(** Nothing is swallowed on the way: if a program without try-blocks ends normally, then no access has failed (it went exactly
    as it goes when no access ever fails). *)
Fixpoint no_try (pr : fprog) : Prop :=
  match pr with
  | FSkip | FAccess | FRaise => True
  | FSeq p q => no_try p /\ no_try q
  | FTry _ _ => False
  | FWith _ b | FFunction b => no_try b
  | FPure _ _ a b c d => no_try a /\ no_try b /\ no_try c /\ no_try d
  end.
Theorem C76_no_failure_is_lost : forall faults pr s s', no_try pr -> run faults pr s = (s', None) ->
  run (fun _ _ => false) pr s = (s', None).
Proof.
  intros faults. set (ff := fun (_ : kind) (_ : nat) => false).
  assert (Hacc : forall k s s', access faults k s = (s', None) -> access ff k s = (s', None)).
  { intros k s s' H. unfold access in *. by destruct (faults k (clock s)). }
  assert (Hexit : forall p e s s' b, exit_portal faults p e s = (s', None, b) -> exit_portal ff p e s = (s', None, b) /\ e = None).
  { intros p e s s' b H. unfold exit_portal in *. destruct e as [[]|].
    - unfold pop_portal in H. repeat case_match; simplify_eq.
    - destruct (access faults KCrash s) as [s1 [x|]]; [done|]. unfold pop_portal in H. repeat case_match; simplify_eq.
    - done. }
  assert (Hwith : forall p (b b' : fstate -> fstate * flight) s s', (forall t t', b t = (t', None) -> b' t = (t', None)) ->
    with_portal faults p b s = (s', None) -> with_portal ff p b' s = (s', None)).
  { intros p b b' s s' Hb H. unfold with_portal in *. destruct (b _) as [s1 e] eqn:E. destruct (exit_portal faults p e s1) as [[s2 e2] r] eqn:E2.
    injection H as -> ->. apply Hexit in E2 as [E2 ->]. rewrite (Hb _ _ E), E2. done. }
  assert (Hseq : forall (a b a' b' : fstate -> fstate * flight) s s', (forall t t', a t = (t', None) -> a' t = (t', None)) ->
    (forall t t', b t = (t', None) -> b' t = (t', None)) -> seq a b s = (s', None) -> seq a' b' s = (s', None)).
  { intros a b a' b' s s' Ha Hb H. unfold seq in *. destruct (a s) as [s1 [x|]] eqn:E; [done|]. rewrite (Ha _ _ E). auto. }
  assert (Hfun : forall (b b' : fstate -> fstate * flight) s s', (forall t t', b t = (t', None) -> b' t = (t', None)) ->
    function faults b s = (s', None) -> function ff b' s = (s', None)).
  { intros b b' s s' Hb H. unfold function in *. destruct (b s) as [s1 [[]|]] eqn:E; [done| |].
    - unfold access in H. by destruct (faults KCrash (clock s1)).
    - injection H as ->. by rewrite (Hb _ _ E). }
  assert (Hframe : forall f p (b b' : fstate -> fstate * flight) s s', (forall t t', b t = (t', None) -> b' t = (t', None)) ->
    frame faults f p b s = (s', None) -> frame ff f p b' s = (s', None)).
  { intros f p b b' s s' Hb H. unfold frame in *. cbv zeta in *.
    match goal with H : context [access faults KAttempt ?t] |- _ => destruct (access faults KAttempt t) as [s4 [x|]] eqn:E4; [done|] end.
    rewrite (Hacc _ _ _ E4). destruct (b s4) as [s5 e] eqn:E5.
    match goal with H : context [access faults KOutput ?t] |- _ => destruct (access faults KOutput t) as [s7 [x|]] eqn:E7; [done|] end.
    destruct (exit_portal faults p e s7) as [[s8 e8] r] eqn:E8.
    assert (e8 = None) as -> by (destruct r; by injection H). apply Hexit in E8 as [E8 ->]. rewrite (Hb _ _ E5), (Hacc _ _ _ E7), E8. done. }
  induction pr as [| | |p IHp q IHq|p IHp q IHq|p b IHb|b IHb|f p a IHa b IHb c IHc d IHd]; intros s s' Hn H; cbn [no_try] in Hn.
  - done.
  - by apply Hacc.
  - done.
  - destruct Hn. cbn in *. eapply Hseq; eauto.
  - done.
  - cbn in *. eapply Hwith; [|exact H]. eauto.
  - cbn in *. eapply Hfun; [|exact H]. eauto.
  - destruct Hn as (H1 & H2 & H3 & H4). cbn [run] in *. refine (Hwith _ _ _ _ _ _ H). intros t t' X. refine (Hseq _ _ _ _ _ _ _ _ X); [eauto|].
    intros t1 t2 Y. refine (Hframe _ _ _ _ _ _ _ Y). intros t3 t4 Z. refine (Hseq _ _ _ _ _ _ _ _ Z); [eauto|].
    intros t5 t6 U. refine (Hseq _ _ _ _ _ _ _ _ U); [|eauto].
    intros t7 t8 V. refine (Hwith _ _ _ _ _ _ V). intros t9 t10 W. refine (Hfun _ _ _ _ _ W). eauto.
Qed.
Print Assumptions C76_no_failure_is_lost.
(** An exception of the body of a function or with-block gets out of it. *)
Theorem C76_exceptions_get_out : forall faults body s x,
  (snd (run faults body s) = Some x -> snd (run faults (FFunction body) s) <> None) /\
  (forall p, snd (run faults body (set_opened (p :: opened s) s)) = Some x -> snd (run faults (FWith p body) s) <> None).
Proof.
  intros faults body s x. split.
  - cbn. unfold function, access. destruct (run faults body s) as [s1 e]. cbn. intros ->. by destruct x, (faults KCrash (clock s1)).
  - intros p. cbn. unfold with_portal, exit_portal, access, pop_portal. destruct (run faults body _) as [s1 e]. cbn. intros ->.
    destruct x; repeat case_match; simplify_eq; done.
Qed.
Print Assumptions C76_exceptions_get_out.
Example C76_no_failure_example : let prog := FPure 7 1 FAccess FAccess (FFunction (FWith 3 FAccess)) FAccess in
  no_try prog /\ snd (run (fail_at KOther 100) prog start) = None /\ snd (run (fail_at KOther 3) prog start) = Some true.
Proof. cbn. auto 20. Qed.
(** A program that meets the hypotheses: nested executions, failing accesses in the body, an exception caught in between. *)
Example C76_example :
  let prog := FPure 7 1 FAccess FAccess (FTry (FPure 8 2 FSkip FSkip (FSeq FAccess FAccess) FAccess) (FWith 3 FAccess)) FAccess in
  let faults := fun k n => match k with KOther => (n =? 5) || (n =? 12) | _ => false end in
  reliable faults KAttempt /\ reliable faults KOutput /\ reliable faults KCrash /\
  snd (run faults prog start) = None /\ clock (fst (run faults prog start)) = 11 /\
  snd (run (fun k n => match k with KOther => n <? 100 | _ => false end) prog start) = Some true.
Proof. cbn zeta. split_and!; [done|done|done|reflexivity|reflexivity|reflexivity]. Qed.
