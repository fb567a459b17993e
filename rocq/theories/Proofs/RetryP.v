From Verif.Lib Require Import Py.
From Verif.Model Require Import Retry.
From Coq Require Import QArith Lqa.
Local Open Scope nat_scope.

Lemma Qmax_spec a b : (a <= Qmax a b)%Q /\ (b <= Qmax a b)%Q /\ (Qmax a b = a \/ Qmax a b = b).
Proof.
  unfold Qmax. destruct (Qle_bool a b) eqn:E.
  - apply Qle_bool_iff in E. split; [done|]. split; [apply Qle_refl|]. by right.
  - assert (b < a)%Q. { apply Qnot_le_lt. intros H. apply Qle_bool_iff in H. congruence. }
    split; [apply Qle_refl|]. split; [lra|]. by left.
Qed.
Lemma latest_spec l : forall acc, (In (latest l acc) (acc :: l)) /\ forall x, In x (acc :: l) -> (x <= latest l acc)%Q.
Proof.
  induction l as [|y l IH]; intros acc; cbn [latest].
  - split; [by left|]. intros x [->|[]]. apply Qle_refl.
  - destruct (IH (Qmax acc y)) as [Hin Hle]. destruct (Qmax_spec acc y) as (H1 & H2 & H3). split.
    + destruct Hin as [Hin|Hin]; [rewrite <- Hin; destruct H3 as [->| ->]; cbn; auto|cbn; auto].
    + intros x [->|[->|Hx]].
      * eapply Qle_trans; [exact H1|]. apply Hle. by left.
      * eapply Qle_trans; [exact H2|]. apply Hle. by left.
      * apply Hle. by right.
Qed.

Lemma needs_execution_iff ready attempts now :
  needs_execution ready attempts now = true <->
  ready = false /\
  (attempts = [] \/
   (1 <= length attempts <= 5 /\
    exists t, In t attempts /\ (forall x, In x attempts -> (x <= t)%Q)
      /\ (10 * inject_Z (2 ^ Z.of_nat (length attempts)) < now - t)%Q)).
Proof.
  unfold needs_execution, MAX_EXECUTION_ATTEMPTS, DEFAULT_EXECUTION_TIME. destruct ready; [naive_solver|].
  destruct attempts as [|t ts]; [naive_solver|].
  destruct (latest_spec ts t) as [Hin Hle]. set (n := length (t :: ts)) in *.
  assert (Hn : 1 <= n) by (cbn in n; unfold n; lia).
  destruct (5 <? n) eqn:E5.
  - apply Nat.ltb_lt in E5. split; [done|]. intros [_ [?|[? _]]]; [done|lia].
  - apply Nat.ltb_ge in E5. rewrite negb_true_iff. split.
    + intros H. split; [done|]. right. split; [lia|]. exists (latest ts t). split; [done|]. split; [done|].
      apply Qnot_le_lt. intros Hc. apply Qle_bool_iff in Hc. congruence.
    + intros [_ [?|[_ (x & Hx & Hmax & Hlt)]]]; [done|].
      assert (x == latest ts t)%Q as Hxe. { apply Qle_antisym; auto. }
      destruct (Qle_bool _ _) eqn:Eq; [|done]. apply Qle_bool_iff in Eq. rewrite Hxe in Hlt. lra.
Qed.

Lemma six_never attempts ready now : 6 <= length attempts -> needs_execution ready attempts now = false.
Proof.
  intros H. destruct (needs_execution ready attempts now) eqn:E; [|done].
  apply needs_execution_iff in E as [_ [->|[? _]]]; [cbn in H; lia|lia].
Qed.

(** before the sixth attempt, waiting long enough makes the call a candidate *)
Lemma waits_enough attempts : length attempts <= 5 ->
  exists T, forall now, (T <= now)%Q -> needs_execution false attempts now = true.
Proof.
  intros H. destruct attempts as [|t ts]; [exists 0%Q; done|].
  destruct (latest_spec ts t) as [Hin Hle].
  exists (latest ts t + 10 * inject_Z (2 ^ Z.of_nat (length (t :: ts))) + 1)%Q. intros now Hnow.
  apply needs_execution_iff. split; [done|]. right. split; [cbn [length] in *; lia|].
  exists (latest ts t). split; [done|]. split; [done|]. lra.
Qed.
