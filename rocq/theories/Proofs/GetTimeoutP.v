From Verif.Lib Require Import Py.
From Verif.Model Require Import GetTimeout.
From Coq Require Import QArith Lqa.
Local Open Scope Q_scope.

Lemma Qgtb_true a b : Qgtb a b = true <-> b < a.
Proof.
  unfold Qgtb. destruct (Qle_bool a b) eqn:E; cbn.
  - apply Qle_bool_iff in E. split; [done|]. intros. lra.
  - split; [|done]. intros _. apply Qnot_le_lt. intros H. apply Qle_bool_iff in H. congruence.
Qed.
Lemma Qgtb_false a b : Qgtb a b = false <-> a <= b.
Proof.
  unfold Qgtb. rewrite <- Qle_bool_iff. destruct (Qle_bool a b); naive_solver.
Qed.
Lemma Qmax1_ge b : 1 <= Qmax1 b /\ b <= Qmax1 b /\ (Qmax1 b == 1 \/ Qmax1 b == b).
Proof.
  unfold Qmax1. destruct (Qle_bool 1 b) eqn:E.
  - apply Qle_bool_iff in E. split; [done|]. split; [lra|]. right; lra.
  - assert (b < 1). { apply Qnot_le_lt. intros H. apply Qle_bool_iff in H. congruence. } split; [lra|]. split; [lra|]. left; lra.
Qed.

Definition qn (n : nat) : Q := inject_Z (Z.of_nat n).
Lemma qn_S n : qn (S n) == qn n + 1.
Proof. unfold qn. rewrite Nat2Z.inj_succ, <- Z.add_1_r, inject_Z_plus. reflexivity. Qed.
Lemma qn_0 : qn 0 == 0. Proof. reflexivity. Qed.
Lemma qn_le a b : qn a <= qn b <-> (a <= b)%nat.
Proof. unfold qn. rewrite <- Zle_Qle. lia. Qed.
Lemma qn_lt a b : qn a < qn b <-> (a < b)%nat.
Proof. unfold qn. rewrite <- Zlt_Qlt. lia. Qed.

Section P.
  Variable e : env.
  Hypothesis delay_nonneg : forall i, 0 <= e_delay e i.

  (** invariant of the loop with a stop time: clock, backoff *)
  Definition pre (start s : Q) (n : nat) (clock backoff : Q) (slept : list Q) : Prop :=
    clock <= s /\ start + qn n <= clock /\ 1 <= backoff /\ (clock + backoff <= s \/ backoff <= 1 \/ n = O)
    /\ backoff <= Qmax1 (s - clock) /\ length slept = n /\ Forall (fun b => 1 <= b) slept.

  Lemma loop_stop start s : forall fuel n clock backoff slept,
    pre start s n clock backoff slept ->
    let r := wait_loop e fuel n clock backoff (Some s) slept in
    match r_outcome r with
    | Returned => r_clock r <= s /\ r_requested r = false
        /\ exists i, e_ready e i = true
    | TimedOut => s < r_clock r /\ r_clock r <= s + 1 + e_delay e (pred (length (r_sleeps r)))
        /\ r_requested r = true /\ (forall i, (2 + n <= i < 2 + length (r_sleeps r))%nat -> e_ready e i = false)
        /\ (n < length (r_sleeps r))%nat
    | Rejected => False
    | StillWaiting => r_requested r = true /\ start + qn (n + fuel) <= r_clock r /\ r_clock r <= s
    end
    /\ Forall (fun b => 1 <= b) (r_sleeps r) /\ qn (length (r_sleeps r)) <= s - start + 1.
  Proof.
    induction fuel as [|fuel IH]; intros n clock backoff slept (Hc & Hn & Hb & _ & Hm & Hl & Hf); cbn [wait_loop].
    - cbn. rewrite Nat.add_0_r. split; [done|]. split; [done|]. rewrite Hl. lra.
    - destruct (e_ready e (2 + n)) eqn:Er.
      { cbn. split; [eauto|]. split; [done|]. rewrite Hl. lra. }
      specialize (delay_nonneg n) as Hd. set (clock' := clock + backoff + e_delay e n).
      set (b := backoff * 2 + e_jitter e n).
      set (b' := if Qgtb (clock' + b) s then s - clock' else b).
      assert (Hb' : b' <= s - clock').
      { unfold b'. destruct (Qgtb (clock' + b) s) eqn:E; [lra|]. apply Qgtb_false in E. lra. }
      assert (Hlen : length (slept ++ [backoff]) = S n) by (rewrite app_length; cbn; lia).
      assert (Hf' : Forall (fun b => 1 <= b) (slept ++ [backoff])) by (apply Forall_app; auto).
      destruct (Qgtb clock' s) eqn:Et.
      + apply Qgtb_true in Et. cbn. rewrite Hlen. split; [|split; [done|rewrite qn_S; lra]].
        split; [done|]. split; [|split; [done|]].
        * cbn. unfold clock'. destruct (Qmax1_ge (s - clock)) as (_ & _ & [H|H]); lra.
        * split; [|lia]. intros i Hi. assert (i = (2 + n)%nat) as -> by lia. done.
      + apply Qgtb_false in Et. specialize (IH (S n) clock' (Qmax1 b') (slept ++ [backoff])).
        destruct (Qmax1_ge b') as (H1 & H2 & H3). destruct (Qmax1_ge (s - clock')) as (H4 & H5 & H6).
        assert (Hpre : pre start s (S n) clock' (Qmax1 b') (slept ++ [backoff])).
        { unfold pre. split; [done|]. split; [rewrite qn_S; unfold clock'; lra|]. split; [done|].
          split; [destruct H3; [right; left; lra|left; lra]|]. split; [destruct H3; lra|]. done. }
        specialize (IH Hpre). cbn zeta in IH. destruct IH as [IH HF]. split; [|done].
        destruct (r_outcome _).
        * done.
        * destruct IH as (? & ? & ? & Hi & Hlt). split; [done|]. split; [done|]. split; [done|]. split; [|lia].
          intros i Hir. destruct (decide (i = (2 + n)%nat)) as [->|]; [done|]. apply Hi. lia.
        * done.
        * replace (n + S fuel)%nat with (S n + fuel)%nat by lia. done.
  Qed.

  Lemma get_timeout start t fuel cached requested : 0 <= t ->
    t < qn fuel ->
    let r := get e fuel start (Some t) cached requested in
    match r_outcome r with
    | Returned => (cached = true \/ exists i, e_ready e i = true) /\ r_clock r <= start + t
    | TimedOut => start + t < r_clock r
        /\ r_clock r <= start + t + 1 + e_delay e (pred (length (r_sleeps r)))
        /\ r_requested r = true /\ cached = false
        /\ forall i, (i < 2 + length (r_sleeps r))%nat -> e_ready e i = false
    | Rejected | StillWaiting => False
    end
    /\ Forall (fun b => 1 <= b) (r_sleeps r) /\ qn (length (r_sleeps r)) <= t + 1.
  Proof.
    intros Ht Hfuel. unfold get. rewrite (proj2 (Qgtb_false 0 t)) by done.
    assert (Hz : qn (length (@nil Q)) <= t + 1) by (cbn; rewrite qn_0; lra).
    destruct cached; [cbn; split; [split; [by left|lra]|auto]|].
    destruct (e_ready e 0) eqn:E0; [cbn; split; [split; [eauto|lra]|auto]|].
    destruct (e_ready e 1) eqn:E1; [cbn; split; [split; [eauto|lra]|auto]|].
    cbn [option_map].
    pose proof (loop_stop start (start + t) fuel 0 start 1 []) as H. cbn zeta in H.
    destruct H as (H & HF & HL).
    { unfold pre. split; [lra|]. split; [rewrite qn_0; lra|]. split; [lra|]. split; [by right; right|].
      split; [|auto]. destruct (Qmax1_ge (start + t - start)); lra. }
    split; [|split; [done|lra]].
    destruct (r_outcome _).
    - destruct H as (? & _ & ?). split; [by right|done].
    - destruct H as (? & ? & ? & Hi & _). split; [done|]. split; [done|]. split; [done|]. split; [done|].
      intros i Hlt. destruct i as [|[|i]]; [done|done|]. apply Hi. lia.
    - done.
    - destruct H as (_ & H1 & H2). cbn in H1. lra.
  Qed.

  (** without timeout *)
  Lemma loop_forever : forall fuel n clock backoff slept k, (n <= k)%nat ->
    e_ready e (2 + k) = true -> (forall i, (n <= i < k)%nat -> e_ready e (2 + i) = false) -> (k < n + fuel)%nat ->
    length slept = n ->
    let r := wait_loop e fuel n clock backoff None slept in
    r_outcome r = Returned /\ length (r_sleeps r) = k.
  Proof.
    induction fuel as [|fuel IH]; intros n clock backoff slept k Hk Hr Hb Hf Hl; [lia|]. cbn [wait_loop].
    destruct (decide (n = k)) as [->|Hne].
    - rewrite Hr. done.
    - rewrite (Hb n) by lia. apply IH; [lia|done|intros; apply Hb; lia|lia|rewrite app_length; cbn; lia].
  Qed.

  Lemma get_forever start k fuel requested :
    e_ready e k = true -> (forall i, (i < k)%nat -> e_ready e i = false) -> (k <= fuel)%nat ->
    let r := get e (S fuel) start None false requested in
    r_outcome r = Returned /\ length (r_sleeps r) = (k - 2)%nat.
  Proof.
    intros Hk Hb Hf. unfold get. cbn [option_map].
    destruct k as [|[|k]]; [by rewrite Hk|by rewrite (Hb 0%nat), Hk by lia|].
    rewrite (Hb 0%nat), (Hb 1%nat) by lia. replace (S (S k) - 2)%nat with k by lia. apply loop_forever; auto; try lia.
    intros i Hi. apply Hb. lia.
  Qed.

  Lemma loop_forever_no_timeout : forall fuel n clock backoff slept,
    let o := r_outcome (wait_loop e fuel n clock backoff None slept) in o = Returned \/ o = StillWaiting.
  Proof.
    induction fuel as [|fuel IH]; intros n clock backoff slept; cbn [wait_loop]; [by right|].
    destruct (e_ready e _); [by left|]. apply IH.
  Qed.
  Lemma get_no_timeout start fuel cached requested :
    let o := r_outcome (get e fuel start None cached requested) in o = Returned \/ o = StillWaiting.
  Proof.
    unfold get. destruct cached; [by left|]. destruct (e_ready e 0); [by left|]. destruct (e_ready e 1); [by left|].
    apply loop_forever_no_timeout.
  Qed.
End P.
