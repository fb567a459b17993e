From Verif.Lib Require Import Py DictLemmas.
From Verif.Model Require Import FirstEntryConc.
From Verif.Spec Require Import FirstEntryConcSpec.
From Coq Require Import QArith.
Local Open Scope nat_scope.

Section P.
  Context {K V : Type} `{EqDecision K}.
  Variable same : V -> V -> bool.
  Notation proc := (proc K V).
  Notation config := (config K V).
  Implicit Types (c : config) (p : proc) (st : dict K V).

  Lemma mem_get k st : dict_mem k st = true <-> exists v, dict_get k st = Some v.
  Proof. unfold dict_mem. destruct (dict_get k st); naive_solver. Qed.
  Lemma mem_get_false k st : dict_mem k st = false <-> dict_get k st = None.
  Proof. unfold dict_mem. destruct (dict_get k st); naive_solver. Qed.

  Lemma first_write_app k (l1 l2 : list (K * V)) :
    first_write k (l1 ++ l2) = match first_write k l1 with Some v => Some v | None => first_write k l2 end.
  Proof. induction l1 as [|[k' v'] l1 IH]; cbn; [done|]. by case_decide. Qed.

  Lemma sys_run_app at_ c s1 s2 : sys_run same at_ c (s1 ++ s2) = sys_run same at_ (sys_run same at_ c s1) s2.
  Proof. unfold sys_run. by rewrite fold_left_app. Qed.

  (** ** identity of processes never changes *)
  Definition ident p := (p_key p, p_val p, p_check p, p_draw p).
  Lemma ident_step at_ c e : map ident (c_procs (sys_step same at_ c e)) = map ident (c_procs c).
  Proof.
    destruct e as [i|i]; cbn; destruct (c_procs c !! i) as [p|] eqn:E; try done.
    - destruct (proc_step _ _ _ _) as [[st w] x]. cbn. rewrite list_fmap_insert.
      apply list_insert_id. change (map ident (c_procs c) !! i = Some (ident (set_pc p x))).
      rewrite list_lookup_fmap, E. done.
    - destruct (p_pc p); try done; cbn; rewrite list_fmap_insert; apply list_insert_id;
      rewrite list_lookup_fmap, E; done.
  Qed.
  Lemma ident_run at_ s : forall c, map ident (c_procs (sys_run same at_ c s)) = map ident (c_procs c).
  Proof. induction s as [|e s IH]; intros c; cbn; [done|]. unfold sys_run in IH. by rewrite IH, ident_step. Qed.

  (** ** atomic backend *)
  Definition good_pc st p : Prop :=
    match p_pc p with
    | AtCheck false | AtWrite false | Dead => True
    | AtCheck true | AtAssert _ | AtCompare | Finished (Ok _) => dict_mem (p_key p) st = true
    | AtWrite true | AtCommit _ => False
    | Finished (Err e) => e = AssertionError /\ wants_check p = true
        /\ exists old, dict_get (p_key p) st = Some old /\ same old (p_val p) = false
    end.
  (** a comparison is only made when it was drawn *)
  Definition drawn p : Prop := p_pc p = AtCompare -> wants_check p = true.

  Record inv (st0 : dict K V) c : Prop := Inv {
    inv_store : forall k, dict_get k (c_store c) =
       match dict_get k st0 with Some v => Some v | None => first_write k (c_log c) end;
    inv_log : forall k, (length (List.filter (fun kv => bool_decide (fst kv = k)) (c_log c)) <=
       match dict_get k st0 with Some _ => 0 | None => 1 end);
    inv_pc : forall i p, c_procs c !! i = Some p -> good_pc (c_store c) p /\ drawn p
  }.

  Lemma good_mono st st' p : (forall k v, dict_get k st = Some v -> dict_get k st' = Some v) ->
    good_pc st p -> good_pc st' p.
  Proof.
    intros H. assert (Hm : forall k, dict_mem k st = true -> dict_mem k st' = true).
    { intros k (v & Hv)%mem_get. apply mem_get. eauto. }
    unfold good_pc. destruct (p_pc p) as [[]|[]| | | |[]|]; auto. naive_solver.
  Qed.

  Lemma first_write_None_filter k (l : list (K * V)) : first_write k l = None ->
    List.filter (fun kv => bool_decide (fst kv = k)) l = [].
  Proof.
    induction l as [|[k' v'] l IH]; cbn; [done|]. case_decide; [done|]. intros Hn.
    rewrite bool_decide_eq_false_2 by congruence. auto.
  Qed.

  Lemma inv_step st0 c e : inv st0 c -> inv st0 (sys_step same true c e).
  Proof.
    intros [Hs Hl Hp]. destruct e as [i|i]; cbn; destruct (c_procs c !! i) as [p|] eqn:E; try done.
    2:{ destruct (p_pc p) eqn:Epc; try done; split; cbn; auto;
        intros j q; rewrite list_lookup_insert_Some; intros [(<- & <- & _)|(_ & Hq)]; try (by apply (Hp j));
        by split; cbn. }
    destruct (Hp i p E) as [Hg Hd].
    destruct (proc_step same true (c_store c) p) as [[st w] x] eqn:Es.
    assert (Hcase : (st = c_store c /\ w = None) \/
       (w = Some (p_key p, p_val p) /\ st = dict_set (p_key p) (p_val p) (c_store c)
         /\ dict_mem (p_key p) (c_store c) = false)).
    { unfold proc_step in Es. unfold good_pc in Hg. destruct (p_pc p) as [r|r|r|n| |r|].
      - inversion Es; auto.
      - destruct (dict_mem _ _) eqn:Em; inversion Es; subst; auto.
      - done.
      - inversion Es; auto.
      - inversion Es; auto.
      - inversion Es; auto.
      - inversion Es; auto. }
    assert (Hmono : forall k v, dict_get k (c_store c) = Some v -> dict_get k st = Some v).
    { destruct Hcase as [[-> _]|(_ & -> & Hm)]; [done|]. intros k v Hv. rewrite dict_get_set.
      apply mem_get_false in Hm. case_decide; [congruence|done]. }
    assert (Hnew : good_pc st (set_pc p x) /\ drawn (set_pc p x)).
    { unfold proc_step in Es. unfold good_pc, drawn in *. cbn. destruct (p_pc p) as [r|r|r|n| |r|] eqn:Epc.
      - destruct (dict_mem _ _) eqn:Em; inversion Es; subst; cbn; [done|].
        destruct r; [congruence|done].
      - destruct r; [done|]. destruct (dict_mem _ _) eqn:Em; inversion Es; subst; cbn; [done|].
        split; [|done]. apply mem_get. exists (p_val p). by rewrite dict_get_set, decide_True.
      - done.
      - rewrite Hg in Es. destruct n; cbn in Es; [|inversion Es; subst; cbn; done].
        destruct (wants_check p) eqn:Ew; inversion Es; subst; cbn; done.
      - apply mem_get in Hg as (old & Hold). rewrite Hold in Es. destruct (same old (p_val p)) eqn:Esame; inversion Es; subst; cbn.
        + split; [|done]. apply mem_get; eauto.
        + split; [|done]. split; [done|]. split; [auto|]. eauto.
      - inversion Es; subst; cbn. done.
      - inversion Es; subst; cbn. done. }
    split; cbn.
    - intros k. destruct Hcase as [[-> ->]|(-> & -> & Hm)].
      + rewrite app_nil_r. auto.
      + rewrite dict_get_set, first_write_app. specialize (Hs k). cbn. apply mem_get_false in Hm.
        case_decide as Ek; [subst k|].
        * rewrite Hs in Hm. destruct (dict_get (p_key p) st0); [done|]. by rewrite Hm.
        * rewrite Hs. destruct (dict_get k st0); [done|]. by destruct (first_write k (c_log c)).
    - intros k. destruct Hcase as [[-> ->]|(-> & -> & Hm)].
      + rewrite app_nil_r. auto.
      + rewrite List.filter_app, app_length. cbn. case_bool_decide as Ek; [subst k|]; cbn; [|specialize (Hl k); lia].
        apply mem_get_false in Hm. rewrite Hs in Hm. specialize (Hl (p_key p)).
        destruct (dict_get (p_key p) st0); [done|]. rewrite (first_write_None_filter _ _ Hm). cbn. lia.
    - intros j q. rewrite list_lookup_insert_Some. intros [(<- & <- & _)|(_ & Hq)]; [done|].
      destruct (Hp j q Hq). split; [|done]. by apply (good_mono (c_store c)).
  Qed.

  Lemma inv_start st ps : inv st (start st ps).
  Proof.
    split; cbn.
    - intros k. by destruct (dict_get k st).
    - intros k. destruct (dict_get k st); lia.
    - intros i p. rewrite list_lookup_fmap. destruct (ps !! i) as [[[[k v] q] u]|]; [|done].
      cbn. intros [= <-]. by split.
  Qed.

  Lemma inv_run st0 s : forall c, inv st0 c -> inv st0 (sys_run same true c s).
  Proof. induction s as [|e s IH]; intros c Hc; cbn; [done|]. apply IH. by apply inv_step. Qed.

  Lemma first_write_wins st0 ps sched :
    let c := sys_run same true (start st0 ps) sched in
    forall k, dict_get k (c_store c) =
      match dict_get k st0 with Some v => Some v | None => first_write k (c_log c) end.
  Proof. intros c. apply (inv_store st0 c), inv_run, inv_start. Qed.

  Lemma at_most_one_write st0 ps sched k :
    let c := sys_run same true (start st0 ps) sched in
    length (List.filter (fun kv => bool_decide (fst kv = k)) (c_log c)) <=
      match dict_get k st0 with Some _ => 0 | None => 1 end.
  Proof. intros c. apply (inv_log st0 c), inv_run, inv_start. Qed.

  Lemma log_prefix at_ s : forall c, exists l, c_log (sys_run same at_ c s) = c_log c ++ l.
  Proof.
    induction s as [|e s IH]; intros c; cbn; [exists []; by rewrite app_nil_r|].
    destruct (IH (sys_step same at_ c e)) as [l Hl]. unfold sys_run in Hl. rewrite Hl.
    assert (exists l', c_log (sys_step same at_ c e) = c_log c ++ l') as [l' ->]; [|exists (l' ++ l); by rewrite app_assoc].
    destruct e as [i|i]; cbn; destruct (c_procs c !! i) as [p|]; try (exists []; by rewrite app_nil_r).
    - destruct (proc_step same at_ (c_store c) p) as [[st w] x]. by eexists.
    - destruct (p_pc p); exists []; by rewrite app_nil_r.
  Qed.

  Lemma append_only st0 ps s1 s2 k v :
    dict_get k (c_store (sys_run same true (start st0 ps) s1)) = Some v ->
    dict_get k (c_store (sys_run same true (start st0 ps) (s1 ++ s2))) = Some v.
  Proof.
    rewrite !first_write_wins, sys_run_app.
    destruct (log_prefix true s2 (sys_run same true (start st0 ps) s1)) as [l ->].
    rewrite first_write_app. destruct (dict_get k st0); [done|]. by intros ->.
  Qed.

  Lemma outcome st0 ps sched i p r :
    let c := sys_run same true (start st0 ps) sched in
    c_procs c !! i = Some p -> p_pc p = Finished r ->
    exists v, dict_get (p_key p) (c_store c) = Some v /\
      (r = Ok tt \/ (r = Err AssertionError /\ wants_check p = true /\ same v (p_val p) = false)).
  Proof.
    intros c Hi Hr. destruct (inv_pc st0 c (inv_run _ _ _ (inv_start _ _)) i p Hi) as [Hg _].
    unfold good_pc in Hg. rewrite Hr in Hg. destruct r as [[]|e].
    - apply mem_get in Hg as [v Hv]. eauto.
    - destruct Hg as (-> & Hw & old & Ho & Hs). eauto 10.
  Qed.

  Lemma outcome_drawn st0 ps sched i p r :
    let c := sys_run same true (start st0 ps) sched in
    c_procs c !! i = Some p -> p_pc p = Finished r ->
    exists v, dict_get (p_key p) (c_store c) = Some v /\
      (r = Ok tt \/ (r = Err AssertionError /\ same v (p_val p) = false /\
                     exists q, p_check p = Some q /\ (0 < q)%Q /\ (p_draw p < q)%Q)).
  Proof.
    intros c Hi Hr. destruct (outcome st0 ps sched i p r Hi Hr) as (v & Hv & Hc). exists v. split; [done|].
    destruct Hc as [?|(-> & Hw & Hs)]; [by left|]. right. split; [done|]. split; [done|]. unfold wants_check in Hw.
    destruct (p_check p) as [q|]; [|done]. exists q. split; [done|]. apply andb_true_iff in Hw as [H1 H2].
    split; apply Qnot_le_lt; intros Hle; apply Qle_bool_iff in Hle; [rewrite Hle in H1|rewrite Hle in H2]; done.
  Qed.
  Lemma finished_stays at_ i s : forall c p r, c_procs c !! i = Some p -> p_pc p = Finished r -> c_procs (sys_run same at_ c s) !! i = Some p.
  Proof.
    induction s as [|e s IH]; intros c p r Hi Hr; cbn; [done|]. eapply IH; [|exact Hr]. destruct e as [j|j]; cbn.
    - destruct (c_procs c !! j) as [pj|] eqn:Ej; [|done]. destruct (decide (j = i)) as [->|Hn].
      + rewrite Hi in Ej. injection Ej as <-. unfold proc_step. rewrite Hr. cbn. rewrite list_lookup_insert by (by eapply lookup_lt_Some).
        unfold set_pc. destruct p; cbn in *; congruence.
      + destruct (proc_step _ _ _ _) as [[? ?] ?]. cbn. by rewrite list_lookup_insert_ne.
    - destruct (c_procs c !! j) as [pj|] eqn:Ej; [|done]. destruct (decide (j = i)) as [->|Hn].
      + rewrite Hi in Ej. injection Ej as <-. by rewrite Hr.
      + destruct (p_pc pj); cbn; try done; by rewrite list_lookup_insert_ne.
  Qed.
  Lemma outcomes_stay at_ st0 (ps : list (K * V * option Q * Q)) s1 s2 i k v q u : ps !! i = Some (k, v, q, u) ->
    exists x, c_procs (sys_run same at_ (start st0 ps) s1) !! i = Some (Proc k v q u x) /\
      forall r, x = Finished r -> c_procs (sys_run same at_ (start st0 ps) (s1 ++ s2)) !! i = Some (Proc k v q u (Finished r)).
  Proof.
    intros E. pose proof (ident_run at_ s1 (start st0 ps)) as Hid.
    assert (E0 : map ident (c_procs (start st0 ps)) !! i = Some (ident (Proc k v q u (AtCheck false)))).
    { cbn. rewrite map_map, list_lookup_fmap, E. done. }
    rewrite <- Hid, list_lookup_fmap in E0. apply fmap_Some in E0 as ([k' v' q' u' x] & Ep & Eid). unfold ident in Eid. cbn in Eid. injection Eid as <- <- <- <-.
    exists x. split; [done|]. intros r ->. rewrite sys_run_app. by eapply finished_stays.
  Qed.

  (** ** progress *)
  Definition remaining p : nat :=
    match p_pc p with
    | AtCheck false => 7 | AtWrite false => 6 | AtCheck true => 5 | AtWrite true => 4 | AtCommit _ => 3
    | AtAssert _ => 2 | AtCompare => 1 | Finished _ | Dead => 0 end.
  Lemma remaining_step at_ st p : remaining (set_pc p (proc_step same at_ st p).2) <= pred (remaining p).
  Proof.
    unfold remaining, proc_step. destruct (p_pc p) as [[]|[]|[]|n| |r|]; cbn; try lia;
    try (destruct (dict_mem (p_key p) st); cbn; try lia; try (destruct at_; cbn; lia); try (destruct (n && _); cbn; lia));
    destruct (dict_get (p_key p) st); cbn; lia.
  Qed.
  Lemma step_not_dead at_ st p : p_pc p <> Dead -> p_pc (set_pc p (proc_step same at_ st p).2) <> Dead.
  Proof.
    unfold proc_step. destruct (p_pc p) as [[]|[]|[]|n| |r|]; cbn; try done;
    try (destruct (dict_mem (p_key p) st); cbn; try done; try (destruct at_; cbn; done); try (destruct (n && _); cbn; done));
    destruct (dict_get (p_key p) st); cbn; done.
  Qed.
  Definition is_run (i : nat) (e : event) : bool := match e with Run j => bool_decide (j = i) | Kill _ => false end.
  Lemma progress at_ i s : forall c p, c_procs c !! i = Some p -> p_pc p <> Dead -> Kill i ∉ s ->
    exists p', c_procs (sys_run same at_ c s) !! i = Some p' /\ p_pc p' <> Dead
      /\ remaining p' <= remaining p - length (List.filter (is_run i) s).
  Proof.
    induction s as [|e s IH]; intros c p Hp Hd Hk.
    { exists p. cbn. split; [done|]. split; [done|]. lia. }
    rewrite not_elem_of_cons in Hk. destruct Hk as [Hke Hk].
    assert (exists p1, c_procs (sys_step same at_ c e) !! i = Some p1 /\ p_pc p1 <> Dead
       /\ remaining p1 <= remaining p - (if is_run i e then 1 else 0)) as (p1 & H1 & Hd1 & Hr1).
    { destruct e as [j|j]; cbn.
      - destruct (bool_decide (j = i)) eqn:Eji; [apply bool_decide_eq_true in Eji; subst j|apply bool_decide_eq_false in Eji].
        + rewrite Hp. pose proof (remaining_step at_ (c_store c) p). pose proof (step_not_dead at_ (c_store c) p Hd).
          destruct (proc_step same at_ (c_store c) p) as [[st w] x]. cbn. exists (set_pc p x).
          rewrite list_lookup_insert by (by eapply lookup_lt_Some). split; [done|]. split; [done|]. cbn in *. lia.
        + exists p. destruct (c_procs c !! j) as [q|] eqn:Eq.
          * destruct (proc_step same at_ (c_store c) q) as [[st w] x]. cbn. rewrite list_lookup_insert_ne by done. split; [done|]. split; [done|]. lia.
          * split; [done|]. split; [done|]. lia.
      - exists p. assert (j <> i) by congruence. destruct (c_procs c !! j) as [q|] eqn:Eq; [destruct (p_pc q)|]; cbn;
        try rewrite list_lookup_insert_ne by done; split; try done; split; try done; lia. }
    destruct (IH (sys_step same at_ c e) p1 H1 Hd1 Hk) as (p' & ? & ? & Hr). exists p'. split; [done|]. split; [done|].
    cbn [List.filter]. destruct (is_run i e); cbn [length]; lia.
  Qed.
  Lemma finishes at_ st0 ps sched i : i < length ps -> Kill i ∉ sched ->
    7 <= length (List.filter (is_run i) sched) ->
    exists p r, c_procs (sys_run same at_ (start st0 ps) sched) !! i = Some p /\ p_pc p = Finished r.
  Proof.
    intros Hi Hk Hn. destruct (ps !! i) as [[[[k v] q] u]|] eqn:E; [|by apply lookup_ge_None in E; lia].
    destruct (progress at_ i sched (start st0 ps) (Proc k v q u (AtCheck false))) as (p' & Hp' & Hd & Hr); [|done|done|].
    { cbn. by rewrite list_lookup_fmap, E. }
    exists p'. change (remaining (Proc k v q u (AtCheck false))) with 7 in Hr. assert (remaining p' = 0) as H0 by lia.
    unfold remaining in H0. destruct (p_pc p') as [[]|[]|[]| | |r|] eqn:Ep; try done; try lia. by exists r.
  Qed.

  (** ** any backend, content-addressed keys *)
  Variable addr : V -> K.
  Definition content_ok st := forall k v, dict_get k st = Some v -> addr v = k.

  Record inv2 c : Prop := Inv2 {
    i2_store : content_ok (c_store c);
    i2_ids : forall i p, c_procs c !! i = Some p -> addr (p_val p) = p_key p;
    i2_pc : forall i p, c_procs c !! i = Some p ->
       match p_pc p with
       | AtCheck false | AtWrite false | AtCommit false | Dead => True
       | AtCheck true | AtAssert _ | AtCompare | Finished (Ok _) => dict_mem (p_key p) (c_store c) = true
       | AtWrite true | AtCommit true | Finished (Err _) => False
       end
  }.

  Hypothesis addr_inj : forall a b, addr a = addr b -> same a b = true.

  Lemma mem_set k k' v st : dict_mem k st = true -> dict_mem k (dict_set k' v st) = true.
  Proof. unfold dict_mem. rewrite dict_get_set. by case_decide. Qed.

  Lemma inv2_step at_ c e : inv2 c -> inv2 (sys_step same at_ c e).
  Proof.
    intros [Hs Hi Hp]. destruct e as [i|i]; cbn; destruct (c_procs c !! i) as [p|] eqn:E; try done.
    2:{ destruct (p_pc p) eqn:Epc; try done; split; cbn; auto;
        intros j q; rewrite list_lookup_insert_Some; intros [(<- & <- & _)|(_ & Hq)]; try (by apply (Hp j)); try (by apply (Hi j));
        try done; cbn; by apply (Hi i). }
    pose proof (Hp i p E) as Hg. pose proof (Hi i p E) as Hk.
    destruct (proc_step same at_ (c_store c) p) as [[st w] x] eqn:Es.
    assert (Hst : st = c_store c \/ st = dict_set (p_key p) (p_val p) (c_store c)).
    { unfold proc_step in Es. destruct (p_pc p); try (destruct (dict_mem _ _)); try destruct at_; inversion Es; subst; auto. }
    assert (Hmono : forall k, dict_mem k (c_store c) = true -> dict_mem k st = true).
    { destruct Hst as [->| ->]; auto using mem_set. }
    split; cbn.
    - destruct Hst as [->| ->]; [done|]. intros k v. rewrite dict_get_set. case_decide; [naive_solver|apply Hs].
    - intros j q. rewrite list_lookup_insert_Some. intros [(<- & <- & _)|(_ & Hq)]; [done|eauto].
    - intros j q. rewrite list_lookup_insert_Some. intros [(<- & <- & _)|(_ & Hq)].
      2:{ specialize (Hp j q Hq). destruct (p_pc q) as [[]|[]|[]| | |[]|]; auto. }
      unfold proc_step in Es. cbn. destruct (p_pc p) as [r|r|r|n| |r|] eqn:Epc.
      + destruct (dict_mem _ _) eqn:Em; inversion Es; subst; cbn; [done|]. destruct r; [congruence|done].
      + destruct r; [done|]. destruct (dict_mem _ _) eqn:Em; [|destruct at_]; inversion Es; subst; cbn; try done.
        unfold dict_mem. by rewrite dict_get_set, decide_True.
      + destruct r; [done|]. inversion Es; subst; cbn. unfold dict_mem. by rewrite dict_get_set, decide_True.
      + rewrite Hg in Es. destruct (n && _); inversion Es; subst; cbn; done.
      + destruct (proj1 (mem_get _ _) Hg) as (old & Hold). rewrite Hold in Es.
        rewrite addr_inj in Es by (rewrite Hk; by apply Hs). inversion Es; subst; cbn. done.
      + inversion Es; subst; cbn. done.
      + inversion Es; subst; cbn. done.
  Qed.

  Lemma inv2_run at_ s : forall c, inv2 c -> inv2 (sys_run same at_ c s).
  Proof. induction s as [|e s IH]; intros c Hc; cbn; [done|]. apply IH. by apply inv2_step. Qed.

  Lemma inv2_start st ps : content_ok st -> Forall (fun '(k, v, _, _) => addr v = k) ps -> inv2 (start st ps).
  Proof.
    intros Hs Hps. split; cbn; [done|..]; intros i p; rewrite list_lookup_fmap;
    destruct (ps !! i) as [[[[k v] q] u]|] eqn:E; try done; cbn; intros [= <-]; cbn.
    - by apply (Forall_lookup_1 _ _ _ _ Hps E).
    - done.
  Qed.

  Lemma content_safe at_ st ps sched : content_ok st -> Forall (fun '(k, v, _, _) => addr v = k) ps ->
    content_ok (c_store (sys_run same at_ (start st ps) sched)).
  Proof. intros. by apply i2_store, inv2_run, inv2_start. Qed.

  Lemma content_outcome at_ st ps sched i p r : content_ok st -> Forall (fun '(k, v, _, _) => addr v = k) ps ->
    let c := sys_run same at_ (start st ps) sched in
    c_procs c !! i = Some p -> p_pc p = Finished r -> r = Ok tt /\ dict_mem (p_key p) (c_store c) = true.
  Proof.
    intros Hs Hps c Hi Hr. pose proof (i2_pc _ (inv2_run at_ sched _ (inv2_start _ _ Hs Hps)) i p Hi) as Hg.
    rewrite Hr in Hg. destruct r as [[]|]; done.
  Qed.

  Lemma keys_kept at_ s : forall c k, dict_mem k (c_store c) = true -> dict_mem k (c_store (sys_run same at_ c s)) = true.
  Proof.
    induction s as [|e s IH]; intros c k Hk; cbn; [done|]. apply IH. destruct e as [i|i]; cbn; destruct (c_procs c !! i) as [p|]; try done.
    - unfold proc_step. destruct (p_pc p); try (destruct (dict_mem (p_key p) _)); try destruct at_; cbn; auto using mem_set.
    - by destruct (p_pc p).
  Qed.

  Lemma content_stable at_ st ps s1 s2 k v : (forall a b, addr a = addr b -> a = b) ->
    content_ok st -> Forall (fun '(k, v, _, _) => addr v = k) ps ->
    dict_get k (c_store (sys_run same at_ (start st ps) s1)) = Some v ->
    dict_get k (c_store (sys_run same at_ (start st ps) (s1 ++ s2))) = Some v.
  Proof.
    intros Hinj Hs Hps Hk. pose proof (content_safe at_ st ps (s1 ++ s2) Hs Hps k) as H2.
    pose proof (content_safe at_ st ps s1 Hs Hps k v Hk) as H1.
    assert (Hm : dict_mem k (c_store (sys_run same at_ (start st ps) (s1 ++ s2))) = true).
    { rewrite sys_run_app. apply keys_kept. apply mem_get. eauto. }
    apply mem_get in Hm as [v' Hv']. rewrite Hv'. f_equal. apply Hinj. rewrite H1. eauto.
  Qed.
End P.
