From Verif.Lib Require Import Py DictLemmas.
From stdpp Require Import sets list_numbers.
From Verif.Model Require Import ResultCache.
From Verif.Spec Require Import ResultCacheSpec.

Section P.
  Context {A V : Type} `{EqDecision A}.
  Notation raddr := (raddr A V).
  Notation shared := (shared A V).
  Notation world := (world A V).
  Implicit Types (o : raddr) (s : shared) (w : world) (a : A) (v : V).

  Definition has s p a : Prop := exists v, dict_get a (ress s (place s p)) = Some v.
  Definition sinv s : Prop := forall l a v, dict_get a (ress s l) = Some v -> a ∈ sigs s l.
  Definition good s : Prop := sinv s /\ Forall (fun p => p < length (places s)) (open s).
  Definition oinv s o : Prop :=
    match ra_portal o with
    | None => ra_ready o = false /\ ra_result o = None /\ ra_call o = false
    | Some p => p < length (places s) /\ (ra_ready o = true -> has s p (ra_text o)) /\
                (ra_result o <> None -> has s p (ra_text o)) /\ (ra_call o = true -> ra_text o ∈ sigs s (place s p))
    end.
  Definition grow s s' : Prop :=
    (exists m, places s' = places s ++ m) /\ (forall l a, a ∈ sigs s l -> a ∈ sigs s' l) /\
    (forall l a v, dict_get a (ress s l) = Some v -> dict_get a (ress s' l) = Some v).
  Definition same_session s s' : Prop := open s' = open s /\ places s' = places s.

  Lemma dict_mem_get {X} a (d : dict A X) : dict_mem a d = true <-> exists x, dict_get a d = Some x.
  Proof. unfold dict_mem. destruct (dict_get a d); split; eauto; try done. by intros [? [=]]. Qed.
  Lemma dict_mem_no {X} a (d : dict A X) : dict_mem a d = false <-> dict_get a d = None.
  Proof. unfold dict_mem. by destruct (dict_get a d). Qed.

  Lemma grow_refl s : grow s s.
  Proof. split; [exists []; by rewrite app_nil_r|]. split; auto. Qed.
  Lemma grow_trans s1 s2 s3 : grow s1 s2 -> grow s2 s3 -> grow s1 s3.
  Proof.
    intros ((m & E) & Hs & Hr) ((m' & E') & Hs' & Hr'). split; [exists (m ++ m'); by rewrite E', E, app_assoc|]. split; auto.
  Qed.
  Lemma grow_place s s' p : grow s s' -> p < length (places s) -> place s' p = place s p.
  Proof. intros ((m & E) & _) Hp. unfold place. rewrite E. by apply app_nth1. Qed.
  Lemma grow_has s s' p a : grow s s' -> p < length (places s) -> has s p a -> has s' p a.
  Proof. intros Hg Hp [v Hv]. exists v. rewrite (grow_place _ _ _ Hg Hp). by apply Hg. Qed.
  Lemma grow_oinv s s' o : grow s s' -> oinv s o -> oinv s' o.
  Proof.
    unfold oinv. intros Hg. destruct (ra_portal o) as [p|]; [|done]. intros (Hp & H1 & H2 & H3).
    split; [destruct Hg as ((m & E) & _); rewrite E, app_length; lia|].
    split; [intros Hx; eapply grow_has; eauto|]. split; [intros Hx; eapply grow_has; eauto|].
    intros Hx. rewrite (grow_place _ _ _ Hg Hp). apply Hg; auto.
  Qed.

  (** ** Single updates *)
  Lemma put_sig_session l a s : same_session s (put_sig l a s).
  Proof. unfold put_sig. by case_bool_decide. Qed.
  Lemma put_res_session l a v s : same_session s (put_res l a v s).
  Proof. unfold put_res. by destruct (dict_mem _ _). Qed.
  Lemma put_sig_ress l a s : ress (put_sig l a s) = ress s.
  Proof. unfold put_sig. by case_bool_decide. Qed.
  Lemma put_res_sigs l a v s : sigs (put_res l a v s) = sigs s.
  Proof. unfold put_res. by destruct (dict_mem _ _). Qed.
  Lemma put_sig_sigs l a s l' a' : a' ∈ sigs (put_sig l a s) l' <-> a' ∈ sigs s l' \/ l' = l /\ a' = a.
  Proof.
    unfold put_sig. case_bool_decide as Hb; cbn.
    - split; [auto|]. by intros [|[-> ->]].
    - destruct (decide (l' = l)) as [->|Hn]; [|naive_solver]. rewrite elem_of_cons. naive_solver.
  Qed.
  Lemma put_sig_noop l a s : a ∈ sigs s l -> put_sig l a s = s.
  Proof. intros Hx. unfold put_sig. by rewrite bool_decide_eq_true_2. Qed.
  Lemma put_res_noop l a v s : (exists v', dict_get a (ress s l) = Some v') -> put_res l a v s = s.
  Proof. intros Hx%dict_mem_get. unfold put_res. by rewrite Hx. Qed.
  Lemma put_res_get l a v s l' a' : dict_get a' (ress (put_res l a v s) l') =
    if decide (l' = l /\ a' = a) then (match dict_get a (ress s l) with Some v' => Some v' | None => Some v end) else dict_get a' (ress s l').
  Proof.
    unfold put_res. destruct (dict_mem a (ress s l)) eqn:Em.
    - apply dict_mem_get in Em as [v' E]. destruct (decide _) as [[-> ->]|]; [by rewrite E|done].
    - apply dict_mem_no in Em. cbn. destruct (decide (l' = l)) as [->|Hl].
      + rewrite dict_get_set. destruct (decide (a' = a)) as [->|].
        * rewrite decide_True by done. by rewrite Em.
        * by rewrite decide_False by naive_solver.
      + by rewrite decide_False by naive_solver.
  Qed.
  Lemma put_sig_grow l a s : grow s (put_sig l a s).
  Proof.
    split; [exists []; rewrite app_nil_r; apply put_sig_session|]. split; [|by rewrite put_sig_ress].
    intros l' a' Hx. apply put_sig_sigs. by left.
  Qed.
  Lemma put_res_grow l a v s : grow s (put_res l a v s).
  Proof.
    split; [exists []; rewrite app_nil_r; apply put_res_session|]. split; [by rewrite put_res_sigs|].
    intros l' a' v' Hx. rewrite put_res_get. destruct (decide _) as [[-> ->]|]; [by rewrite Hx|done].
  Qed.
  Lemma put_sig_good l a s : good s -> good (put_sig l a s).
  Proof.
    intros [Hi Ho]. destruct (put_sig_session l a s) as [E1 E2]. split; [|by rewrite E1, E2].
    intros l' a' v' Hx. rewrite put_sig_ress in Hx. apply put_sig_sigs. left. by eapply Hi.
  Qed.
  Lemma put_res_good l a v s : a ∈ sigs s l -> good s -> good (put_res l a v s).
  Proof.
    intros Ha [Hi Ho]. destruct (put_res_session l a v s) as [E1 E2]. split; [|by rewrite E1, E2].
    intros l' a' v' Hx. rewrite put_res_sigs. rewrite put_res_get in Hx. destruct (decide _) as [[-> ->]|]; [done|by eapply Hi].
  Qed.
  Lemma put_both_good l a v s : good s -> good (put_sig l a (put_res l a v s)).
  Proof.
    intros [Hi Ho]. destruct (put_res_session l a v s) as [E1 E2]. destruct (put_sig_session l a (put_res l a v s)) as [E3 E4].
    split; [|by rewrite E3, E4, E1, E2]. intros l' a' v' Hx. rewrite put_sig_ress in Hx. apply put_sig_sigs. rewrite put_res_sigs.
    rewrite put_res_get in Hx. destruct (decide _) as [[-> ->]|]; [by right|]. left. by eapply Hi.
  Qed.
  Lemma put_call_facts x s : good s -> good (put_call x s) /\ grow s (put_call x s) /\ same_session s (put_call x s).
  Proof.
    destruct x as [[l a] v]. cbn. intros Hg. pose proof (put_sig_session l a s) as [E1 E2].
    pose proof (put_res_session l a v (put_sig l a s)) as [E3 E4]. split; [|split].
    - apply put_res_good; [|by apply put_sig_good]. apply put_sig_sigs. by right.
    - eapply grow_trans; [apply put_sig_grow|apply put_res_grow].
    - split; congruence.
  Qed.
  Lemma put_calls_facts xs : forall s, good s -> good (put_calls xs s) /\ grow s (put_calls xs s) /\ same_session s (put_calls xs s).
  Proof.
    induction xs as [|x xs IH]; intros s Hg; [split; [done|]; split; [apply grow_refl|done]|].
    change (put_calls (x :: xs) s) with (put_calls xs (put_call x s)).
    destruct (put_call_facts x s Hg) as (H1 & H2 & H3). destruct (IH _ H1) as (H4 & H5 & H6). split; [done|].
    split; [by eapply grow_trans|]. destruct H3, H6. split; congruence.
  Qed.

  Lemma session_place s s' p : same_session s s' -> place s' p = place s p.
  Proof. intros [_ E]. unfold place. by rewrite E. Qed.
  (** ** Searching *)
  Lemma elem_others cur s q : q ∈ others cur s <-> Some q <> cur /\ q < length (places s).
  Proof. unfold others. rewrite elem_of_list_filter, elem_of_seq. naive_solver lia. Qed.
  Lemma find_res_some qs a s v : find_res qs a s = Some v -> exists q, q ∈ qs /\ dict_get a (ress s (place s q)) = Some v.
  Proof.
    induction qs as [|q qs IH]; cbn; [done|]. destruct (dict_get a (ress s (place s q))) eqn:E.
    - intros [= <-]. exists q. split; [left|done].
    - intros Hx. destruct (IH Hx) as (q' & ? & ?). exists q'. split; [by right|done].
  Qed.
  Lemma find_res_none qs a s : find_res qs a s = None -> forall q, q ∈ qs -> ~ has s q a.
  Proof.
    induction qs as [|q qs IH]; cbn; [intros _ q Hq; by apply elem_of_nil in Hq|]. destruct (dict_get a (ress s (place s q))) eqn:E; [done|].
    intros Hx q' Hq [v Hv]. apply elem_of_cons in Hq as [->|Hq]; [congruence|]. by apply (IH Hx q' Hq); exists v.
  Qed.

  (** ** What each operation does, without caches *)
  Definition fresh_ready (cur : option nat) a p s : shared * bool :=
    if dict_mem a (ress s (place s p)) then (s, true)
    else match find_res (others cur s) a s with
         | None => (s, false)
         | Some v => (put_sig (place s p) a (put_res (place s p) a v s), true)
         end.
  Lemma fresh_ready_facts cur a p s s' b : good s -> p < length (places s) -> fresh_ready cur a p s = (s', b) ->
    good s' /\ grow s s' /\ same_session s s' /\
    (b = true /\ has s' p a /\ (has s p a /\ s' = s \/ exists q v, q ∈ others cur s /\ dict_get a (ress s (place s q)) = Some v /\
        dict_get a (ress s (place s p)) = None /\ dict_get a (ress s' (place s p)) = Some v)
     \/ b = false /\ s' = s /\ ~ has s p a /\ forall q, q ∈ others cur s -> ~ has s q a).
  Proof.
    intros Hg Hp. unfold fresh_ready. destruct (dict_mem a (ress s (place s p))) eqn:Em.
    { intros [= <- <-]. apply dict_mem_get in Em. split; [done|]. split; [apply grow_refl|]. split; [done|]. left. split; [done|].
      split; [done|]. by left. }
    apply dict_mem_no in Em. destruct (find_res _ a s) as [v|] eqn:Ef; intros [= <- <-].
    - apply find_res_some in Ef as (q & Hq & Hv). split; [by apply put_both_good|].
      split; [eapply grow_trans; [apply put_res_grow|apply put_sig_grow]|].
      assert (Hs : same_session s (put_sig (place s p) a (put_res (place s p) a v s))).
      { destruct (put_res_session (place s p) a v s), (put_sig_session (place s p) a (put_res (place s p) a v s)). split; congruence. }
      split; [done|]. left. split; [done|].
      assert (Hget : dict_get a (ress (put_sig (place s p) a (put_res (place s p) a v s)) (place s p)) = Some v).
      { rewrite put_sig_ress, put_res_get, decide_True by done. by rewrite Em. }
      split; [|right; by exists q, v]. exists v. by rewrite (session_place _ _ p Hs).
    - split; [done|]. split; [apply grow_refl|]. split; [done|]. right. split; [done|]. split; [done|].
      split; [intros [v Hv]; congruence|]. by apply find_res_none.
  Qed.

  Definition fresh_call a p s : shared * res unit :=
    if bool_decide (a ∈ sigs s (place s p)) then (s, Ok tt)
    else if existsb (fun q => bool_decide (a ∈ sigs s (place s q))) (others (Some p) s) then (put_sig (place s p) a s, Ok tt)
    else (s, Err KeyError).
  Lemma load_call_eq p o s : (ra_call o = true -> ra_text o ∈ sigs s (place s p)) ->
    load_call p o s = (fst (fresh_call (ra_text o) p s), match snd (fresh_call (ra_text o) p s) with Ok _ => set_call o | Err _ => o end,
                       snd (fresh_call (ra_text o) p s)).
  Proof.
    intros Hc. unfold load_call, fresh_call. destruct (ra_call o) eqn:Ec.
    - rewrite bool_decide_eq_true_2 by auto. cbn. unfold set_call. rewrite <- Ec. by destruct o.
    - case_bool_decide; [done|]. by destruct (existsb _ _).
  Qed.
  Lemma fresh_call_facts a p s s' r : good s -> fresh_call a p s = (s', r) ->
    good s' /\ grow s s' /\ same_session s s' /\ ress s' = ress s /\ (r = Ok tt /\ a ∈ sigs s' (place s p) \/ r = Err KeyError /\ s' = s /\
      forall q, q < length (places s) -> a ∉ sigs s (place s q)).
  Proof.
    intros Hg. unfold fresh_call. case_bool_decide as Hb; [|destruct (existsb _ _) eqn:Ee]; intros [= <- <-].
    - split; [done|]. split; [apply grow_refl|]. split; [done|]. split; [done|]. by left.
    - split; [by apply put_sig_good|]. split; [apply put_sig_grow|]. split; [apply put_sig_session|]. split; [apply put_sig_ress|].
      left. split; [done|]. apply put_sig_sigs. by right.
    - split; [done|]. split; [apply grow_refl|]. split; [done|]. split; [done|]. right. split; [done|]. split; [done|].
      intros q Hq Hin. destruct (decide (q = p)) as [->|Hn]; [done|].
      assert (existsb (fun q => bool_decide (a ∈ sigs s (place s q))) (others (Some p) s) = true); [|congruence].
      apply existsb_exists. exists q. split; [apply elem_of_list_In, elem_others; naive_solver|]. by apply bool_decide_eq_true_2.
  Qed.

  (** how an object may change in an operation *)
  Definition evolves s o o' : Prop :=
    ra_text o' = ra_text o /\ ra_portal o' = ra_portal (capture s o).
  Lemma capture_facts s o : good s -> oinv s o ->
    oinv s (capture s o) /\ ra_text (capture s o) = ra_text o /\ ra_ready (capture s o) = ra_ready o /\
    ra_result (capture s o) = ra_result o /\ ra_call (capture s o) = ra_call o /\ capture s (capture s o) = capture s o /\
    (ra_portal o <> None -> capture s o = o).
  Proof.
    intros [_ Ho] Hi. unfold capture. destruct (ra_portal o) as [p|] eqn:Ep; [rewrite Ep; split_and!; done|]. cbn.
    split; [|split_and!; try done].
    - unfold oinv in Hi |- *. rewrite Ep in Hi. cbn. destruct (current s) as [p|] eqn:Ec; [|done]. destruct Hi as (H1 & H2 & H3).
      rewrite H1, H2, H3. split_and!; try done. unfold current in Ec. destruct (open s); [done|]. injection Ec as ->.
      by apply Forall_cons in Ho as [? _].
    - by destruct (current s).
  Qed.
  Lemma capture_none s o : ra_portal (capture s o) = None -> capture s o = o.
  Proof. unfold capture. destruct o as [t [p|] r x c]; cbn; [done|]. by intros ->. Qed.
  Lemma oinv_bound s o p : oinv s o -> ra_portal o = Some p -> p < length (places s).
  Proof. unfold oinv. intros Hi E. rewrite E in Hi. apply Hi. Qed.

  Lemma ready_eq cur o s : good s -> oinv s o ->
    match ra_portal (capture s o) with
    | None => ready cur o s = (s, o, Err TypeError)
    | Some p => let '(s', b) := fresh_ready cur (ra_text o) p s in
        exists o', ready cur o s = (s', o', Ok b) /\ oinv s' o' /\ evolves s o o' /\ ra_result o' = ra_result o /\
                   (b = true -> ra_ready o' = true)
    end.
  Proof.
    intros Hg Hi. destruct (capture_facts s o Hg Hi) as (Hi' & Et & Er & Eres & Ec & Ecc & Eb).
    unfold ready. destruct (ra_ready o) eqn:Erd.
    - (* the flag is set *)
      assert (Hb : ra_portal o <> None).
      { unfold oinv in Hi. destruct (ra_portal o); [done|]. destruct Hi as [Hx _]. congruence. }
      rewrite (Eb Hb). destruct (ra_portal o) as [p|] eqn:Ep; [|done].
      pose proof Hi as Hi2. unfold oinv in Hi2. rewrite Ep in Hi2. destruct Hi2 as (Hp & Hr & _).
      unfold fresh_ready. rewrite (proj2 (dict_mem_get _ _) (Hr Erd)). exists o. split_and!; try done.
      unfold evolves. by rewrite (Eb (ltac:(congruence))).
    - set (o1 := capture s o) in *. destruct (ra_portal o1) as [p|] eqn:Ep.
      2: { unfold o1 in *. by rewrite (capture_none s o Ep). }
      pose proof Hi' as Hi2. unfold oinv in Hi2. rewrite Ep in Hi2. destruct Hi2 as (Hp & Hr & Hres & Hc).
      rewrite Et. unfold fresh_ready. destruct (dict_mem _ _) eqn:Em.
      + exists (set_ready o1). split; [done|]. split; [|split; [|split; [done|done]]].
        * unfold oinv. cbn. rewrite Ep. split; [done|]. split; [intros _; rewrite Et; by apply dict_mem_get|]. split; [done|done].
        * split; [done|]. unfold o1 in *. cbn. done.
      + destruct (find_res _ _ s) as [v|] eqn:Ef.
        * assert (Hcall : ra_call o1 = true -> ra_text o1 ∈ sigs (put_res (place s p) (ra_text o) v s) (place (put_res (place s p) (ra_text o) v s) p)).
          { intros Hx. rewrite put_res_sigs, (session_place s) by apply put_res_session. auto. }
          rewrite (load_call_eq p o1 _ Hcall).
          assert (Hf : fresh_call (ra_text o1) p (put_res (place s p) (ra_text o) v s) = (put_sig (place s p) (ra_text o) (put_res (place s p) (ra_text o) v s), Ok tt)).
          { unfold fresh_call. destruct (put_res_session (place s p) (ra_text o) v s) as [E1 E2].
            assert (Epl : forall q, place (put_res (place s p) (ra_text o) v s) q = place s q) by (intros q; apply session_place, put_res_session).
            rewrite Et, Epl. case_bool_decide as Hb; [by rewrite put_sig_noop|].
            apply find_res_some in Ef as (q & Hq & Hv). apply dict_mem_no in Em.
            assert (existsb (fun q => bool_decide (ra_text o ∈ sigs (put_res (place s p) (ra_text o) v s) (place (put_res (place s p) (ra_text o) v s) q)))
              (others (Some p) (put_res (place s p) (ra_text o) v s)) = true) as ->; [|done].
            apply existsb_exists. exists q. split.
            - apply elem_of_list_In, elem_others. apply elem_others in Hq as [_ Hq]. rewrite E2. split; [|done]. intros [= ->]. congruence.
            - apply bool_decide_eq_true_2. rewrite put_res_sigs, Epl. destruct Hg as [Hsi _]. by eapply Hsi. }
          rewrite Hf. cbn [fst snd]. exists (set_ready (set_call o1)). split; [done|].
          destruct (fresh_ready_facts cur (ra_text o) p s (put_sig (place s p) (ra_text o) (put_res (place s p) (ra_text o) v s)) true Hg Hp) as (Hg' & Hgr & Hses & Hcase).
          { unfold fresh_ready. rewrite Em. by rewrite Ef. }
          destruct Hcase as [(_ & Hh & _)|[? _]]; [|done].
          split; [|split; [|split; [done|done]]].
          -- unfold oinv. cbn. rewrite Ep. pose proof (session_place _ _ p Hses) as Epl. destruct Hses as [Ho2 Hpl]. rewrite Hpl. split; [done|]. rewrite Et. split; [done|]. split; [done|].
             intros _. rewrite Epl. apply put_sig_sigs. by right.
          -- split; [done|]. done.
        * exists o1. split_and!; try done.
  Qed.

  Definition fresh_get a p s : shared * res V :=
    let '(s', b) := fresh_ready (Some p) a p s in
    (s', if b then match dict_get a (ress s' (place s p)) with Some v => Ok v | None => Err KeyError end else Err TimeoutError).
  Lemma get_eq o s : good s -> oinv s o ->
    match ra_portal (capture s o) with
    | None => get o s = (s, o, Err TypeError)
    | Some p => let '(s', r) := fresh_get (ra_text o) p s in
        exists o' r', get o s = (s', o', r') /\ oinv s' o' /\ evolves s o o' /\
          (r' = r /\ (ra_result o = None -> ra_result o' = match r with Ok v => Some v | Err _ => None end)
           /\ (ra_result o <> None -> o' = o) \/ exists v, ra_result o = Some v /\ r' = Ok v /\ o' = o /\ s' = s)
    end.
  Proof.
    intros Hg Hi. destruct (capture_facts s o Hg Hi) as (Hi' & Et & Er & Eres & Ec & Ecc & Eb).
    unfold get. destruct (ra_result o) as [v|] eqn:Ev.
    - assert (Hb : ra_portal o <> None).
      { unfold oinv in Hi. destruct (ra_portal o); [done|]. destruct Hi as (_ & Hx & _). congruence. }
      rewrite (Eb Hb). destruct (ra_portal o) as [p|] eqn:Ep; [|done].
      pose proof Hi as Hi2. unfold oinv in Hi2. rewrite Ep in Hi2. destruct Hi2 as (Hp & _ & Hr & _).
      unfold fresh_get, fresh_ready. rewrite (proj2 (dict_mem_get _ _) (Hr ltac:(congruence))). exists o, (Ok v). split; [done|]. split; [done|].
      split; [by unfold evolves; rewrite (Eb ltac:(congruence))|]. right. by exists v.
    - set (o1 := capture s o) in *. destruct (ra_portal o1) as [p|] eqn:Ep.
      2: { unfold o1 in *. by rewrite (capture_none s o Ep). }
      pose proof (oinv_bound _ _ _ Hi' Ep) as Hp.
      pose proof (ready_eq (Some p) o1 s Hg Hi') as Hrd. rewrite Ecc, Ep, Et in Hrd.
      unfold fresh_get. destruct (fresh_ready (Some p) (ra_text o) p s) as [s' b] eqn:Ef.
      destruct Hrd as (o' & E & Hio & [He1 He2] & Hre & Hb). rewrite E.
      destruct (fresh_ready_facts (Some p) (ra_text o) p s s' b Hg Hp Ef) as (Hg' & Hgr & [Hs1 Hs2] & Hcase).
      assert (Epl : place s' p = place s p) by (unfold place; by rewrite Hs2).
      rewrite Ecc, Ep in He2.
      destruct Hcase as [(-> & Hh & _)|(-> & -> & _)].
      + rewrite Et. destruct Hh as [v Hv]. rewrite Epl in Hv |- *. rewrite Hv. exists (set_result v o'), (Ok v). split; [done|].
        split; [|split; [split; [cbn [set_result ra_text]; congruence|change (capture s o) with o1; cbn [set_result ra_portal]; congruence]|left; split; [done|]; split; done]].
        unfold oinv in Hio |- *. cbn. rewrite He2 in Hio |- *. destruct Hio as (X1 & X2 & X3 & X4). split; [done|]. split; [done|].
        split; [|done]. intros _. exists v. rewrite He1, Et, Epl. done.
      + exists o', (Err TimeoutError). split; [done|]. split; [done|]. split; [split; [congruence|change (capture s o) with o1; congruence]|]. left. split; [done|].
        split; [|done]. intros _. rewrite Hre, Eres. done.
  Qed.

  Definition fresh_exec (outcome : res V) (mid : list (nat * A * V)) a p s : shared * res V :=
    let '(s1, r1) := fresh_call a p s in
    match r1 with
    | Err e => (s1, Err e)
    | Ok _ =>
        let '(s', b) := fresh_ready (Some p) a p s1 in
        if b then (s', match dict_get a (ress s' (place s p)) with Some v => Ok v | None => Err KeyError end)
        else let s4 := put_calls mid s' in
             match outcome with
             | Ok v => (put_res (place s p) a v s4, Ok v)
             | Err e => (s4, Err e)
             end
    end.
  Lemma exec_eq outcome mid o s : good s -> oinv s o ->
    match ra_portal (capture s o) with
    | None => execute outcome mid o s = (s, o, Err TypeError)
    | Some p => let '(s', r) := fresh_exec outcome mid (ra_text o) p s in
        exists o' r', execute outcome mid o s = (s', o', r') /\ good s' /\ grow s s' /\ same_session s s' /\ oinv s' o' /\ evolves s o o' /\
          (ra_result o = None /\ r' = r /\ ra_result o' = match r with Ok v => Some v | Err _ => None end
           \/ exists v, ra_result o = Some v /\ r' = Ok v /\ o' = o /\ s' = s)
    end.
  Proof.
    intros Hg Hi. destruct (capture_facts s o Hg Hi) as (Hi' & Et & Er & Eres & Ec & Ecc & Eb).
    unfold execute. destruct (ra_result o) as [v|] eqn:Ev.
    - assert (Hb : ra_portal o <> None).
      { unfold oinv in Hi. destruct (ra_portal o); [done|]. destruct Hi as (_ & Hx & _). congruence. }
      rewrite (Eb Hb). destruct (ra_portal o) as [p|] eqn:Ep; [|done].
      pose proof Hi as Hi2. unfold oinv in Hi2. rewrite Ep in Hi2. destruct Hi2 as (Hp & _ & Hr & _). specialize (Hr ltac:(congruence)).
      assert (Hsig : ra_text o ∈ sigs s (place s p)) by (destruct Hr as [u Hu]; destruct Hg as [Hsi _]; by eapply Hsi).
      unfold fresh_exec, fresh_call. rewrite bool_decide_eq_true_2 by done.
      unfold fresh_ready. rewrite (proj2 (dict_mem_get _ _) Hr). exists o, (Ok v). split; [done|]. split; [done|]. split; [apply grow_refl|].
      split; [done|]. split; [done|]. split; [by unfold evolves; rewrite (Eb ltac:(congruence))|]. right. by exists v.
    - set (o1 := capture s o) in *. destruct (ra_portal o1) as [p|] eqn:Ep.
      2: { unfold o1 in *. by rewrite (capture_none s o Ep). }
      pose proof (oinv_bound _ _ _ Hi' Ep) as Hp.
      pose proof Hi' as Hi2. unfold oinv in Hi2. rewrite Ep in Hi2. destruct Hi2 as (_ & Hr & Hres & Hc).
      rewrite (load_call_eq p o1 s Hc). rewrite Et. unfold fresh_exec.
      destruct (fresh_call (ra_text o) p s) as [s1 r1] eqn:Efc. cbn [fst snd].
      destruct (fresh_call_facts _ _ _ _ _ Hg Efc) as (Hg1 & Hgr1 & [Hss1 Hss2] & Hrs & Hcase1).
      assert (Epl1 : place s1 p = place s p) by (unfold place; by rewrite Hss2).
      destruct Hcase1 as [[-> Hsig]|(-> & -> & _)].
      2: { exists o1, (Err KeyError). split_and!; try done. left. by split_and!. }
      rewrite Epl1, put_sig_noop by done.
      set (o2 := set_call o1).
      assert (Hi1 : oinv s1 o2).
      { unfold oinv. cbn. rewrite Ep, Hss2. split; [done|]. unfold has. rewrite Hrs, Epl1, Et. rewrite Et in Hr, Hres. split; [exact Hr|]. split; [exact Hres|done]. }
      set (tmp := RAddr (ra_text o) (Some p) false None true).
      assert (Hit : oinv s1 tmp).
      { unfold oinv. cbn. rewrite Hss2. split; [done|]. split; [done|]. split; [done|]. intros _. by rewrite Epl1. }
      pose proof (ready_eq (Some p) tmp s1 Hg1 Hit) as Hrd. cbn [tmp ra_portal capture ra_text] in Hrd.
      destruct (fresh_ready (Some p) (ra_text o) p s1) as [s' b] eqn:Ef.
      destruct Hrd as (t' & E & _ & _ & _ & _). fold tmp. rewrite E.
      destruct (fresh_ready_facts (Some p) (ra_text o) p s1 s' b Hg1 (ltac:(by rewrite Hss2)) Ef) as (Hg' & Hgr' & [Hsa Hsb] & Hcase).
      assert (Epl' : place s' p = place s p) by (unfold place; by rewrite Hsb, Hss2).
      assert (Hev : evolves s o o2) by (split; [done|done]).
      destruct b.
      + destruct Hcase as [(_ & [v Hv] & _)|[? _]]; [|done]. rewrite Epl' in Hv |- *. rewrite Hv.
        exists (set_result v o2), (Ok v). split; [done|]. split; [done|]. split; [by eapply grow_trans|]. split; [split; congruence|].
        split; [|split; [done|left; by split_and!]].
        apply (grow_oinv _ _ _ Hgr') in Hi1. unfold oinv in Hi1 |- *. cbn in Hi1 |- *. rewrite Ep in Hi1 |- *. destruct Hi1 as (X1 & X2 & X3 & X4).
        split; [done|]. split; [done|]. split; [|done]. intros _. exists v. rewrite Et, Epl'. done.
      + destruct (put_calls_facts mid s' Hg') as (Hg4 & Hgr4 & [Hs4a Hs4b]).
        assert (Epl4 : place (put_calls mid s') p = place s p) by (unfold place; by rewrite Hs4b, Hsb, Hss2).
        assert (Hgr14 : grow s1 (put_calls mid s')) by (by eapply grow_trans).
        destruct outcome as [v|e].
        * rewrite Epl4. exists (set_result v o2), (Ok v). split; [done|].
          assert (Hsig4 : ra_text o ∈ sigs (put_calls mid s') (place s p)) by (by apply Hgr14).
          split; [by apply put_res_good|]. split; [eapply grow_trans; [exact Hgr1|]; eapply grow_trans; [exact Hgr14|apply put_res_grow]|].
          destruct (put_res_session (place s p) (ra_text o) v (put_calls mid s')) as [Hs5a Hs5b].
          split; [split; congruence|]. split; [|split; [done|left; by split_and!]].
          assert (Hi5 : oinv (put_res (place s p) (ra_text o) v (put_calls mid s')) o2).
          { eapply grow_oinv; [|exact Hi1]. eapply grow_trans; [exact Hgr14|apply put_res_grow]. }
          unfold oinv in Hi5 |- *. cbn in Hi5 |- *. rewrite Ep in Hi5 |- *. destruct Hi5 as (X1 & X2 & X3 & X4).
          split; [done|]. split; [done|]. split; [|done]. intros _. unfold has.
          assert (place (put_res (place s p) (ra_text o) v (put_calls mid s')) p = place s p) as -> by (rewrite (session_place (put_calls mid s')) by apply put_res_session; done).
          rewrite Et, put_res_get, decide_True by done.
          destruct (dict_get (ra_text o) (ress (put_calls mid s') (place s p))); by eexists.
        * exists o2, (Err e). split; [done|]. split; [done|]. split; [by eapply grow_trans|]. split; [split; congruence|].
          split; [by eapply grow_oinv|]. split; [done|]. left. by split_and!.
  Qed.
  Lemma function_eq o s : good s -> oinv s o ->
    match ra_portal (capture s o) with
    | None => function o s = (s, o, Err TypeError)
    | Some p => let '(s', r) := fresh_call (ra_text o) p s in
        exists o', function o s = (s', o', r) /\ oinv s' o' /\ evolves s o o' /\ ra_result o' = ra_result o
    end.
  Proof.
    intros Hg Hi. destruct (capture_facts s o Hg Hi) as (Hi' & Et & Er & Eres & Ec & Ecc & Eb).
    unfold function. destruct (ra_call o) eqn:Ecl.
    - assert (Hb : ra_portal o <> None).
      { unfold oinv in Hi. destruct (ra_portal o); [done|]. destruct Hi as (_ & _ & Hx). congruence. }
      rewrite (Eb Hb). destruct (ra_portal o) as [p|] eqn:Ep; [|done].
      pose proof Hi as Hi2. unfold oinv in Hi2. rewrite Ep in Hi2. destruct Hi2 as (Hp & _ & _ & Hc).
      unfold fresh_call. rewrite bool_decide_eq_true_2 by auto. exists o. split_and!; try done. unfold evolves. by rewrite (Eb ltac:(congruence)).
    - set (o1 := capture s o) in *. destruct (ra_portal o1) as [p|] eqn:Ep.
      2: { unfold o1 in *. by rewrite (capture_none s o Ep). }
      pose proof Hi' as Hi2. unfold oinv in Hi2. rewrite Ep in Hi2. destruct Hi2 as (Hp & Hr & Hres & Hc).
      rewrite (load_call_eq p o1 s Hc), Et. destruct (fresh_call (ra_text o) p s) as [s' r] eqn:Ef. cbn [fst snd].
      destruct (fresh_call_facts _ _ _ _ _ Hg Ef) as (Hg1 & Hgr1 & [Hs1 Hs2] & Hrs & Hcase).
      assert (Hi1 : oinv s' o1) by (by eapply grow_oinv).
      destruct Hcase as [[-> Hsig]|(-> & -> & _)].
      + exists (set_call o1). split; [done|]. split; [|split; [done|done]].
        unfold oinv in Hi1 |- *. cbn. rewrite Ep in Hi1 |- *. destruct Hi1 as (X1 & X2 & X3 & X4). split; [done|]. split; [done|]. split; [done|].
        intros _. assert (place s' p = place s p) as -> by (unfold place; by rewrite Hs2). by rewrite Et.
      + exists o1. by split_and!.
  Qed.

  (** ** Histories *)
  Definition winv w : Prop := good (fst w) /\ Forall (oinv (fst w)) (snd w).
  Definition keeps w w' : Prop := forall i o, snd w !! i = Some o ->
    exists o', snd w' !! i = Some o' /\ ra_text o' = ra_text o /\ (forall p, ra_portal o = Some p -> ra_portal o' = Some p).
  Lemma keeps_refl w : keeps w w. Proof. intros i o E. eauto. Qed.
  Lemma keeps_trans w1 w2 w3 : keeps w1 w2 -> keeps w2 w3 -> keeps w1 w3.
  Proof.
    intros H1 H2 i o E. destruct (H1 i o E) as (o1 & E1 & T1 & P1). destruct (H2 i o1 E1) as (o2 & E2 & T2 & P2).
    exists o2. split; [done|]. split; [congruence|]. eauto.
  Qed.
  Lemma objs_grow s s' (os : list raddr) : grow s s' -> Forall (oinv s) os -> Forall (oinv s') os.
  Proof. intros Hg Ho. eapply Forall_impl; [exact Ho|]. intros o. by apply grow_oinv. Qed.
  (** a change of one object that keeps text and portal *)
  Definition small s o s' o' : Prop := good s' /\ grow s s' /\ same_session s s' /\ oinv s' o' /\ evolves s o o'.
  Lemma evolves_keeps s o o' p : evolves s o o' -> ra_portal o = Some p -> ra_portal o' = Some p.
  Proof. intros [_ E] Hp. rewrite E. unfold capture. by rewrite Hp. Qed.
  Lemma on_facts {X} i (f : raddr -> shared -> shared * raddr * X) wrap w : winv w ->
    (forall o s' o' x, snd w !! i = Some o -> f o (fst w) = (s', o', x) -> small (fst w) o s' o') ->
    let w' := fst (on i f wrap w) in winv w' /\ grow (fst w) (fst w') /\ keeps w w'.
  Proof.
    intros [Hg Ho] Hf. cbn zeta. unfold on. destruct (snd w !! i) as [o|] eqn:E; [|split; [done|]; split; [apply grow_refl|apply keeps_refl]].
    destruct (f o (fst w)) as [[s' o'] x] eqn:Ef. destruct (Hf o s' o' x eq_refl Ef) as (H1 & H2 & H3 & H4 & H5). cbn.
    split; [|split; [done|]].
    - split; [done|]. apply Forall_insert; [|done]. cbn. by eapply objs_grow.
    - intros j o0 Ej. cbn. destruct (decide (j = i)) as [->|Hn].
      + rewrite Ej in E. injection E as ->. exists o'. rewrite list_lookup_insert by (by eapply lookup_lt_Some).
        split; [done|]. split; [apply H5|]. intros p. by apply (evolves_keeps (fst w)).
      + rewrite list_lookup_insert_ne by done. eauto.
  Qed.
  Lemma evolves_refl s o : (ra_portal (capture s o) = None \/ ra_portal o <> None) -> evolves s o o.
  Proof.
    intros Hx. split; [done|]. unfold capture in *. destruct (ra_portal o) eqn:E; [done|]. cbn in *. by destruct Hx.
  Qed.
  Lemma ready_small cur o s s' o' r : good s -> oinv s o -> ready cur o s = (s', o', r) -> small s o s' o'.
  Proof.
    intros Hg Hi E. pose proof (ready_eq cur o s Hg Hi) as Hr. destruct (capture_facts s o Hg Hi) as (Hic & _).
    destruct (ra_portal (capture s o)) as [p|] eqn:Ep.
    - pose proof (oinv_bound _ _ _ Hic Ep) as Hp. destruct (fresh_ready cur (ra_text o) p s) as [s1 b] eqn:Ef. destruct Hr as (o1 & E' & H1 & H2 & _).
      rewrite E in E'. injection E' as -> -> ->. destruct (fresh_ready_facts _ _ _ _ _ _ Hg Hp Ef) as (X1 & X2 & X3 & _). done.
    - rewrite E in Hr. injection Hr as -> -> ->. split; [done|]. split; [apply grow_refl|]. split; [done|]. split; [done|]. apply evolves_refl. by left.
  Qed.
  Lemma get_small o s s' o' r : good s -> oinv s o -> get o s = (s', o', r) -> small s o s' o'.
  Proof.
    intros Hg Hi E. pose proof (get_eq o s Hg Hi) as Hr. destruct (capture_facts s o Hg Hi) as (Hic & _).
    destruct (ra_portal (capture s o)) as [p|] eqn:Ep.
    - pose proof (oinv_bound _ _ _ Hic Ep) as Hp. destruct (fresh_get (ra_text o) p s) as [s1 b] eqn:Ef. destruct Hr as (o1 & r1 & E' & H1 & H2 & _).
      rewrite E in E'. injection E' as -> -> ->. unfold fresh_get in Ef. destruct (fresh_ready _ _ _ _) as [s2 b2] eqn:Ef2. injection Ef as <- _.
      destruct (fresh_ready_facts _ _ _ _ _ _ Hg Hp Ef2) as (X1 & X2 & X3 & _). done.
    - rewrite E in Hr. injection Hr as -> -> ->. split; [done|]. split; [apply grow_refl|]. split; [done|]. split; [done|]. apply evolves_refl. by left.
  Qed.
  Lemma exec_small outcome mid o s s' o' r : good s -> oinv s o -> execute outcome mid o s = (s', o', r) -> small s o s' o'.
  Proof.
    intros Hg Hi E. pose proof (exec_eq outcome mid o s Hg Hi) as Hr. destruct (ra_portal (capture s o)) as [p|] eqn:Ep.
    - destruct (fresh_exec outcome mid (ra_text o) p s) as [s1 b] eqn:Ef. destruct Hr as (o1 & r1 & E' & X1 & X2 & X3 & H1 & H2 & _).
      rewrite E in E'. injection E' as -> -> ->. done.
    - rewrite E in Hr. injection Hr as -> -> ->. split; [done|]. split; [apply grow_refl|]. split; [done|]. split; [done|]. apply evolves_refl. by left.
  Qed.
  Lemma function_small o s s' o' r : good s -> oinv s o -> function o s = (s', o', r) -> small s o s' o'.
  Proof.
    intros Hg Hi E. pose proof (function_eq o s Hg Hi) as Hr. destruct (ra_portal (capture s o)) as [p|] eqn:Ep.
    - destruct (fresh_call (ra_text o) p s) as [s1 b] eqn:Ef. destruct Hr as (o1 & E' & H1 & H2 & _).
      rewrite E in E'. injection E' as -> -> ->. destruct (fresh_call_facts _ _ _ _ _ Hg Ef) as (X1 & X2 & X3 & _). done.
    - rewrite E in Hr. injection Hr as -> -> ->. split; [done|]. split; [apply grow_refl|]. split; [done|]. split; [done|]. apply evolves_refl. by left.
  Qed.
  Lemma winv_obj w i o : winv w -> snd w !! i = Some o -> oinv (fst w) o.
  Proof. intros [_ Ho] E. rewrite Forall_lookup in Ho. by eapply Ho. Qed.
  Lemma oinv_new s a p : p < length (places s) -> a ∈ sigs s (place s p) -> oinv s (RAddr a (Some p) false None true).
  Proof. intros H1 H2. unfold oinv. cbn. split; [done|]. split; [done|]. by split. Qed.
  Lemma step_facts w x : winv w -> let w' := fst (step w x) in winv w' /\ grow (fst w) (fst w') /\ keeps w w'.
  Proof.
    intros Hw. cbn zeta. destruct x as [l|p| |a p|i|i|i|i|i|i outcome mid|l a v]; cbn [step].
    - destruct Hw as [[Hs Ho] Hob]. cbn. assert (Hgr : grow (fst w) (Shared (open (fst w)) (places (fst w) ++ [l]) (sigs (fst w)) (ress (fst w)))).
      { split; [by exists [l]|]. split; auto. }
      split; [|split; [done|]; intros i o E; eauto]. split; [|by eapply objs_grow]. split; [done|]. cbn. eapply Forall_impl; [exact Ho|].
      cbn. intros q. rewrite app_length. cbn. lia.
    - destruct (p <? length (places (fst w))) eqn:Ep; [|split; [done|]; split; [apply grow_refl|apply keeps_refl]].
      destruct Hw as [[Hs Ho] Hob]. cbn. assert (Hgr : grow (fst w) (Shared (p :: open (fst w)) (places (fst w)) (sigs (fst w)) (ress (fst w)))).
      { split; [exists []; by rewrite app_nil_r|]. split; auto. }
      split; [|split; [done|]; intros i o E; eauto]. split; [|by eapply objs_grow]. split; [done|]. cbn. constructor; [|done]. by apply Nat.ltb_lt.
    - destruct Hw as [[Hs Ho] Hob]. cbn. assert (Hgr : grow (fst w) (Shared (tail (open (fst w))) (places (fst w)) (sigs (fst w)) (ress (fst w)))).
      { split; [exists []; by rewrite app_nil_r|]. split; auto. }
      split; [|split; [done|]; intros i o E; eauto]. split; [|by eapply objs_grow]. split; [done|]. cbn.
      destruct (open (fst w)); [done|]. by apply Forall_cons in Ho as [_ ?].
    - destruct (p <? length (places (fst w))) eqn:Ep; [|split; [done|]; split; [apply grow_refl|apply keeps_refl]].
      apply Nat.ltb_lt in Ep. destruct Hw as [Hg Hob]. cbn. pose proof (put_sig_grow (place (fst w) p) a (fst w)) as Hgr.
      pose proof (put_sig_session (place (fst w) p) a (fst w)) as Hse.
      split; [|split; [done|]].
      + split; [by apply put_sig_good|]. cbn. apply Forall_app. split; [by eapply objs_grow|]. apply Forall_singleton, oinv_new.
        * destruct Hse as [_ ->]. done.
        * rewrite (session_place _ _ p Hse). apply put_sig_sigs. by right.
      + intros i o E. cbn. exists o. split; [by apply lookup_app_l_Some|]. auto.
    - destruct (snd w !! i) as [o|] eqn:E; [|split; [done|]; split; [apply grow_refl|apply keeps_refl]].
      destruct Hw as [[Hs Hop] Hob]. cbn. split; [|split; [apply grow_refl|]].
      + split; [done|]. cbn. apply Forall_app. split; [done|]. apply Forall_singleton. unfold oinv. cbn. destruct (current (fst w)) as [p|] eqn:Ec; [|done].
        split; [|done]. unfold current in Ec. destruct (open (fst w)); [done|]. injection Ec as ->. by apply Forall_cons in Hop as [? _].
      + intros j o' Ej. cbn. exists o'. split; [by apply lookup_app_l_Some|]. auto.
    - destruct Hw as [Hg Hob]. unfold on. destruct (snd w !! i) as [o|] eqn:E; [|split; [done|]; split; [apply grow_refl|apply keeps_refl]]. cbn.
      assert (Hi : oinv (fst w) o) by (rewrite Forall_lookup in Hob; by eapply Hob).
      split; [|split; [apply grow_refl|]].
      + split; [done|]. cbn. apply Forall_insert; [done|]. unfold oinv in Hi |- *. cbn. destruct (ra_portal o); [|done]. split; [apply Hi|]. split; [done|]. split; done.
      + intros j o0 Ej. cbn. destruct (decide (j = i)) as [->|Hn].
        * rewrite Ej in E. injection E as ->. exists (invalidated o). rewrite list_lookup_insert by (by eapply lookup_lt_Some). auto.
        * rewrite list_lookup_insert_ne by done. eauto.
    - apply on_facts; [done|]. intros o s' o' r Eo Ef. cbn in Ef. eapply ready_small; [apply Hw|by eapply winv_obj|exact Ef].
    - apply on_facts; [done|]. intros o s' o' r Eo Ef. eapply get_small; [apply Hw|by eapply winv_obj|exact Ef].
    - apply on_facts; [done|]. intros o s' o' r Eo Ef. eapply function_small; [apply Hw|by eapply winv_obj|exact Ef].
    - apply on_facts; [done|]. intros o s' o' r Eo Ef. eapply exec_small; [apply Hw|by eapply winv_obj|exact Ef].
    - destruct Hw as [Hg Hob]. unfold session_only. cbn [fst snd]. destruct (put_call_facts (l, a, v) (fst w) Hg) as (H1 & H2 & H3).
      split; [split; [done|by eapply objs_grow]|]. split; [done|]. intros i o E. eauto.
  Qed.
  Lemma run_facts h : forall w, winv w -> winv (run w h) /\ grow (fst w) (fst (run w h)) /\ keeps w (run w h).
  Proof.
    induction h as [|x h IH]; intros w Hw; [split; [done|]; split; [apply grow_refl|apply keeps_refl]|].
    destruct (step_facts w x Hw) as (H1 & H2 & H3). destruct (IH _ H1) as (H4 & H5 & H6). cbn. split; [done|].
    split; [by eapply grow_trans|by eapply keeps_trans].
  Qed.
  Lemma init_inv sg st : proper_stores sg st -> winv (init_world sg st).
  Proof. intros Hp. split; [|constructor]. split; [exact Hp|constructor]. Qed.
  Lemma reachable_inv w : reachable w -> winv w.
  Proof. intros (sg & st & h & Hp & ->). by apply run_facts, init_inv. Qed.
  Lemma run_app w h1 h2 : run w (h1 ++ h2) = run (run w h1) h2.
  Proof. unfold run. by rewrite fold_left_app. Qed.

  (** ** Answers *)
  Lemma bound_later w i a p h : winv w -> bound_to w i a p -> bound_to (run w h) i a p.
  Proof.
    intros Hw (r & v & c & E). destruct (run_facts h w Hw) as (_ & _ & Hk). destruct (Hk i _ E) as ([t q r' v' c'] & E' & Ht & Hq).
    cbn in *. rewrite (Hq p eq_refl) in E'. subst t. by exists r', v', c'.
  Qed.
  Lemma has_later w p a h : winv w -> p < length (places (fst w)) -> has (fst w) p a -> has (fst (run w h)) p a.
  Proof. intros Hw Hp Hh. destruct (run_facts h w Hw) as (_ & Hg & _). by eapply grow_has. Qed.
  Lemma holds_later w p a v h : winv w -> holds w p a v -> holds (run w h) p a v.
  Proof.
    intros Hw [Hp Hv]. destruct (run_facts h w Hw) as (_ & Hg & _). split.
    - destruct Hg as ((m & E) & _). rewrite E, app_length. lia.
    - pose proof (grow_place _ _ _ Hg Hp) as Epl. unfold place in Epl. rewrite Epl. by apply Hg.
  Qed.
  Lemma holds_has w p a v : holds w p a v -> has (fst w) p a.
  Proof. intros [_ Hv]. by exists v. Qed.
  Lemma has_holds w p a : p < length (places (fst w)) -> has (fst w) p a -> exists v, holds w p a v.
  Proof. intros Hp [v Hv]. exists v. by split. Qed.
  Lemma bound_capture w i a p : bound_to w i a p -> exists o, snd w !! i = Some o /\ ra_text o = a /\ ra_portal o = Some p /\
    forall s, capture s o = o.
  Proof. intros (r & v & c & E). by eexists. Qed.
  Lemma bound_lt w i a p : winv w -> bound_to w i a p -> p < length (places (fst w)).
  Proof. intros Hw (r & v & c & E). apply (winv_obj _ _ _ Hw) in E. apply (oinv_bound _ _ _ E eq_refl). Qed.

  Lemma get_answer w i a p : winv w -> bound_to w i a p ->
    exists o, snd w !! i = Some o /\
    ((exists v, ra_result o = Some v /\ has (fst w) p a /\ step w (OGet i) = ((fst w, <[i := o]> (snd w)), Value (Ok v)))
     \/ ra_result o = None /\ exists w', step w (OGet i) = (w', Value (snd (fresh_get a p (fst w)))) /\ fst w' = fst (fresh_get a p (fst w))).
  Proof.
    intros Hw Hb. pose proof (bound_lt _ _ _ _ Hw Hb) as Hlt. destruct (bound_capture _ _ _ _ Hb) as (o & E & Et & Ep & Hc).
    pose proof (winv_obj _ _ _ Hw E) as Hi. exists o. split; [done|]. cbn [step]. unfold on. rewrite E.
    pose proof (get_eq o (fst w) (proj1 Hw) Hi) as Hg. rewrite Hc, Ep, Et in Hg.
    destruct (fresh_get a p (fst w)) as [s' r] eqn:Ef. destruct Hg as (o' & r' & Eg & _ & _ & Hcase). rewrite Eg.
    destruct (ra_result o) as [v|] eqn:Er.
    - left. exists v. split; [done|]. unfold oinv in Hi. rewrite Ep, Et in Hi. destruct Hi as (_ & _ & Hh & _). split; [apply Hh; congruence|].
      unfold get in Eg. rewrite Er in Eg. by injection Eg as <- <- <-.
    - right. split; [done|]. destruct Hcase as [(-> & _)|(v & [=] & _)]. eexists. split; [done|done].
  Qed.
  Lemma fresh_get_value a p s : good s -> p < length (places s) ->
    match snd (fresh_get a p s) with
    | Ok v => dict_get a (ress (fst (fresh_get a p s)) (place s p)) = Some v /\ same_session s (fst (fresh_get a p s)) /\
              exists q, q < length (places s) /\ dict_get a (ress s (place s q)) = Some v
    | Err e => e = TimeoutError /\ fst (fresh_get a p s) = s /\ forall q, q < length (places s) -> ~ has s q a
    end.
  Proof.
    intros Hg Hp. unfold fresh_get. destruct (fresh_ready (Some p) a p s) as [s' b] eqn:Ef.
    destruct (fresh_ready_facts _ _ _ _ _ _ Hg Hp Ef) as (H1 & H2 & H3 & Hcase). cbn [fst snd].
    destruct Hcase as [(-> & [v Hv] & Hc)|(-> & -> & Hno & Hq)].
    - rewrite (session_place _ _ p H3) in Hv. rewrite Hv. split; [done|]. split; [done|].
      destruct Hc as [[_ ->]|(q & v' & Hq & Hv' & _ & Hv2)]; [by exists p|]. exists q. apply elem_others in Hq as [_ Hq].
      split; [done|]. congruence.
    - split; [done|]. split; [done|]. intros q Hlt Hh. destruct (decide (q = p)) as [->|Hn]; [done|]. apply (Hq q); [|done].
      apply elem_others. split; [congruence|done].
  Qed.
  Lemma get_own_stored w i a p : winv w -> bound_to w i a p -> has (fst w) p a -> exists v, snd (step w (OGet i)) = Value (Ok v).
  Proof.
    intros Hw Hb Hh. pose proof (bound_lt _ _ _ _ Hw Hb) as Hlt. destruct (get_answer w i a p Hw Hb) as (o & E & [(v & _ & _ & Es)|(_ & w' & Es & _)]); rewrite Es; [by exists v|].
    pose proof (fresh_get_value a p (fst w) (proj1 Hw) Hlt) as Hf. cbn. destruct (snd (fresh_get a p (fst w))) as [v|e]; [by exists v|].
    destruct Hf as (_ & _ & Hno). by destruct (Hno p Hlt).
  Qed.
  Lemma ready_answer w i a p : winv w -> bound_to w i a p ->
    exists w', step w (OReady i) = (w', IsReady (Ok (snd (fresh_ready (current (fst w)) a p (fst w))))) /\
    fst w' = fst (fresh_ready (current (fst w)) a p (fst w)).
  Proof.
    intros Hw Hb. destruct (bound_capture _ _ _ _ Hb) as (o & E & Et & Ep & Hc).
    pose proof (winv_obj _ _ _ Hw E) as Hi. cbn [step]. unfold on. rewrite E.
    pose proof (ready_eq (current (fst w)) o (fst w) (proj1 Hw) Hi) as Hr. rewrite Hc, Ep, Et in Hr.
    destruct (fresh_ready (current (fst w)) a p (fst w)) as [s' b]. destruct Hr as (o' & -> & _). eexists. by split.
  Qed.
  Lemma ready_own_stored w i a p : winv w -> bound_to w i a p -> has (fst w) p a -> snd (step w (OReady i)) = IsReady (Ok true).
  Proof.
    intros Hw Hb Hh. destruct (ready_answer w i a p Hw Hb) as (w' & E & _). rewrite E. cbn. unfold fresh_ready.
    by rewrite (proj2 (dict_mem_get _ _) Hh).
  Qed.

  (** an answered object is bound and its portal has the result *)
  Lemma get_ok_bound w i w1 v : winv w -> step w (OGet i) = (w1, Value (Ok v)) -> exists a p, bound_to w1 i a p /\ has (fst w1) p a.
  Proof.
    intros Hw E. pose proof (step_facts w (OGet i) Hw) as (Hw1 & _). rewrite E in Hw1. cbn [fst] in Hw1.
    cbn [step] in E. unfold on in E. destruct (snd w !! i) as [o|] eqn:Eo; [|done].
    pose proof (winv_obj _ _ _ Hw Eo) as Hi. pose proof (get_eq o (fst w) (proj1 Hw) Hi) as Hg.
    destruct (capture_facts (fst w) o (proj1 Hw) Hi) as (Hic & _ & _ & _ & _ & _ & Eb).
    destruct (get o (fst w)) as [[s' o'] r] eqn:Eg. injection E as <- ->.
    destruct (ra_portal (capture (fst w) o)) as [p|] eqn:Ep; [|by injection Hg].
    pose proof (oinv_bound _ _ _ Hic Ep) as Hlt.
    destruct (fresh_get (ra_text o) p (fst w)) as [s1 r1] eqn:Ef. destruct Hg as (o1 & r1' & Eg1 & Ho1 & [He1 He2] & Hcase).
    injection Eg1 as <- <- <-. exists (ra_text o), p.
    assert (Hbt : bound_to (s', <[i:=o']> (snd w)) i (ra_text o) p).
    { exists (ra_ready o'), (ra_result o'), (ra_call o'). cbn. rewrite list_lookup_insert by (by eapply lookup_lt_Some). destruct o'; cbn in *. congruence. }
    split; [done|]. cbn.
    destruct Hcase as [(<- & _)|(v' & Hv' & _ & -> & ->)].
    - pose proof (fresh_get_value (ra_text o) p (fst w) (proj1 Hw) Hlt) as Hf. rewrite Ef in Hf. cbn in Hf. destruct Hf as (Hf & Hs & _).
      exists v. by rewrite (session_place _ _ p Hs).
    - unfold oinv in Hi. destruct (ra_portal o) as [q|] eqn:Eq; [|destruct Hi as (_ & Hx & _); congruence].
      rewrite (Eb ltac:(done)) in Ep. assert (q = p) as -> by congruence. apply Hi. congruence.
  Qed.
  Lemma ready_ok_bound w i w1 : winv w -> step w (OReady i) = (w1, IsReady (Ok true)) -> exists a p, bound_to w1 i a p /\ has (fst w1) p a.
  Proof.
    intros Hw E. cbn [step] in E. unfold on in E. destruct (snd w !! i) as [o|] eqn:Eo; [|done].
    pose proof (winv_obj _ _ _ Hw Eo) as Hi. pose proof (ready_eq (current (fst w)) o (fst w) (proj1 Hw) Hi) as Hg.
    destruct (capture_facts (fst w) o (proj1 Hw) Hi) as (Hic & _).
    destruct (ready (current (fst w)) o (fst w)) as [[s' o'] r] eqn:Eg. injection E as <- ->.
    destruct (ra_portal (capture (fst w) o)) as [p|] eqn:Ep; [|by injection Hg].
    pose proof (oinv_bound _ _ _ Hic Ep) as Hlt.
    destruct (fresh_ready _ (ra_text o) p (fst w)) as [s1 r1] eqn:Ef. destruct Hg as (o1 & Eg1 & Ho1 & [He1 He2] & _).
    injection Eg1 as <- <- <-. destruct (fresh_ready_facts _ _ _ _ _ _ (proj1 Hw) Hlt Ef) as (_ & _ & _ & Hcase).
    exists (ra_text o), p. split; [|by destruct Hcase as [(_ & ? & _)|[? _]]].
    exists (ra_ready o'), (ra_result o'), (ra_call o'). cbn. rewrite list_lookup_insert by (by eapply lookup_lt_Some). destruct o'; cbn in *. congruence.
  Qed.
  Lemma exec_ok_bound w i outcome mid w1 v : winv w -> step w (OExecute i outcome mid) = (w1, Value (Ok v)) -> exists a p, bound_to w1 i a p /\ has (fst w1) p a.
  Proof.
    intros Hw E. pose proof (step_facts w (OExecute i outcome mid) Hw) as (Hw1 & _). rewrite E in Hw1. cbn [fst] in Hw1.
    cbn [step] in E. unfold on in E. destruct (snd w !! i) as [o|] eqn:Eo; [|done].
    pose proof (winv_obj _ _ _ Hw Eo) as Hi. pose proof (exec_eq outcome mid o (fst w) (proj1 Hw) Hi) as Hg.
    destruct (execute outcome mid o (fst w)) as [[s' o'] r] eqn:Eg. injection E as <- ->.
    destruct (ra_portal (capture (fst w) o)) as [p|] eqn:Ep; [|by injection Hg].
    destruct (fresh_exec outcome mid (ra_text o) p (fst w)) as [s1 r1] eqn:Ef.
    destruct Hg as (o1 & r1' & Eg1 & _ & _ & _ & Ho1 & [He1 He2] & Hcase). injection Eg1 as <- <- <-. exists (ra_text o), p.
    assert (Hres : ra_result o' <> None).
    { destruct Hcase as [(_ & <- & ->)|(v' & Hv' & _ & -> & _)]; [done|congruence]. }
    split.
    - exists (ra_ready o'), (ra_result o'), (ra_call o'). cbn. rewrite list_lookup_insert by (by eapply lookup_lt_Some). destruct o'; cbn in *. congruence.
    - unfold oinv in Ho1. rewrite He2, Ep, He1 in Ho1. cbn. apply Ho1. done.
  Qed.

  (** ** Deterministic functions *)
  Section Det.
    Variable den : A -> V.
    Definition dstore s : Prop := store_agrees den (ress s).
    Definition dobj o : Prop := forall v, ra_result o = Some v -> v = den (ra_text o).
    Definition dinv w : Prop := dstore (fst w) /\ Forall dobj (snd w).
    Lemma put_sig_dstore l a s : dstore s -> dstore (put_sig l a s).
    Proof. intros Hd. unfold dstore. by rewrite put_sig_ress. Qed.
    Lemma put_res_dstore l a s : dstore s -> dstore (put_res l a (den a) s).
    Proof.
      intros Hd. unfold dstore, put_res. destruct (dict_mem a (ress s l)); [done|]. cbn. intros l' a' v'.
      destruct (decide (l' = l)) as [->|Hn]; [|by apply Hd]. rewrite dict_get_set. destruct (decide (a' = a)) as [->|Hn]; [by intros [= ->]|by apply Hd].
    Qed.
    Lemma put_calls_dstore mid : calls_agree den mid -> forall s, dstore s -> dstore (put_calls mid s).
    Proof.
      induction mid as [|[[l a] v] mid IH]; intros Hc s Hd; [done|]. cbn [put_calls fold_left]. apply IH.
      - intros l' a' v' Hin. eapply Hc. by right.
      - cbn. rewrite (Hc l a v) by left. by apply put_res_dstore, put_sig_dstore.
    Qed.
    Lemma fresh_ready_dstore cur a p s : dstore s -> dstore (fst (fresh_ready cur a p s)).
    Proof.
      intros Hd. unfold fresh_ready. destruct (dict_mem _ _); [done|]. destruct (find_res _ _ _) as [v|] eqn:E; [|done].
      apply find_res_some in E as (q & _ & Hv). rewrite (Hd _ _ _ Hv). cbn. by apply put_sig_dstore, put_res_dstore.
    Qed.
    Lemma fresh_get_dstore a p s : dstore s -> dstore (fst (fresh_get a p s)) /\ forall v, snd (fresh_get a p s) = Ok v -> v = den a.
    Proof.
      intros Hd. pose proof (fresh_ready_dstore (Some p) a p s Hd) as H. unfold fresh_get. destruct (fresh_ready _ _ _ _) as [s' []]; cbn in *; [|done].
      split; [done|]. intros v. destruct (dict_get _ _) eqn:E; [|done]. intros [= ->]. by eapply H.
    Qed.
    Lemma fresh_call_dstore a p s : dstore s -> dstore (fst (fresh_call a p s)).
    Proof. intros Hd. unfold fresh_call. repeat destruct (bool_decide _) || destruct (existsb _ _); try done; cbn; by apply put_sig_dstore. Qed.
    Lemma fresh_exec_dstore outcome mid a p s : dstore s -> calls_agree den mid -> (forall v, outcome = Ok v -> v = den a) ->
      dstore (fst (fresh_exec outcome mid a p s)) /\ forall v, snd (fresh_exec outcome mid a p s) = Ok v -> v = den a.
    Proof.
      intros Hd Hc Ho. unfold fresh_exec. pose proof (fresh_call_dstore a p s Hd) as Hd1. destruct (fresh_call a p s) as [s1 [[]|e]]; cbn in Hd1; [|done].
      pose proof (fresh_ready_dstore (Some p) a p s1 Hd1) as H. destruct (fresh_ready _ _ _ _) as [s' []]; cbn in *.
      - split; [done|]. intros v. destruct (dict_get _ _) eqn:E; [|done]. intros [= ->]. by eapply H.
      - pose proof (put_calls_dstore mid Hc s' H) as H'. destruct outcome as [v|e]; cbn; [|done]. rewrite (Ho v eq_refl). split; [by apply put_res_dstore|]. by intros v' [= ->].
    Qed.

    (** two sessions that differ in the caches only *)
    Definition like o o' : Prop := ra_text o' = ra_text o /\ ra_portal o' = ra_portal o.
    Definition sim w w' : Prop := fst w' = fst w /\ Forall2 like (snd w) (snd w') /\ winv w /\ winv w' /\ dinv w /\ dinv w'.
    Lemma like_capture s o o' : like o o' -> like (capture s o) (capture s o').
    Proof. intros [H1 H2]. unfold like, capture. rewrite H2. destruct (ra_portal o) eqn:E; [|done]. split; congruence. Qed.

    (** one operation on one object: the same new state and answer as without caches *)
    Definition clean {X} (f : raddr -> shared -> shared * raddr * X) (s : shared) (o : raddr) (s1 : shared) (x : X) : Prop :=
      exists o1, f o s = (s1, o1, x) /\ evolves s o o1 /\ dobj o1.
    Lemma on_sim {X} i (f : raddr -> shared -> shared * raddr * X) wrap w w' : sim w w' ->
      (forall o o', snd w !! i = Some o -> snd w' !! i = Some o' -> like o o' -> oinv (fst w) o -> oinv (fst w) o' -> dobj o -> dobj o' ->
         exists s1 x, clean f (fst w) o s1 x /\ clean f (fst w) o' s1 x /\ dstore s1) ->
      winv (fst (on i f wrap w)) -> winv (fst (on i f wrap w')) ->
      snd (on i f wrap w) = snd (on i f wrap w') /\ sim (fst (on i f wrap w)) (fst (on i f wrap w')).
    Proof.
      intros (Es & Hl & Hw & Hw' & Hd & Hd') Hf. unfold on. destruct (snd w !! i) as [o|] eqn:E.
      - destruct (Forall2_lookup_l _ _ _ _ _ Hl E) as (o' & E' & Ho). rewrite E', Es.
        assert (Hi : oinv (fst w) o) by (by eapply winv_obj). assert (Hi' : oinv (fst w) o') by (rewrite <- Es; by eapply winv_obj).
        destruct Hd as [Hds Hdo], Hd' as [Hds' Hdo'].
        assert (Hdo1 : dobj o) by (rewrite Forall_lookup in Hdo; by eapply Hdo). assert (Hdo2 : dobj o') by (rewrite Forall_lookup in Hdo'; by eapply Hdo').
        destruct (Hf o o' eq_refl E' Ho Hi Hi' Hdo1 Hdo2) as (s1 & x & (o1 & Ef1 & [T1 P1] & D1) & (o2 & Ef2 & [T2 P2] & D2) & Hs1).
        rewrite Ef1, Ef2. cbn. intros Hv1 Hv2. split; [done|]. split; [done|]. split.
        + apply Forall2_insert; [done|]. destruct (like_capture (fst w) _ _ Ho) as [L1 L2]. destruct Ho as [L3 L4]. split; congruence.
        + split; [done|]. split; [done|]. split; (split; [done|]; by apply Forall_insert).
      - assert (snd w' !! i = None) as ->. { apply lookup_ge_None. rewrite <- (Forall2_length _ _ _ Hl). by apply lookup_ge_None. }
        intros _ _. split; [done|]. done.
    Qed.
    Lemma ready_clean cur o s : good s -> oinv s o -> dobj o ->
      clean (ready cur) s o (match ra_portal (capture s o) with None => s | Some p => fst (fresh_ready cur (ra_text o) p s) end)
        (match ra_portal (capture s o) with None => Err TypeError | Some p => Ok (snd (fresh_ready cur (ra_text o) p s)) end).
    Proof.
      intros Hg Hi Hd. pose proof (ready_eq cur o s Hg Hi) as H. destruct (ra_portal (capture s o)) as [p|] eqn:Ep.
      - destruct (fresh_ready cur (ra_text o) p s) as [s1 b]. destruct H as (o1 & E & _ & Hev & Hr & _). exists o1. split; [done|]. split; [done|].
        unfold dobj. destruct Hev as [-> _]. by rewrite Hr.
      - exists o. split; [done|]. split; [|done]. apply evolves_refl. by left.
    Qed.
    Lemma get_clean o s : good s -> oinv s o -> dobj o -> dstore s ->
      clean get s o (match ra_portal (capture s o) with None => s | Some p => fst (fresh_get (ra_text o) p s) end)
        (match ra_portal (capture s o) with None => Err TypeError | Some p => snd (fresh_get (ra_text o) p s) end).
    Proof.
      intros Hg Hi Hd Hds. pose proof (get_eq o s Hg Hi) as H. destruct (capture_facts s o Hg Hi) as (Hic & _ & _ & _ & _ & _ & Eb).
      destruct (ra_portal (capture s o)) as [p|] eqn:Ep.
      - destruct (fresh_get_dstore (ra_text o) p s Hds) as [_ Hv]. pose proof (oinv_bound _ _ _ Hic Ep) as Hlt.
        pose proof (fresh_get_value (ra_text o) p s Hg Hlt) as Hval.
        destruct (fresh_get (ra_text o) p s) as [s1 r]. cbn [fst snd] in *. destruct H as (o1 & r' & E & _ & Hev & Hc). exists o1.
        destruct Hc as [(-> & Hn & Hs)|(v & Ev & -> & -> & ->)].
        + split; [done|]. split; [done|]. destruct (ra_result o) eqn:Er; [by rewrite Hs|]. destruct Hev as [Et _]. unfold dobj. rewrite Et, Hn by done. destruct r; [|done]. intros ? [= ->]. by apply Hv.
        + split; [|by split]. rewrite E. f_equal. rewrite (Hd v Ev). unfold oinv in Hi. destruct (ra_portal o) as [q|] eqn:Eq; [|destruct Hi as (_ & Hx & _); congruence].
          rewrite (Eb ltac:(done)) in Ep. assert (q = p) as -> by congruence. destruct Hi as (_ & _ & Hh & _). rewrite Ev in Hh.
          destruct r as [v'|e]; [by rewrite (Hv v' eq_refl)|]. destruct Hval as (_ & _ & Hno). destruct (Hno p Hlt). by apply Hh.
      - exists o. split; [done|]. split; [|done]. apply evolves_refl. by left.
    Qed.
    Lemma exec_clean outcome mid o s : good s -> oinv s o -> dobj o -> dstore s -> calls_agree den mid -> (forall v, outcome = Ok v -> v = den (ra_text o)) ->
      clean (execute outcome mid) s o (match ra_portal (capture s o) with None => s | Some p => fst (fresh_exec outcome mid (ra_text o) p s) end)
        (match ra_portal (capture s o) with None => Err TypeError | Some p => snd (fresh_exec outcome mid (ra_text o) p s) end).
    Proof.
      intros Hg Hi Hd Hds Hc Ho. pose proof (exec_eq outcome mid o s Hg Hi) as H. destruct (capture_facts s o Hg Hi) as (Hic & _ & _ & _ & _ & _ & Eb).
      destruct (ra_portal (capture s o)) as [p|] eqn:Ep.
      - destruct (fresh_exec_dstore outcome mid (ra_text o) p s Hds Hc Ho) as [_ Hv]. pose proof (oinv_bound _ _ _ Hic Ep) as Hlt.
        destruct (fresh_exec outcome mid (ra_text o) p s) as [s1 r] eqn:Ef. cbn [fst snd] in *. destruct H as (o1 & r' & E & _ & _ & _ & _ & Hev & Hcase). exists o1.
        destruct Hcase as [(_ & -> & Hres)|(v & Ev & -> & -> & ->)].
        + split; [done|]. split; [done|]. destruct Hev as [Et _]. unfold dobj. rewrite Et, Hres. destruct r; [|done]. intros ? [= ->]. by apply Hv.
        + split; [|by split]. rewrite E. f_equal. rewrite (Hd v Ev). unfold oinv in Hi. destruct (ra_portal o) as [q|] eqn:Eq; [|destruct Hi as (_ & Hx & _); congruence].
          rewrite (Eb ltac:(done)) in Ep. assert (q = p) as -> by congruence. destruct Hi as (_ & _ & Hh & _). rewrite Ev in Hh. destruct (Hh ltac:(done)) as [v1 Hv1].
          assert (r = Ok v1) as ->; [|by rewrite (Hv v1 eq_refl)]. unfold fresh_exec, fresh_call in Ef.
          rewrite bool_decide_eq_true_2 in Ef by (by eapply Hg). unfold fresh_ready in Ef. rewrite (proj2 (dict_mem_get _ _)) in Ef by eauto.
          rewrite Hv1 in Ef. by injection Ef.
      - exists o. split; [done|]. split; [|done]. apply evolves_refl. by left.
    Qed.
    Lemma function_clean o s : good s -> oinv s o -> dobj o ->
      clean function s o (match ra_portal (capture s o) with None => s | Some p => fst (fresh_call (ra_text o) p s) end)
        (match ra_portal (capture s o) with None => Err TypeError | Some p => snd (fresh_call (ra_text o) p s) end).
    Proof.
      intros Hg Hi Hd. pose proof (function_eq o s Hg Hi) as H. destruct (ra_portal (capture s o)) as [p|] eqn:Ep.
      - destruct (fresh_call (ra_text o) p s) as [s1 b]. destruct H as (o1 & E & _ & Hev & Hr). exists o1. split; [done|]. split; [done|].
        unfold dobj. destruct Hev as [-> _]. by rewrite Hr.
      - exists o. split; [done|]. split; [|done]. apply evolves_refl. by left.
    Qed.
    Lemma step_sim w w' x : sim w w' -> op_agrees den w x ->
      snd (step w x) = snd (step w' x) /\ sim (fst (step w x)) (fst (step w' x)).
    Proof.
      intros Hsim Hop. pose proof Hsim as (Es & Hl & Hw & Hw' & Hd & Hd').
      pose proof (proj1 (step_facts w x Hw)) as Hn. pose proof (proj1 (step_facts w' x Hw')) as Hn'.
      destruct x as [l|p| |a p|i|i|i|i|i|i outcome mid|l a v]; cbn [step] in *.
      - cbn in *. rewrite Es in *. split; [done|]. split; [done|]. split; [done|]. split; [done|]. split; [done|].
        split; [|split; [|apply Hd']]; [split; apply Hd|]. destruct Hd as [Hd _]. exact Hd.
      - rewrite Es in *. destruct (p <? _); [|done]. cbn in *. rewrite Es in *. split; [done|]. split; [done|]. split; [done|]. split; [done|]. split; [done|].
        split; [|split; [|apply Hd']]; [split; apply Hd|]. destruct Hd as [Hd _]. exact Hd.
      - cbn in *. rewrite Es in *. split; [done|]. split; [done|]. split; [done|]. split; [done|]. split; [done|].
        split; [|split; [|apply Hd']]; [split; apply Hd|]. destruct Hd as [Hd _]. exact Hd.
      - rewrite Es in *. destruct (p <? _); [|done]. cbn in *. split; [done|]. split; [done|]. cbn.
        split; [apply Forall2_app; [done|]; by repeat constructor|]. split; [done|]. split; [done|].
        assert (Hx : dstore (put_sig (place (fst w) p) a (fst w))) by (apply put_sig_dstore, Hd).
        split; (split; [done|]); cbn; (apply Forall_app; split; [apply Hd || apply Hd'|]); by apply Forall_singleton.
      - destruct (snd w !! i) as [o|] eqn:E.
        + destruct (Forall2_lookup_l _ _ _ _ _ Hl E) as (o' & E' & [T P]). rewrite E' in *. rewrite Es in *. cbn in *. split; [done|]. split; [done|]. cbn.
          split; [apply Forall2_app; [done|]; repeat constructor; done|]. split; [done|]. split; [done|].
          split; (split; [apply Hd|]); cbn; (apply Forall_app; split; [apply Hd || apply Hd'|]); by apply Forall_singleton.
        + assert (snd w' !! i = None) as ->; [|done]. apply lookup_ge_None. rewrite <- (Forall2_length _ _ _ Hl). by apply lookup_ge_None.
      - unfold on in *. destruct (snd w !! i) as [o|] eqn:E.
        + destruct (Forall2_lookup_l _ _ _ _ _ Hl E) as (o' & E' & [T P]). rewrite E' in *. cbn in *. split; [done|]. split; [done|]. cbn.
          split; [apply Forall2_insert; [done|]; by split|]. split; [done|]. split; [done|].
          split; (split; [apply Hd || apply Hd'|]); cbn; apply Forall_insert; try done; apply Hd || apply Hd'.
        + assert (snd w' !! i = None) as ->; [|done]. apply lookup_ge_None. rewrite <- (Forall2_length _ _ _ Hl). by apply lookup_ge_None.
      - apply on_sim; try done. intros o o' _ _ Hk Hi Hi' Ho Ho'.
        pose proof (ready_clean (current (fst w)) o (fst w) (proj1 Hw) Hi Ho) as C1. pose proof (ready_clean (current (fst w)) o' (fst w) (proj1 Hw) Hi' Ho') as C2.
        destruct (like_capture (fst w) _ _ Hk) as [_ L]. destruct Hk as [T _]. rewrite L, T in C2. eexists _, _. split; [exact C1|]. split; [exact C2|].
        destruct (ra_portal (capture (fst w) o)); [|apply Hd]. apply fresh_ready_dstore, Hd.
      - apply on_sim; try done. intros o o' _ _ Hk Hi Hi' Ho Ho'.
        pose proof (get_clean o (fst w) (proj1 Hw) Hi Ho (proj1 Hd)) as C1. pose proof (get_clean o' (fst w) (proj1 Hw) Hi' Ho' (proj1 Hd)) as C2.
        destruct (like_capture (fst w) _ _ Hk) as [_ L]. destruct Hk as [T _]. rewrite L, T in C2. eexists _, _. split; [exact C1|]. split; [exact C2|].
        destruct (ra_portal (capture (fst w) o)); [|apply Hd]. apply fresh_get_dstore, Hd.
      - apply on_sim; try done. intros o o' _ _ Hk Hi Hi' Ho Ho'.
        pose proof (function_clean o (fst w) (proj1 Hw) Hi Ho) as C1. pose proof (function_clean o' (fst w) (proj1 Hw) Hi' Ho') as C2.
        destruct (like_capture (fst w) _ _ Hk) as [_ L]. destruct Hk as [T _]. rewrite L, T in C2. eexists _, _. split; [exact C1|]. split; [exact C2|].
        destruct (ra_portal (capture (fst w) o)); [|apply Hd]. apply fresh_call_dstore, Hd.
      - destruct Hop as [Hmid Hout]. apply on_sim; try done. intros o o' E E' Hk Hi Hi' Ho Ho'.
        assert (Hout1 : forall v, outcome = Ok v -> v = den (ra_text o)) by (intros; by eapply Hout).
        assert (Hout2 : forall v, outcome = Ok v -> v = den (ra_text o')) by (destruct Hk as [-> _]; done).
        pose proof (exec_clean outcome mid o (fst w) (proj1 Hw) Hi Ho (proj1 Hd) Hmid Hout1) as C1. pose proof (exec_clean outcome mid o' (fst w) (proj1 Hw) Hi' Ho' (proj1 Hd) Hmid Hout2) as C2.
        destruct (like_capture (fst w) _ _ Hk) as [_ L]. destruct Hk as [T _]. rewrite L, T in C2. eexists _, _. split; [exact C1|]. split; [exact C2|].
        destruct (ra_portal (capture (fst w) o)); [|apply Hd]. by apply fresh_exec_dstore; [apply Hd|..].
      - unfold session_only in *. cbn [fst snd] in *. rewrite Es in *. split; [done|]. split; [done|]. split; [done|]. split; [done|]. split; [done|].
        cbn in Hop. subst v. assert (Hx : dstore (put_call (l, a, den a) (fst w))) by (cbn; apply put_res_dstore, put_sig_dstore, Hd).
        split; (split; [exact Hx|]); cbn; apply Hd || apply Hd'.
    Qed.
    Lemma op_agrees_sim w w' x : Forall2 like (snd w) (snd w') -> op_agrees den w x -> op_agrees den w' x.
    Proof.
      intros Hl. destruct x; cbn; try done. intros [Hm Ho]. split; [done|]. intros o' v E' ->. destruct (Forall2_lookup_r _ _ _ _ _ Hl E') as (o & E & [-> _]).
      by eapply Ho.
    Qed.
    Lemma run_sim h : forall w w', sim w w' -> history_agrees den w h ->
      answers w h = answers w' h /\ sim (run w h) (run w' h) /\ history_agrees den w' h.
    Proof.
      induction h as [|x h IH]; intros w w' Hs Ha; [done|]. destruct Ha as [Hx Ha]. destruct (step_sim w w' x Hs Hx) as [E Hs1].
      destruct (IH _ _ Hs1 Ha) as (E1 & E2 & E3). split; [|split; [done|]].
      - cbn. destruct (step w x) as [w1 y], (step w' x) as [w2 y']. cbn in *. congruence.
      - split; [|done]. eapply op_agrees_sim; [apply Hs|done].
    Qed.
    Lemma sim_refl w : winv w -> dinv w -> sim w w.
    Proof. intros H1 H2. split; [done|]. split; [|done]. apply Reflexive_instance_0. intros o. by split. Qed.
    Lemma run_dinv h w : winv w -> dinv w -> history_agrees den w h -> dinv (run w h).
    Proof. intros H1 H2 H3. by apply (run_sim h w w (sim_refl w H1 H2) H3). Qed.
    Lemma init_dinv sg st : store_agrees den st -> dinv (init_world sg st).
    Proof. intros H. by split; [|constructor]. Qed.
    Lemma get_det w i o v : winv w -> dinv w -> snd w !! i = Some o -> snd (step w (OGet i)) = Value (Ok v) -> v = den (ra_text o).
    Proof.
      intros Hw Hd E. cbn [step]. unfold on. rewrite E. assert (Ho : dobj o) by (destruct Hd as [_ Hd]; rewrite Forall_lookup in Hd; by eapply Hd).
      destruct (get_clean o (fst w) (proj1 Hw) (winv_obj _ _ _ Hw E) Ho (proj1 Hd)) as (o1 & -> & _ & _). cbn.
      destruct (ra_portal _) as [p|]; [|done]. intros [= Hv]. by apply (fresh_get_dstore (ra_text o) p (fst w) (proj1 Hd)).
    Qed.
    Lemma exec_det w i o outcome mid v : winv w -> dinv w -> op_agrees den w (OExecute i outcome mid) -> snd w !! i = Some o ->
      snd (step w (OExecute i outcome mid)) = Value (Ok v) -> v = den (ra_text o).
    Proof.
      intros Hw Hd [Hm Hop] E. cbn [step]. unfold on. rewrite E. assert (Ho : dobj o) by (destruct Hd as [_ Hd]; rewrite Forall_lookup in Hd; by eapply Hd).
      assert (Hout1 : forall v, outcome = Ok v -> v = den (ra_text o)) by (intros; by eapply Hop).
      destruct (exec_clean outcome mid o (fst w) (proj1 Hw) (winv_obj _ _ _ Hw E) Ho (proj1 Hd) Hm Hout1) as (o1 & -> & _ & _). cbn.
      destruct (ra_portal _) as [p|]; [|done]. intros [= Hv]. by apply (fresh_exec_dstore outcome mid (ra_text o) p (fst w) (proj1 Hd) Hm Hout1).
    Qed.
    Lemma same_sim w w' : winv w -> dinv w -> same_but_caches w w' -> sim w w'.
    Proof.
      intros Hw Hd [Es Hf]. assert (Hl : Forall2 like (snd w) (snd w')).
      { eapply Forall2_impl; [exact Hf|]. intros o o' [->| ->]; by split. }
      split; [done|]. split; [done|]. split; [done|]. split; [|split; [done|]].
      - split; [rewrite Es; apply Hw|]. rewrite Es. destruct Hw as [_ Ho]. apply Forall_lookup. intros i o' E'.
        destruct (Forall2_lookup_r _ _ _ _ _ Hf E') as (o & E & Hc). rewrite Forall_lookup in Ho. specialize (Ho i o E).
        destruct Hc as [->| ->]; [done|]. unfold oinv in Ho |- *. cbn. destruct (ra_portal o); [|done]. split; [apply Ho|]. done.
      - split; [rewrite Es; apply Hd|]. destruct Hd as [_ Ho]. apply Forall_lookup. intros i o' E'.
        destruct (Forall2_lookup_r _ _ _ _ _ Hf E') as (o & E & Hc). rewrite Forall_lookup in Ho. specialize (Ho i o E).
        destruct Hc as [->| ->]; done.
    Qed.
  End Det.

  (** ** A stored value is what every later answer gives *)
  Section Pin.
    Context (a : A) (p : nat) (v : V) (I : nat -> Prop).
    Definition pin w : Prop := holds w p a v /\
      forall i o, I i -> snd w !! i = Some o -> ra_text o = a -> ra_portal o = Some p -> ra_result o = None \/ ra_result o = Some v.
    Lemma pin_get s : dict_get a (ress s (place s p)) = Some v -> fresh_get a p s = (s, Ok v).
    Proof. intros E. unfold fresh_get, fresh_ready. by rewrite (proj2 (dict_mem_get _ _)), E by eauto. Qed.
    Lemma pin_exec outcome mid s : good s -> dict_get a (ress s (place s p)) = Some v -> fresh_exec outcome mid a p s = (s, Ok v).
    Proof.
      intros Hg E. unfold fresh_exec, fresh_call. rewrite bool_decide_eq_true_2 by (by eapply Hg). unfold fresh_ready.
      by rewrite (proj2 (dict_mem_get _ _)), E by eauto.
    Qed.
    Lemma pin_on {X} i (f : raddr -> shared -> shared * raddr * X) wrap w : pin w -> winv w ->
      (forall o s' o' x, snd w !! i = Some o -> f o (fst w) = (s', o', x) -> ra_text o' = a -> ra_portal o' = Some p ->
         (ra_result o = None \/ ra_result o = Some v \/ ra_portal o <> Some p) -> ra_text o = a ->
         ra_result o' = None \/ ra_result o' = Some v) ->
      (forall o s' o' x, snd w !! i = Some o -> f o (fst w) = (s', o', x) -> ra_text o' = ra_text o) ->
      forall j o, I j -> snd (fst (on i f wrap w)) !! j = Some o -> ra_text o = a -> ra_portal o = Some p -> ra_result o = None \/ ra_result o = Some v.
    Proof.
      intros [Hh Hp] Hw Hf Ht j oj Ij. unfold on. destruct (snd w !! i) as [o|] eqn:E; [|cbn; by apply Hp].
      destruct (f o (fst w)) as [[s' o'] x] eqn:Ef. cbn. destruct (decide (j = i)) as [->|Hn].
      - rewrite list_lookup_insert by (by eapply lookup_lt_Some). intros [= <-] T P. specialize (Ht _ _ _ _ eq_refl Ef).
        eapply Hf; [done|exact Ef|done|done| |congruence]. destruct (decide (ra_portal o = Some p)) as [P'|]; [|by right; right].
        destruct (Hp i o Ij E ltac:(congruence) P'); auto.
      - rewrite list_lookup_insert_ne by done. by apply Hp.
    Qed.
    Lemma pin_step w x : winv w -> pin w -> pin (fst (step w x)).
    Proof.
      intros Hw Hpin. pose proof Hpin as [Hh Hp]. split; [exact (holds_later w p a v [x] Hw Hh)|].
      assert (Hgv : dict_get a (ress (fst w) (place (fst w) p)) = Some v) by apply Hh.
      destruct x as [l|q| |a' q|i|i|i|i|i|i outcome mid|l a' v']; cbn [step].
      - exact Hp.
      - destruct (q <? _); exact Hp.
      - exact Hp.
      - destruct (q <? _); [|exact Hp]. cbn. intros j o Ij E. apply lookup_app_Some in E as [E|[_ E]]; [by eapply Hp|].
        apply list_lookup_singleton_Some in E as [_ <-]. by left.
      - destruct (snd w !! i) as [oi|]; [|exact Hp]. cbn. intros j o Ij E. apply lookup_app_Some in E as [E|[_ E]]; [by eapply Hp|].
        apply list_lookup_singleton_Some in E as [_ <-]. by left.
      - apply pin_on; try done.
        + intros o s' o' x E [= <- <- <-] _ _ _ _. by left.
        + intros o s' o' x E [= <- <- <-]. done.
      - apply pin_on; try done.
        + intros o s' o' x E Ef T P Hc T'. pose proof (winv_obj _ _ _ Hw E) as Hi. pose proof (ready_eq (current (fst w)) o (fst w) (proj1 Hw) Hi) as Hr.
          assert (Hres : ra_result o' = ra_result o).
          { destruct (ra_portal (capture _ o)); [|rewrite Hr in Ef; by injection Ef as <- <- <-]. destruct (fresh_ready _ _ _ _). destruct Hr as (o1 & E1 & _ & _ & Hres & _).
            rewrite Ef in E1. injection E1 as -> -> ->. done. }
          rewrite Hres. destruct Hc as [?|[?|Hc]]; auto. left. unfold oinv in Hi.
          destruct (ready_small _ _ _ _ _ _ (proj1 Hw) Hi Ef) as (_ & _ & _ & _ & [_ Hev]). unfold capture in Hev.
          destruct (ra_portal o) eqn:Eo; [|by apply Hi]. congruence.
        + intros o s' o' x E Ef. pose proof (winv_obj _ _ _ Hw E) as Hi. apply (ready_small _ _ _ _ _ _ (proj1 Hw) Hi Ef).
      - apply pin_on; try done.
        + intros o s' o' x E Ef T P Hc T'. pose proof (winv_obj _ _ _ Hw E) as Hi. pose proof (get_eq o (fst w) (proj1 Hw) Hi) as Hr.
          destruct (get_small _ _ _ _ _ (proj1 Hw) Hi Ef) as (_ & _ & _ & _ & [_ Hev]).
          assert (Hc' : ra_result o = None \/ ra_result o = Some v).
          { destruct Hc as [?|[?|Hc]]; auto. left. unfold oinv in Hi. unfold capture in Hev. destruct (ra_portal o) eqn:Eo; [|by apply Hi]. congruence. }
          rewrite <- Hev, P, T', (pin_get _ Hgv) in Hr. destruct Hr as (o1 & r1 & E1 & _ & _ & Hcase). rewrite Ef in E1. injection E1 as -> -> ->.
          destruct Hcase as [(-> & H1 & H2)|(v1 & H1 & _ & -> & _)].
          * destruct (ra_result o) eqn:Er; [rewrite H2, Er by done; auto|]. right. by apply H1.
          * rewrite H1. destruct Hc'; [congruence|]. right. congruence.
        + intros o s' o' x E Ef. pose proof (winv_obj _ _ _ Hw E) as Hi. apply (get_small _ _ _ _ _ (proj1 Hw) Hi Ef).
      - apply pin_on; try done.
        + intros o s' o' x E Ef T P Hc T'. pose proof (winv_obj _ _ _ Hw E) as Hi. pose proof (function_eq o (fst w) (proj1 Hw) Hi) as Hr.
          assert (Hres : ra_result o' = ra_result o).
          { destruct (ra_portal (capture _ o)); [|rewrite Hr in Ef; by injection Ef as <- <- <-]. destruct (fresh_call _ _ _). destruct Hr as (o1 & E1 & _ & _ & Hres).
            rewrite Ef in E1. injection E1 as -> -> ->. done. }
          rewrite Hres. destruct Hc as [?|[?|Hc]]; auto. left. unfold oinv in Hi.
          destruct (function_small _ _ _ _ _ (proj1 Hw) Hi Ef) as (_ & _ & _ & _ & [_ Hev]). unfold capture in Hev.
          destruct (ra_portal o) eqn:Eo; [|by apply Hi]. congruence.
        + intros o s' o' x E Ef. pose proof (winv_obj _ _ _ Hw E) as Hi. apply (function_small _ _ _ _ _ (proj1 Hw) Hi Ef).
      - apply pin_on; try done.
        + intros o s' o' x E Ef T P Hc T'. pose proof (winv_obj _ _ _ Hw E) as Hi. pose proof (exec_eq outcome mid o (fst w) (proj1 Hw) Hi) as Hr.
          destruct (exec_small _ _ _ _ _ _ _ (proj1 Hw) Hi Ef) as (_ & _ & _ & _ & [_ Hev]).
          assert (Hc' : ra_result o = None \/ ra_result o = Some v).
          { destruct Hc as [?|[?|Hc]]; auto. left. unfold oinv in Hi. unfold capture in Hev. destruct (ra_portal o) eqn:Eo; [|by apply Hi]. congruence. }
          rewrite <- Hev, P, T', (pin_exec _ _ _ (proj1 Hw) Hgv) in Hr. destruct Hr as (o1 & r1 & E1 & _ & _ & _ & _ & _ & Hcase). rewrite Ef in E1. injection E1 as -> -> ->.
          destruct Hcase as [(_ & _ & H1)|(v1 & H1 & _ & -> & _)]; [by right|].
          rewrite H1. destruct Hc'; [congruence|]. right. congruence.
        + intros o s' o' x E Ef. pose proof (winv_obj _ _ _ Hw E) as Hi. apply (exec_small _ _ _ _ _ _ _ (proj1 Hw) Hi Ef).
      - exact Hp.
    Qed.
    Lemma pin_run h : forall w, winv w -> pin w -> pin (run w h).
    Proof.
      induction h as [|x h IH]; intros w Hw Hp; [done|]. cbn. apply IH; [apply (step_facts w x Hw)|]. by apply pin_step.
    Qed.
    Lemma pin_answers w i : winv w -> pin w -> I i -> bound_to w i a p ->
      snd (step w (OGet i)) = Value (Ok v) /\ forall outcome mid, snd (step w (OExecute i outcome mid)) = Value (Ok v).
    Proof.
      intros Hw Hpin Ii Hb. destruct Hpin as [Hh Hp]. destruct (bound_capture _ _ _ _ Hb) as (o & E & Et & Ep & Hc).
      assert (Hgv : dict_get a (ress (fst w) (place (fst w) p)) = Some v) by apply Hh.
      pose proof (winv_obj _ _ _ Hw E) as Hi. specialize (Hp i o Ii E Et Ep). cbn [step]. unfold on. rewrite E. split; [|intros outcome mid].
      - pose proof (get_eq o (fst w) (proj1 Hw) Hi) as Hr. rewrite Hc, Ep, Et, (pin_get _ Hgv) in Hr. destruct Hr as (o1 & r1 & -> & _ & _ & Hcase). cbn.
        destruct Hcase as [(-> & _)|(v1 & H1 & -> & _)]; [done|]. destruct Hp; congruence.
      - pose proof (exec_eq outcome mid o (fst w) (proj1 Hw) Hi) as Hr. rewrite Hc, Ep, Et, (pin_exec _ _ _ (proj1 Hw) Hgv) in Hr.
        destruct Hr as (o1 & r1 & -> & _ & _ & _ & _ & _ & Hcase). cbn. destruct Hcase as [(_ & -> & _)|(v1 & H1 & -> & _)]; [done|]. destruct Hp; congruence.
    Qed.
  End Pin.

  (** ** Objects on which execute was never called: what they remember is stored *)
  Definition faithful_obj s o : Prop := forall v, ra_result o = Some v -> exists p, ra_portal o = Some p /\ dict_get (ra_text o) (ress s (place s p)) = Some v.
  Definition faithful w i : Prop := forall o, snd w !! i = Some o -> faithful_obj (fst w) o.
  Lemma faithful_grow s s' o : grow s s' -> oinv s o -> faithful_obj s o -> faithful_obj s' o.
  Proof.
    intros Hg Hi Hf v E. destruct (Hf v E) as (p & P & Hv). exists p. split; [done|]. rewrite (grow_place _ _ p Hg (oinv_bound _ _ _ Hi P)). by apply Hg.
  Qed.
  Lemma faithful_same w w' i : winv w -> grow (fst w) (fst w') -> (forall o, snd w' !! i = Some o -> snd w !! i = Some o \/ ra_result o = None) ->
    faithful w i -> faithful w' i.
  Proof.
    intros Hw Hg Hs Hf o E. destruct (Hs o E) as [E'|E']; [|unfold faithful_obj; congruence].
    eapply faithful_grow; [done|by eapply winv_obj|by apply Hf].
  Qed.
  Lemma faithful_on {X} i j (f : raddr -> shared -> shared * raddr * X) wrap w : winv w -> grow (fst w) (fst (fst (on j f wrap w))) ->
    (forall o s' o' x, j = i -> snd w !! i = Some o -> oinv (fst w) o -> f o (fst w) = (s', o', x) -> faithful_obj (fst w) o -> faithful_obj s' o') ->
    faithful w i -> faithful (fst (on j f wrap w)) i.
  Proof.
    intros Hw Hg Hf Hfa. destruct (decide (j = i)) as [->|Hn].
    - unfold on in *. destruct (snd w !! i) as [o|] eqn:E; [|done]. pose proof (winv_obj _ _ _ Hw E) as Hi.
      destruct (f o (fst w)) as [[s' o'] x] eqn:Ef. cbn in *. intros o1. cbn. rewrite list_lookup_insert by (by eapply lookup_lt_Some). intros [= <-].
      eapply Hf; eauto.
    - eapply faithful_same; eauto. intros o. unfold on. destruct (snd w !! j) as [oj|]; [|auto]. destruct (f oj (fst w)) as [[s' o'] x]. cbn.
      rewrite list_lookup_insert_ne by done. auto.
  Qed.
  Lemma faithful_kept s s' o o' : grow s s' -> oinv s o -> evolves s o o' -> ra_result o' = ra_result o -> faithful_obj s o -> faithful_obj s' o'.
  Proof.
    intros Hg Hi [T P] R Hf v. rewrite R. intros E. destruct (faithful_grow _ _ _ Hg Hi Hf v E) as (p & P1 & Hv). exists p. rewrite T.
    split; [|done]. rewrite P. unfold capture. by rewrite P1.
  Qed.
  Lemma step_faithful w x i : winv w -> (forall outcome mid, x <> OExecute i outcome mid) -> faithful w i -> faithful (fst (step w x)) i.
  Proof.
    intros Hw Hx Hf. pose proof (step_facts w x Hw) as (_ & Hg & _).
    destruct x as [l|q| |a' q|j|j|j|j|j|j outcome mid|l a' v']; cbn [step] in *.
    - eapply faithful_same; eauto.
    - eapply faithful_same; eauto. destruct (q <? _); auto.
    - eapply faithful_same; eauto.
    - eapply faithful_same; eauto. destruct (q <? _); [|auto]. cbn. intros o E. apply lookup_app_Some in E as [E|[_ E]]; [auto|].
      apply list_lookup_singleton_Some in E as [_ <-]. by right.
    - eapply faithful_same; eauto. destruct (snd w !! j) as [oi|]; [|auto]. cbn. intros o E. apply lookup_app_Some in E as [E|[_ E]]; [auto|].
      apply list_lookup_singleton_Some in E as [_ <-]. by right.
    - apply faithful_on; try done. by intros o s' o' x -> E _ [= <- <- <-] _ v.
    - apply faithful_on; try done. intros o s' o' x -> E Hi Ef Ho. pose proof (ready_eq (current (fst w)) o (fst w) (proj1 Hw) Hi) as Hr.
      destruct (ready_small _ _ _ _ _ _ (proj1 Hw) Hi Ef) as (_ & Hgr & _ & _ & Hev). eapply faithful_kept; eauto.
      destruct (ra_portal (capture _ o)); [|rewrite Hr in Ef; by injection Ef as <- <- <-]. destruct (fresh_ready _ _ _ _). destruct Hr as (o1 & E1 & _ & _ & Hres & _).
      rewrite Ef in E1. injection E1 as -> -> ->. done.
    - apply faithful_on; try done. intros o s' o' x -> E Hi Ef Ho. pose proof (get_eq o (fst w) (proj1 Hw) Hi) as Hr.
      destruct (capture_facts (fst w) o (proj1 Hw) Hi) as (Hic & _).
      destruct (ra_portal (capture _ o)) as [p|] eqn:Ep; [|rewrite Hr in Ef; by injection Ef as <- <- <-].
      pose proof (fresh_get_value (ra_text o) p (fst w) (proj1 Hw) (oinv_bound _ _ _ Hic Ep)) as Hval.
      destruct (fresh_get (ra_text o) p (fst w)) as [s1 r]. cbn [fst snd] in Hval. destruct Hr as (o1 & r1 & E1 & _ & [T P] & Hc).
      rewrite Ef in E1. injection E1 as -> -> ->. destruct (get_small _ _ _ _ _ (proj1 Hw) Hi Ef) as (_ & Hgr & _).
      destruct Hc as [(-> & H1 & H2)|(v1 & H1 & _ & -> & ->)]; [|done].
      destruct (ra_result o) eqn:Er; [rewrite H2 by done; by eapply faithful_grow|]. intros v. rewrite H1 by done. destruct r as [v1|]; [|done]. intros [= ->].
      exists p. split; [congruence|]. destruct Hval as (Hv & Hs & _). by rewrite T, (session_place _ _ p Hs).
    - apply faithful_on; try done. intros o s' o' x -> E Hi Ef Ho. pose proof (function_eq o (fst w) (proj1 Hw) Hi) as Hr.
      destruct (function_small _ _ _ _ _ (proj1 Hw) Hi Ef) as (_ & Hgr & _ & _ & Hev). eapply faithful_kept; eauto.
      destruct (ra_portal (capture _ o)); [|rewrite Hr in Ef; by injection Ef as <- <- <-]. destruct (fresh_call _ _ _). destruct Hr as (o1 & E1 & _ & _ & Hres).
      rewrite Ef in E1. injection E1 as -> -> ->. done.
    - apply faithful_on; try done. intros o s' o' x ->. by destruct (Hx outcome mid).
    - eapply faithful_same; eauto.
  Qed.
  Lemma run_faithful h i : (forall outcome mid, OExecute i outcome mid ∉ h) -> forall w, winv w -> faithful w i -> faithful (run w h) i.
  Proof.
    induction h as [|x h IH]; intros Hx w Hw Hf; [done|]. cbn. apply IH.
    - intros outcome mid Hin. apply (Hx outcome mid). by right.
    - apply (step_facts w x Hw).
    - apply step_faithful; [done| |done]. intros outcome mid ->. apply (Hx outcome mid). by left.
  Qed.
End P.
