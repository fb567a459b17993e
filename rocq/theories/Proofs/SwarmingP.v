From Verif.Lib Require Import Py DictLemmas.
From Verif.Model Require Import Retry Swarming.
From Verif.Spec Require Import SwarmingSpec.
From Verif.Proofs Require Import RetryP.
From Coq Require Import QArith.
From stdpp Require Import sets sorting.
Local Open Scope nat_scope.

Section Runtimes.
  Context {Loc Node Rid : Type} `{EqDecision Loc} `{EqDecision Node} `{EqDecision Rid}.
  Notation rstate := (rstate Loc Node Rid).
  Notation revent := (revent Loc Node Rid).
  Notation sportal := (sportal Loc Node Rid).
  Implicit Types (h : list revent) (e : revent) (s : rstate).

  Lemma rrun_snoc h e : rrun (h ++ [e]) = rstep (rrun h) e.
  Proof. unfold rrun. by rewrite fold_left_app. Qed.
  Lemma created_app h1 h2 : created (h1 ++ h2) = created h1 ++ created h2.
  Proof. induction h1 as [|[] h1 IH]; cbn; by rewrite ?IH. Qed.

  (** the portal objects mirror the creation events *)
  Definition view (x : nat * sportal) : nat * Loc * Node * Rid := (fst x, sp_loc (snd x), sp_node (snd x), sp_rid (snd x)).
  Lemma portals_view h : map view (portals (rrun h)) = created h.
  Proof.
    induction h as [|e h IH] using rev_ind; [done|]. rewrite rrun_snoc, created_app.
    destruct e as [pr l n given draw|i|pr n]; cbn.
    - destruct given; cbn; rewrite map_app, IH; done.
    - rewrite app_nil_r. destruct (portals (rrun h) !! i) as [[pr p]|] eqn:E; cbn; [|done].
      rewrite list_fmap_insert, <- IH. apply list_insert_id. rewrite list_lookup_fmap, E. done.
    - by rewrite app_nil_r.
  Qed.
  (** cleared exactly by its own RClear after creation *)
  Lemma cleared_iff h i pr p : portals (rrun h) !! i = Some (pr, p) -> sp_cleared p = true -> RClear i ∈ h.
  Proof.
    revert pr p. induction h as [|e h IH] using rev_ind; [done|]. rewrite rrun_snoc. intros pr p.
    rewrite elem_of_app. destruct e as [pr' l n given draw|j|pr' n]; cbn.
    - assert (Hgen : forall q, (portals (rrun h) ++ [q]) !! i = Some (pr, p) -> sp_cleared (snd q) = false ->
         sp_cleared p = true -> RClear i ∈ h).
      { intros q Hq Hc Hp. destruct (decide (i < length (portals (rrun h)))) as [Hi|Hi].
        - rewrite lookup_app_l in Hq by done. by eapply IH.
        - rewrite lookup_app_r in Hq by lia. destruct (i - length (portals (rrun h))) as [|k]; cbn in Hq; [|done].
          inversion Hq; subst. cbn in Hc. congruence. }
      destruct given; cbn; intros Hq Hp; left; (eapply Hgen; [exact Hq|done|done]).
    - destruct (portals (rrun h) !! j) as [[q p']|] eqn:E; cbn.
      + rewrite list_lookup_insert_Some. intros [(-> & _ & _)|(_ & Hq)] Hp; [right; set_solver|left; by eapply IH].
      + intros Hq Hp. left. by eapply IH.
    - intros Hq Hp. left. by eapply IH.
  Qed.
  Lemma dict_get_del {V} k k' (d : dict (Loc * Node) V) : NoDup (dict_keys d) ->
    dict_get k (dict_del k' d) = if decide (k = k') then None else dict_get k d.
  Proof.
    induction d as [|[k1 v1] d IH]; cbn [dict_del dict_get dict_keys map]; [by case_decide|].
    intros Hn. inversion Hn as [|? ? Hx Hd]; subst. destruct (decide (k' = k1)) as [->|Hne].
    - destruct (decide (k = k1)) as [->|]; [by apply dict_get_None|done].
    - cbn [dict_get]. rewrite IH by done. destruct (decide (k = k1)) as [->|]; [by rewrite decide_False by congruence|done].
  Qed.
  Lemma keys_del {V} k (d : dict (Loc * Node) V) : forall x, x ∈ dict_keys (dict_del k d) -> x ∈ dict_keys d.
  Proof.
    induction d as [|[k1 v1] d IH]; cbn; [done|]. intros x. destruct (decide (k = k1)); cbn; set_solver.
  Qed.
  Lemma nodup_del {V} k (d : dict (Loc * Node) V) : NoDup (dict_keys d) -> NoDup (dict_keys (dict_del k d)).
  Proof.
    induction d as [|[k1 v1] d IH]; cbn [dict_del dict_keys map]; [done|]. intros Hn. inversion Hn as [|? ? Hx Hd]; subst.
    destruct (decide (k = k1)); [done|]. cbn. apply NoDup_cons. split; [|by apply IH]. intros Hin. by apply Hx, (keys_del k).
  Qed.
  Lemma nodup_set {V} k (v : V) (d : dict (Loc * Node) V) : NoDup (dict_keys d) -> NoDup (dict_keys (dict_set k v d)).
  Proof.
    intros Hn. rewrite dict_keys_set. case_decide; [done|]. apply NoDup_app. split; [done|]. split; [set_solver|apply NoDup_singleton].
  Qed.

  (** deletion fold of a process exit *)
  Definition wipe (pr : nat) (n : Node) (d : dict (Loc * Node) Rid) (x : nat * sportal) : dict (Loc * Node) Rid :=
    let '(q, p) := x in if decide (q = pr /\ sp_cleared p = false) then dict_del (sp_loc p, n) d else d.
  Lemma wipe_nodup pr n ps : forall d, NoDup (dict_keys d) -> NoDup (dict_keys (fold_left (wipe pr n) ps d)).
  Proof.
    induction ps as [|[q p] ps IH]; intros d Hd; cbn [fold_left wipe]; [done|]. apply IH. case_decide; [by apply nodup_del|done].
  Qed.
  Lemma wipe_keep pr n ps l m : forall d, NoDup (dict_keys d) ->
    ~ (m = n /\ exists p, (pr, p) ∈ ps /\ sp_cleared p = false /\ sp_loc p = l) ->
    dict_get (l, m) (fold_left (wipe pr n) ps d) = dict_get (l, m) d.
  Proof.
    induction ps as [|[q p] ps IH]; intros d Hd Hno; cbn [fold_left wipe]; [done|].
    rewrite IH.
    - case_decide as Hc; [|done]. destruct Hc as [-> Hc]. rewrite dict_get_del by done. case_decide as Hk; [|done].
      inversion Hk; subst. exfalso. apply Hno. split; [done|]. exists p. set_solver.
    - case_decide; [by apply nodup_del|done].
    - intros [-> (p' & Hin & ?)]. apply Hno. split; [done|]. exists p'. set_solver.
  Qed.
  Lemma wipe_gone pr n ps l p : (pr, p) ∈ ps -> sp_cleared p = false -> sp_loc p = l -> forall d, NoDup (dict_keys d) ->
    dict_get (l, n) (fold_left (wipe pr n) ps d) = None.
  Proof.
    intros Hin Hc Hl. induction ps as [|[q p'] ps IH]; intros d Hd; [set_solver|]. cbn [fold_left wipe].
    apply elem_of_cons in Hin as [Heq|Hin].
    - inversion Heq; subst. rewrite decide_True by done.
      assert (Hgen : forall ps d, NoDup (dict_keys d) -> dict_get (sp_loc p', n) d = None ->
         dict_get (sp_loc p', n) (fold_left (wipe q n) ps d) = None).
      { clear. induction ps as [|[q2 p2] ps IH]; intros d Hd Hn; cbn [fold_left wipe]; [done|].
        apply IH; case_decide; auto using nodup_del. rewrite dict_get_del by done. by case_decide. }
      apply Hgen; [by apply nodup_del|]. rewrite dict_get_del by done. by rewrite decide_True.
    - apply IH; [done|]. case_decide; [by apply nodup_del|done].
  Qed.

  Lemma records_nodup h : NoDup (dict_keys (records (rrun h))).
  Proof.
    induction h as [|e h IH] using rev_ind; [constructor|]. rewrite rrun_snoc.
    destruct e as [pr l n [r|] draw|i|pr n]; cbn.
    - done.
    - by apply nodup_set.
    - destruct (portals (rrun h) !! i) as [[]|]; [by apply nodup_del|done].
    - by apply wipe_nodup.
  Qed.

  (** the record right after one event *)
  Lemma record_claim h pr l n draw : dict_get (l, n) (records (rrun (h ++ [RNew pr l n None draw]))) = Some draw.
  Proof. rewrite rrun_snoc. cbn. by rewrite dict_get_set, decide_True. Qed.
  Lemma lookup_view h i pr l n r : created h !! i = Some (pr, l, n, r) ->
    exists p, portals (rrun h) !! i = Some (pr, p) /\ sp_loc p = l /\ sp_node p = n /\ sp_rid p = r.
  Proof.
    rewrite <- portals_view, list_lookup_fmap. destruct (portals (rrun h) !! i) as [[q p]|]; [|done].
    cbn. intros [= <- <- <- <-]. eauto.
  Qed.
  Lemma record_delete h e l n : deletes h e l n -> dict_get (l, n) (records (rrun (h ++ [e]))) = None.
  Proof.
    rewrite rrun_snoc. destruct e as [pr l' n' given draw|i|pr n']; cbn.
    - done.
    - intros (pr & r & Hc). apply lookup_view in Hc as (p & -> & <- & <- & _). cbn.
      rewrite dict_get_del by apply records_nodup. by rewrite decide_True.
    - intros (-> & i & m & r & Hc & Hno). apply lookup_view in Hc as (p & Hp & Hl & Hn & _).
      apply (wipe_gone pr n (portals (rrun h)) l p); [by eapply elem_of_list_lookup_2| |done|apply records_nodup].
      destruct (sp_cleared p) eqn:E; [|done]. exfalso. apply Hno. by eapply cleared_iff.
  Qed.
  Lemma record_keep h e l n : ~ claims e l n -> ~ (exists i pr r, e = RClear i /\ created h !! i = Some (pr, l, n, r)) ->
    ~ (exists pr, e = RProcessExit pr n /\ exists i m r, created h !! i = Some (pr, l, m, r)) ->
    dict_get (l, n) (records (rrun (h ++ [e]))) = dict_get (l, n) (records (rrun h)).
  Proof.
    intros Hc Hd He. rewrite rrun_snoc. destruct e as [pr l' n' [r|] draw|i|pr n']; cbn.
    - done.
    - rewrite dict_get_set. case_decide as Hk; [|done]. inversion Hk; subst. exfalso. apply Hc. by exists pr, draw.
    - destruct (portals (rrun h) !! i) as [[q p]|] eqn:E; cbn; [|done]. rewrite dict_get_del by apply records_nodup.
      case_decide as Hk; [|done]. inversion Hk; subst. exfalso. apply Hd. exists i, q, (sp_rid p). split; [done|].
      rewrite <- portals_view, list_lookup_fmap, E. done.
    - apply wipe_keep; [apply records_nodup|]. intros [-> (p & Hin & _ & <-)]. apply He. exists pr. split; [done|].
      apply elem_of_list_lookup_1 in Hin as [i Hi]. exists i, (sp_node p), (sp_rid p).
      rewrite <- portals_view, list_lookup_fmap, Hi. done.
  Qed.

  (** C59: a portal's runtime stays live as long as nothing claims or deletes its record *)
  Lemma live_until h1 h2 pr l n r :
    (forall h e h', h2 = h ++ e :: h' -> let before := h1 ++ [RNew pr l n None r] ++ h in
       ~ claims e l n /\ ~ (exists i q rid, e = RClear i /\ created before !! i = Some (q, l, n, rid))
       /\ ~ (exists q, e = RProcessExit q n /\ exists i m rid, created before !! i = Some (q, l, m, rid))) ->
    dict_get (l, n) (records (rrun (h1 ++ [RNew pr l n None r] ++ h2))) = Some r.
  Proof.
    induction h2 as [|e h2 IH] using rev_ind; intros Hh.
    - rewrite app_nil_r. apply record_claim.
    - rewrite !app_assoc. destruct (Hh h2 e []) as (Ha & Hb & Hc); [done|]. rewrite app_assoc in Hb, Hc.
      rewrite record_keep by done. rewrite <- app_assoc. apply IH.
      intros h e' h' ->. apply (Hh h e' (h' ++ [e])). by rewrite <- app_assoc.
  Qed.

  (** the record always carries an id that some portal drew *)
  Lemma record_drawn h l n r : dict_get (l, n) (records (rrun h)) = Some r ->
    exists h1 pr h2, h = h1 ++ RNew pr l n None r :: h2 /\
      forall h e h', h2 = h ++ e :: h' -> ~ claims e l n /\ ~ deletes (h1 ++ [RNew pr l n None r] ++ h) e l n.
  Proof.
    revert r. induction h as [|e h IH] using rev_ind; [done|]. intros r Hr.
    assert (Hdec : claims e l n \/ ~ claims e l n).
    { destruct e as [pr l' n' [r'|] draw|i|pr n']; try (right; intros (? & ? & ?); done).
      destruct (decide (l' = l)) as [->|]; [|right; intros (? & ? & [=]); congruence].
      destruct (decide (n' = n)) as [->|]; [left; by exists pr, draw|right; intros (? & ? & [=]); congruence]. }
    destruct Hdec as [(pr & draw & ->)|Hc].
    - rewrite record_claim in Hr. inversion Hr; subst. exists h, pr, []. split; [done|]. intros h0 e h' Hx. by destruct h0.
    - assert (Hkeep : dict_get (l, n) (records (rrun h)) = Some r).
      { rewrite rrun_snoc in Hr. destruct e as [pr l' n' [r'|] draw|i|pr n']; cbn in Hr.
        - done.
        - rewrite dict_get_set in Hr. case_decide as Hk; [|done]. inversion Hk; subst. exfalso. apply Hc. by exists pr, draw.
        - destruct (portals (rrun h) !! i) as [[q p]|]; cbn in Hr; [|done]. rewrite dict_get_del in Hr by apply records_nodup. by case_decide.
        - destruct (decide (n' = n /\ Exists (fun x => fst x = pr /\ sp_cleared (snd x) = false /\ sp_loc (snd x) = l) (portals (rrun h)))) as [[-> Hex]|Hno].
          + apply Exists_exists in Hex as ([q p] & Hin & ? & ? & ?). cbn in *. subst q.
            pose proof (wipe_gone pr n (portals (rrun h)) l p ltac:(done) ltac:(done) ltac:(done) _ (records_nodup h)) as Hg.
            unfold wipe in Hg. congruence.
          + assert (Hx : dict_get (l, n) (fold_left (wipe pr n') (portals (rrun h)) (records (rrun h))) = dict_get (l, n) (records (rrun h)));
              [|unfold wipe in Hx; congruence].
            apply wipe_keep; [apply records_nodup|]. intros [-> (p & Hin & ? & ?)]. apply Hno. split; [done|].
            apply Exists_exists. by exists (pr, p). }
      destruct (IH r Hkeep) as (h1 & pr & h2 & -> & Hrest). exists h1, pr, (h2 ++ [e]). split; [by rewrite <- app_assoc|].
      intros h0 e0 h' Hx. destruct h' as [|e1 h'] using rev_ind.
      + apply app_inj_tail in Hx as [-> ->]. split; [done|]. intros Hd.
        apply record_delete in Hd. rewrite <- !app_assoc in Hd. cbn in Hd.
        replace ((h1 ++ RNew pr l n None r :: h0) ++ [e0]) with (h1 ++ RNew pr l n None r :: h0 ++ [e0]) in Hr by (by rewrite <- app_assoc).
        congruence.
      + clear IHh'. rewrite app_comm_cons, app_assoc in Hx. apply app_inj_tail in Hx as [-> ->]. by apply (Hrest h0 e0 h').
  Qed.
End Runtimes.

Section Workers.
  Context {A : Type} `{EqDecision A}.
  Notation look := (look A).
  Implicit Types (l : look) (looks : nat -> look).

  Definition eligible l (a : A) : Prop :=
    needs_execution (l_ready l a) (l_attempts l a) (l_now l) = true /\ l_guards l a = true.

  Lemma scan_sound l mx : forall reqs acc a, a ∈ scan l mx reqs acc -> a ∈ acc \/ (a ∈ reqs /\ eligible l a).
  Proof.
    induction reqs as [|b reqs IH]; intros acc a; cbn [scan]; [by left|].
    destruct (needs_execution _ _ _) eqn:En; cbn [negb].
    2:{ intros Ha. apply IH in Ha as [?|[? ?]]; [by left|right; set_solver]. }
    destruct (l_guards l b) eqn:Eg; cbn [negb].
    2:{ intros Ha. apply IH in Ha as [?|[? ?]]; [by left|right; set_solver]. }
    assert (Hb : forall x, x ∈ acc ++ [b] -> x ∈ acc \/ (x ∈ b :: reqs /\ eligible l x)).
    { intros x [?|Hx]%elem_of_app; [by left|]. apply elem_of_list_singleton in Hx as ->. right. split; [set_solver|done]. }
    case_match; intros Ha; [auto|]. apply IH in Ha as [?|[? ?]]; [auto|right; set_solver].
  Qed.
  Lemma scan_mono l mx : forall reqs acc a, a ∈ acc -> a ∈ scan l mx reqs acc.
  Proof.
    induction reqs as [|b reqs IH]; intros acc a Ha; cbn [scan]; [done|].
    destruct (negb _); [auto|]. destruct (negb _); [auto|]. case_match; [set_solver|]. apply IH. set_solver.
  Qed.
  Lemma scan_nonempty l mx : forall reqs acc a, a ∈ reqs -> eligible l a -> scan l mx reqs acc <> [].
  Proof.
    induction reqs as [|b reqs IH]; intros acc a Ha [E1 E2]; cbn [scan]; [set_solver|].
    apply elem_of_cons in Ha as [->|Ha].
    - rewrite E1, E2. cbn [negb]. case_match; [by destruct acc|]. intros Hs.
      assert (b ∈ scan l mx reqs (acc ++ [b])) by (apply scan_mono; set_solver). rewrite Hs in *. set_solver.
    - destruct (negb _); [by apply (IH acc a)|]. destruct (negb _); [by apply (IH acc a)|].
      case_match; [by destruct acc|]. by apply (IH _ a).
  Qed.

  Lemma process_sound looks mx pick : forall fuel t t' a,
    process_random_execution_request looks mx pick fuel t = AExecute t' a ->
    t <= t' /\ l_live (looks t') = true /\ a ∈ l_requests (looks t') /\ eligible (looks t') a.
  Proof.
    induction fuel as [|fuel IH]; intros t t' a; cbn [process_random_execution_request]; [done|].
    destruct (l_live (looks t)) eqn:El; [|done].
    destruct (nth_error _ _) as [b|] eqn:En.
    - intros [= <- <-]. split; [done|]. split; [done|]. apply nth_error_In, elem_of_list_In in En.
      apply scan_sound in En as [Hx|?]; [set_solver|done].
    - intros Hp. apply IH in Hp as (? & ? & ?). split; [lia|done].
  Qed.

  Lemma process_gone looks mx pick : forall fuel t t',
    process_random_execution_request looks mx pick fuel t = AParentGone t' -> t <= t' /\ l_live (looks t') = false.
  Proof.
    induction fuel as [|fuel IH]; intros t t'; cbn [process_random_execution_request]; [done|].
    destruct (l_live (looks t)) eqn:El; [|by intros [= <-]].
    destruct (nth_error _ _); [done|]. intros Hp. apply IH in Hp as [? ?]. split; [lia|done].
  Qed.

  Lemma worker_sound looks mx pick fuel : forall cycles t,
    let ex := background_worker looks mx pick cycles fuel t in
    length ex <= cycles /\
    Forall (fun '(t', a) => t < t' /\ l_live (looks t') = true /\ a ∈ l_requests (looks t') /\ eligible (looks t') a) ex /\
    StronglySorted (fun x y : nat * A => fst x < fst y) ex.
  Proof.
    induction cycles as [|cycles IH]; intros t; cbn [background_worker].
    - split; [done|]. split; constructor.
    - destruct (l_live (looks t)); [|split; [cbn; lia|split; constructor]].
      destruct (process_random_execution_request _ _ _ _ _) as [t' a|t'|] eqn:E.
      + apply process_sound in E as (Ht & Hl & Hr & He). specialize (IH (S t')). cbn zeta in IH. destruct IH as (Hlen & Hf & Hs).
        split; [cbn; lia|]. split.
        * constructor; [repeat split; try done; try lia; apply He|]. eapply Forall_impl; [exact Hf|]. intros [t2 a2] (? & ?). split; [lia|done].
        * constructor; [done|]. eapply Forall_impl; [exact Hf|]. intros [t2 a2] (? & ?). cbn. lia.
      + apply process_gone in E as [Ht _]. specialize (IH (S t')). cbn zeta in IH. destruct IH as (Hlen & Hf & Hs).
        split; [lia|]. split; [|done]. eapply Forall_impl; [exact Hf|]. intros [t2 a2] (? & ?). split; [lia|done].
      + split; [cbn; lia|]. split; constructor.
  Qed.

  (** once the parent is seen dead, the worker ends *)
  Lemma worker_stops looks mx pick fuel cycles t : l_live (looks t) = false ->
    background_worker looks mx pick cycles fuel t = [].
  Proof. destruct cycles; cbn; [done|]. by intros ->. Qed.

  (** some candidate => something is executed in that very pass *)
  Lemma process_progress looks mx pick fuel t a : l_live (looks t) = true -> a ∈ l_requests (looks t) -> eligible (looks t) a ->
    exists b, process_random_execution_request looks mx pick (S fuel) t = AExecute t b.
  Proof.
    intros Hl Ha He. cbn [process_random_execution_request]. rewrite Hl.
    pose proof (scan_nonempty (looks t) mx (l_requests (looks t)) [] a Ha He) as Hne.
    set (cs := scan _ _ _ _) in *. destruct (nth_error cs (pick t mod length cs)) as [b|] eqn:E; [by exists b|].
    apply nth_error_None in E. assert (length cs <> 0) by (by destruct cs). pose proof (Nat.mod_upper_bound (pick t) (length cs)). lia.
  Qed.

  (** ** the closed system *)
  Notation wstate := (wstate A).
  Implicit Types (s : wstate).

  Lemma cycle_spec guards mx pick now fin s :
    (exists a, a ∈ w_requests s /\ a ∉ w_results s /\ eligible (look_of s guards now) a /\
       worker_cycle guards mx pick now fin s =
         WState (if fin then filter (fun b => b <> a) (w_requests s) else w_requests s)
                (if fin then a :: w_results s else w_results s)
                (fun b => if decide (b = a) then now :: w_attempts s b else w_attempts s b))
    \/ (worker_cycle guards mx pick now fin s = s /\ forall a, a ∈ w_requests s -> ~ eligible (look_of s guards now) a).
  Proof.
    unfold worker_cycle. set (l := look_of s guards now). set (cs := scan l mx (w_requests s) []).
    destruct (nth_error cs (pick mod length cs)) as [a|] eqn:E.
    - left. exists a. apply nth_error_In, elem_of_list_In in E. apply scan_sound in E as [Hx|[Hr He]]; [set_solver|].
      split; [done|]. split.
      + destruct He as [He _]. apply needs_execution_iff in He as [He _]. cbn in He. by apply bool_decide_eq_false in He.
      + split; [done|]. by destruct fin.
    - right. split; [done|]. intros a Ha He. pose proof (scan_nonempty l mx (w_requests s) [] a Ha He) as Hne. fold cs in Hne.
      apply nth_error_None in E. assert (length cs <> 0) by (by destruct cs). pose proof (Nat.mod_upper_bound pick (length cs)). lia.
  Qed.

  Lemma filter_remove_length (a : A) (l : list A) : NoDup l -> a ∈ l -> length l = S (length (filter (fun b => b <> a) l)).
  Proof.
    induction l as [|b l IH]; [set_solver|]. intros Hn Ha. inversion Hn as [|? ? Hb Hl]; subst.
    destruct (decide (b = a)) as [->|Hne].
    - rewrite filter_cons_False by naive_solver. cbn. f_equal.
      assert (filter (fun b => b <> a) l = l) as ->; [|done]. clear -Hb. induction l as [|c l IH]; [done|].
      rewrite filter_cons_True by set_solver. f_equal. apply IH. set_solver.
    - rewrite filter_cons_True by done. cbn. f_equal. apply IH; [done|]. set_solver.
  Qed.

  (** every queued call that was never attempted gets executed if executions finish *)
  Lemma queue_drained guards : forall cs s, NoDup (w_requests s) ->
    (forall a, a ∈ w_requests s -> guards a = true /\ a ∉ w_results s /\ w_attempts s a = []) ->
    Forall (fun c => cy_finishes c = true) cs -> length (w_requests s) <= length cs ->
    let s' := worker_run guards cs s in
    w_requests s' = [] /\ (forall a, a ∈ w_results s' <-> a ∈ w_results s \/ a ∈ w_requests s)
    /\ (forall a, a ∈ w_requests s -> length (w_attempts s' a) = 1).
  Proof.
    induction cs as [|c cs IH]; intros s Hn Hr Hc Hl.
    - cbn in *. destruct (w_requests s) eqn:E; [|cbn in Hl; lia]. split; [done|]. split; set_solver.
    - inversion Hc as [|? ? Hf Hcs]; subst. cbn [worker_run fold_left].
      destruct (w_requests s) as [|a0 rest] eqn:Ereq.
      { (* nothing to do *)
        destruct (cycle_spec guards (cy_max c) (cy_pick c) (cy_now c) (cy_finishes c) s) as [(a & Ha & _)|[-> _]]; [rewrite Ereq in Ha; set_solver|].
        specialize (IH s). rewrite Ereq in IH. apply IH; try done; cbn; lia. }
      rewrite <- Ereq in *.
      destruct (cycle_spec guards (cy_max c) (cy_pick c) (cy_now c) (cy_finishes c) s) as [(a & Ha & Hna & He & ->)|[_ Hno]].
      2:{ exfalso. apply (Hno a0); [rewrite Ereq; set_solver|]. destruct (Hr a0) as (Hg & Hnr & Hat); [rewrite Ereq; set_solver|].
          split; [|done]. cbn. rewrite Hat. rewrite bool_decide_eq_false_2 by done. done. }
      rewrite Hf. pose proof (filter_remove_length a (w_requests s) Hn Ha) as Hlen.
      set (s1 := WState _ _ _).
      destruct (IH s1) as (H1 & H2 & H3); cbn.
      + by apply NoDup_filter.
      + intros b [Hba Hb]%elem_of_list_filter. destruct (Hr b Hb) as (? & ? & ?). split; [done|]. split; [set_solver|].
        by rewrite decide_False.
      + done.
      + cbn in Hl. lia.
      + unfold worker_run in *. split; [done|]. split.
        * intros b. rewrite H2. cbn. rewrite elem_of_cons, elem_of_list_filter. destruct (decide (b = a)) as [->|]; [naive_solver|]. naive_solver.
        * intros b Hb. destruct (decide (b = a)) as [->|Hne].
          -- (* never executed again *)
             assert (Hgen : forall cs s, a ∉ w_requests s -> w_attempts (worker_run guards cs s) a = w_attempts s a).
             { clear. induction cs as [|c cs IH]; intros s Ha; cbn [worker_run fold_left]; [done|].
               destruct (cycle_spec guards (cy_max c) (cy_pick c) (cy_now c) (cy_finishes c) s) as [(x & Hx & _ & _ & ->)|[-> _]].
               - unfold worker_run in IH. rewrite IH.
                 + cbn. rewrite decide_False; [done|]. intros ->. done.
                 + cbn. destruct (cy_finishes c); [|done]. rewrite elem_of_list_filter. naive_solver.
               - by apply IH. }
             unfold worker_run in Hgen. rewrite Hgen.
             ++ cbn. rewrite decide_True by done. destruct (Hr a Ha) as (_ & _ & ->). done.
             ++ cbn. rewrite elem_of_list_filter. naive_solver.
          -- apply H3. cbn. apply elem_of_list_filter. done.
  Qed.

  (** a call with six attempts is never executed again *)
  Lemma stuck guards a : forall cs s, a ∉ w_results s -> 6 <= length (w_attempts s a) ->
    a ∉ w_results (worker_run guards cs s) /\ w_attempts (worker_run guards cs s) a = w_attempts s a.
  Proof.
    induction cs as [|c cs IH]; intros s Ha H6; cbn [worker_run fold_left]; [done|].
    destruct (cycle_spec guards (cy_max c) (cy_pick c) (cy_now c) (cy_finishes c) s) as [(x & Hx & Hnx & [He _] & ->)|[-> _]]; [|by apply IH].
    assert (x <> a). { intros ->. cbn in He. rewrite six_never in He by done. done. }
    unfold worker_run in IH. set (s1 := WState _ _ _).
    assert (Hat : w_attempts s1 a = w_attempts s a) by (cbn; by rewrite decide_False by done).
    rewrite <- Hat. apply IH.
    - cbn. destruct (cy_finishes c); [set_solver|done].
    - by rewrite Hat.
  Qed.

  (** at most six executions of one call, ever *)
  Lemma attempts_bound guards a : forall cs s, length (w_attempts s a) <= 6 ->
    length (w_attempts (worker_run guards cs s) a) <= 6.
  Proof.
    induction cs as [|c cs IH]; intros s H6; cbn [worker_run fold_left]; [done|].
    destruct (cycle_spec guards (cy_max c) (cy_pick c) (cy_now c) (cy_finishes c) s) as [(x & Hx & Hnx & [He _] & ->)|[-> _]]; [|by apply IH].
    apply IH. cbn. destruct (decide (a = x)) as [->|]; [|done]. cbn in He.
    apply needs_execution_iff in He as [_ [He|[He _]]]; [rewrite He; cbn; lia|]. cbn. lia.
  Qed.

  (** a single queued call is executed as soon as an execution finishes before the seventh try, if the worker waits long enough *)
  Lemma single_retried guards a : guards a = true -> forall k s, w_requests s = [a] -> a ∉ w_results s ->
    length (w_attempts s a) + k <= 5 ->
    exists cs, Forall (fun c => cy_finishes c = false) cs /\ length cs = k /\
      length (w_attempts (worker_run guards cs s) a) = length (w_attempts s a) + k
      /\ w_requests (worker_run guards cs s) = [a] /\ a ∉ w_results (worker_run guards cs s).
  Proof.
    intros Hg. induction k as [|k IH]; intros s Hr Ha Hk.
    - exists []. cbn. rewrite Nat.add_0_r. auto.
    - destruct (waits_enough (w_attempts s a)) as [T HT]; [lia|].
      set (c := Cycle 200 0 T false). set (s1 := worker_cycle guards 200 0 T false s).
      assert (Hs1 : s1 = WState (w_requests s) (w_results s) (fun b => if decide (b = a) then T :: w_attempts s b else w_attempts s b)).
      { unfold s1. destruct (cycle_spec guards 200 0 T false s) as [(x & Hx & _ & _ & ->)|[_ Hno]].
        - rewrite Hr in Hx. apply elem_of_list_singleton in Hx as ->. done.
        - exfalso. apply (Hno a); [rewrite Hr; set_solver|]. split; [|done]. cbn. rewrite bool_decide_eq_false_2 by done. apply HT, Qle_refl. }
      assert (Hlen : length (w_attempts s1 a) = S (length (w_attempts s a))) by (rewrite Hs1; cbn; by rewrite decide_True).
      destruct (IH s1) as (cs & Hf & Hl & H1 & H2 & H3).
      + by rewrite Hs1.
      + by rewrite Hs1.
      + lia.
      + exists (c :: cs). split; [by constructor|]. split; [cbn; lia|]. unfold worker_run in *. cbn [fold_left]. fold s1 in H1. cbn [cy_max cy_pick cy_now cy_finishes c].
        fold s1. rewrite H1. split; [lia|done].
  Qed.
  Lemma single_executed guards a : guards a = true -> forall s, w_requests s = [a] -> a ∉ w_results s ->
    length (w_attempts s a) <= 5 ->
    exists T, forall c, (T <= cy_now c)%Q -> cy_finishes c = true -> a ∈ w_results (worker_run guards [c] s).
  Proof.
    intros Hg s Hr Ha Hk. destruct (waits_enough (w_attempts s a) Hk) as [T HT]. exists T. intros c Hc Hf. cbn.
    destruct (cycle_spec guards (cy_max c) (cy_pick c) (cy_now c) (cy_finishes c) s) as [(x & Hx & _ & _ & ->)|[_ Hno]].
    - rewrite Hr in Hx. apply elem_of_list_singleton in Hx as ->. rewrite Hf. cbn. set_solver.
    - exfalso. apply (Hno a); [rewrite Hr; set_solver|]. split; [|done]. cbn. rewrite bool_decide_eq_false_2 by done. auto.
  Qed.
End Workers.

Section Runtimes2.
  Context {Loc Node Rid : Type} `{EqDecision Loc} `{EqDecision Node} `{EqDecision Rid}.
  Lemma live_until_bool (h1 h2 : list (revent Loc Node Rid)) pr l n r c :
    (forall h e h', h2 = h ++ e :: h' -> let before := h1 ++ [RNew pr l n None r] ++ h in
       ~ claims e l n /\ ~ (exists i q rid, e = RClear i /\ created before !! i = Some (q, l, n, rid))
       /\ ~ (exists q, e = RProcessExit q n /\ exists i m rid, created before !! i = Some (q, l, m, rid))) ->
    parent_runtime_is_live (rrun (h1 ++ [RNew pr l n None r] ++ h2)) (SPortal l n r c) n = true.
  Proof.
    intros Hh. unfold parent_runtime_is_live. cbn [sp_loc sp_rid]. rewrite live_until by done. by apply bool_decide_eq_true.
  Qed.
  Lemma live_only_if (h : list (revent Loc Node Rid)) l m n r c :
    parent_runtime_is_live (rrun h) (SPortal l m r c) n = true ->
    exists h1 pr h2, h = h1 ++ RNew pr l n None r :: h2 /\
      forall h e h', h2 = h ++ e :: h' -> ~ claims e l n /\ ~ deletes (h1 ++ [RNew pr l n None r] ++ h) e l n.
  Proof.
    unfold parent_runtime_is_live. cbn [sp_loc sp_rid]. destruct (dict_get (l, n) (records (rrun h))) as [r'|] eqn:E; [|done].
    intros <-%bool_decide_eq_true. by apply record_drawn.
  Qed.
End Runtimes2.
