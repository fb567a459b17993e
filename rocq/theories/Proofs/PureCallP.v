(** What one call of an arbitrary function does to queues, histories and results. *)
From Verif.Lib Require Import Py.
From Verif.Model Require Import PureAddr PureExec.
From Verif.Spec Require Import PureAddrSpec PureExecSpec.
From Verif.Proofs Require Import PureAddrP PureExecP PureExecSysP PureExecSeqP PureAnyP.
From Coq Require Import QArith.
From stdpp Require Import gmap sorting.
Local Open Scope nat_scope.

Section Call.
  Context {D : Type} (data_prefix : D -> string) (hash_of : value D -> string).
  Notation kwargs := (list (string * arg D)).
  Notation text_of := (text_of data_prefix hash_of).
  Notation pack := (pack data_prefix hash_of).
  Notation state := (@state D).
  Notation event := (@event D).
  Notation call_addr := (call_addr data_prefix hash_of).
  Notation addr_of_arg := (addr_of_arg data_prefix hash_of).
  Implicit Types (σ : state) (μ : local) (kw : kwargs) (f : fn_state).
  Context (ses : session).
  Notation loc := (loc ses).

  Lemma sbv_refl σ : same_but_vals σ σ.
  Proof. by intros l. Qed.
  Lemma sbv_trans σ1 σ2 σ3 : same_but_vals σ1 σ2 -> same_but_vals σ2 σ3 -> same_but_vals σ1 σ3.
  Proof. intros A B l. destruct (A l) as (?&?&?), (B l) as (?&?&?). split; [congruence|]. split; congruence. Qed.
  Lemma run_pack p (l : kwargs) : forall σ μ, exists σ', run (pack_in data_prefix hash_of ses p l) σ μ = (σ', μ, Some (Ok (pack l))) /\ same_but_vals σ σ'.
  Proof.
    induction l as [|[k x] l IH]; intros σ μ; cbn [pack_in]; [exists σ; split; [done|apply sbv_refl]|].
    destruct (mk_addr_run data_prefix hash_of ses p x σ μ) as (σ1 & E1 & S1). destruct (IH σ1 μ) as (σ2 & E2 & S2).
    exists σ2. split; [|by eapply sbv_trans]. rewrite run_pbind, E1. cbv beta iota. rewrite run_pbind, E2. done.
  Qed.
  Lemma run_result_address p f (l : kwargs) σ μ : exists σ', run (result_address data_prefix hash_of ses p f l) σ μ = (σ', μ, Some (result_addr data_prefix hash_of f l)) /\ same_but_vals σ σ'.
  Proof.
    unfold result_address, result_addr. destruct (sorted_kwargs l) as [args|e] eqn:Es; [|exists σ; split; [done|apply sbv_refl]].
    rewrite run_pbind. cbn [run mres]. rewrite run_pbind.
    destruct (mk_addr_run data_prefix hash_of ses p (AVal (VFn f)) σ μ) as (σ1 & E1 & S1). rewrite E1. cbv beta iota. rewrite run_pbind.
    destruct (run_pack p args σ1 μ) as (σ2 & E2 & S2). rewrite E2. cbv beta iota. rewrite run_pbind.
    destruct (mk_addr_run data_prefix hash_of ses p (AVal (VArgs (pack args))) σ2 μ) as (σ3 & E3 & S3). rewrite E3. cbv beta iota. rewrite run_pbind.
    match goal with |- context [mk_addr _ _ _ _ (AVal ?v)] => destruct (mk_addr_run data_prefix hash_of ses p (AVal v) σ3 μ) as (σ4 & E4 & S4) end. rewrite E4.
    exists σ4. split; [done|]. eapply sbv_trans; [exact S1|]. eapply sbv_trans; [exact S2|]. by eapply sbv_trans.
  Qed.
  Lemma run_address0 p f kw s σ μ : sorted_kwargs kw = Ok s ->
    exists σ1, same_but_vals σ σ1 /\
      forall X (g : list (string * addr) -> addr -> @M D X),
        run (pbind (mres (sorted_kwargs kw)) (fun s => pbind (pack_in data_prefix hash_of ses p s) (fun packed =>
          pbind (result_address data_prefix hash_of ses p f (as_args packed)) (fun a => g packed a)))) σ μ
        = run (g (pack (sort_keys kw)) (call_addr f kw)) σ1 μ.
  Proof.
    intros Hs. pose proof (sorted_kwargs_ok _ _ Hs) as Es. subst s.
    destruct (run_pack p (sort_keys kw) σ μ) as (σ1 & E1 & S1).
    destruct (run_result_address p f (as_args (pack (sort_keys kw))) σ1 μ) as (σ2 & E2 & S2).
    assert (Ea : result_addr data_prefix hash_of f (as_args (pack (sort_keys kw))) = Ok (call_addr f kw)).
    { rewrite <- (call_addr_packed data_prefix hash_of f kw _ Hs). eapply call_addr_result. apply sorted_as_args. }
    exists σ2. split; [by eapply sbv_trans|]. intros X g. rewrite run_pbind, Hs. cbn [run mres]. rewrite run_pbind, E1. cbv beta iota.
    rewrite run_pbind, E2, Ea. done.
  Qed.

  Section Calls.
  Context (body : fn_state -> kwargs -> prog (D := D)) (guards_of : fn_state -> list (guard_fn (D := D))).
  Notation execute := (execute data_prefix hash_of body guards_of ses).
  Notation run_body := (run_body data_prefix hash_of body guards_of ses).

  Definition after_request n p f kw (pk : list (string * addr)) a (i : nat) (rd : bool) : @M D (arg D) :=
    pbind (check_guards data_prefix hash_of ses (execute n p) p (guards_of f) kw) (fun g =>
    pbind (massert g) (fun _ =>
    pbind (unpack_in ses p (as_args pk)) (fun unpacked =>
    pbind (run_prog data_prefix hash_of ses (execute n p) p (body f unpacked)) (fun result =>
    pbind (mk_addr data_prefix hash_of ses p result) (fun b =>
    pbind (acc (EHist (loc p) (HResult a i b))) (fun _ =>
    pbind (mtry (pbind (if rd then acc (ESetP p (Some 1%Q)) else pret tt) (fun _ => set_result ses p a b))) (fun o =>
    pbind (acc (ESetP p (pcc ses p))) (fun _ =>
    pbind (mres o) (fun _ =>
    pbind (drop_request ses p a) (fun _ =>
    pret result)))))))))).
  Lemma run_body_eq n p f kw pk a rd : run_body n p f kw pk a rd =
    pbind (acc ERun) (fun i =>
    pbind (acc (EHist (loc p) (HAttempt a i))) (fun _ =>
    pbind (mtry (pbind (request data_prefix hash_of ses p a (Some (as_args pk))) (fun _ => after_request n p f kw pk a i rd))) (fun out =>
    pbind (acc (EHist (loc p) (HOutput a i))) (fun _ => mres out)))).
  Proof. reflexivity. Qed.
  Lemma tsk_store p a b (rd : bool) (x : arg D) :
    tsk (D := D) (pbind (mtry (pbind (if rd then acc (ESetP p (Some 1%Q)) else pret tt) (fun _ => set_result ses p a b))) (fun o =>
      pbind (acc (ESetP p (pcc ses p))) (fun _ => pbind (mres o) (fun _ => pbind (drop_request ses p a) (fun _ => pret x))))).
  Proof.
    intros σ. apply ts_pbind, ts_mtry. apply ts_pbind.
    eapply (ts_mono _ _ (fun _ _ => True)); [|destruct rd; [by apply ts_acc|done]]. intros σ1 [[u0|e]|] _ _; [| |done].
    - eapply ts_mono; [|apply ts_set_result]. intros σ2 [o|] _ H2; [|done].
      apply ts_pbind, ts_acc; [done|]. intros μ σ3 μ' u' Hp. cbn in Hp. injection Hp as <- _ _.
      destruct o as [[]|e]; [|done]. apply ts_pbind. cbn [ts mres]. apply ts_pbind. unfold drop_request. apply ts_acc; [by apply H2|done].
    - apply ts_pbind, ts_acc; [done|]. intros _ σ3 _ u' _. done.
  Qed.
  Lemma tsk_after_request n p f kw pk a i rd : tsk (after_request n p f kw pk a i rd).
  Proof.
    unfold after_request.
    apply tsk_pbind; [apply tsk_check_guards, tsk_execute|]. intros g. apply tsk_pbind; [unfold massert; destruct g; apply tsk_done|]. intros _.
    apply tsk_pbind; [apply tsk_unpack_in|]. intros u. apply tsk_pbind; [apply tsk_run_prog, tsk_execute|]. intros x. apply tsk_pbind; [apply tsk_mk_addr|]. intros b.
    apply tsk_pbind; [apply tsk_acc; by intros|]. intros _.
    apply tsk_store.
  Qed.
  (** the tail of a successful execution *)
  Lemma store_run p a b (rd : bool) (x : arg D) σ μ σ' μ' out :
    run (pbind (mtry (pbind (if rd then acc (ESetP p (Some 1%Q)) else pret tt) (fun _ => set_result ses p a b))) (fun o =>
      pbind (acc (ESetP p (pcc ses p))) (fun _ => pbind (mres o) (fun _ => pbind (drop_request ses p a) (fun _ => pret x))))) σ μ = (σ', μ', Some out) ->
    (forall l, hist (σ' l) = hist (σ l)) /\
    (forall y, out = Ok y -> y = x /\ a ∉ reqs (σ' (loc p)) /\ is_Some (ress (σ' (loc p)) !! a) /\
      (ress (σ (loc p)) !! a = None -> ress (σ' (loc p)) !! a = Some b)).
  Proof.
    intros E9. rewrite run_pbind, run_mtry in E9.
    destruct (run_setp p rd (set_result ses p a b) σ μ) as (μ7 & E7 & R7 & _ & L7). rewrite E7 in E9.
    destruct (run (set_result ses p a b) σ μ7) as [[σ8 μ8] [r8|]] eqn:E8; [|done].
    destruct (set_result_run _ _ _ _ _ _ _ _ _ E8) as (K8 & _ & _ & H8 & _).
    destruct (ts_run _ _ _ _ _ _ _ (ts_set_result ses p a b σ) E8) as [T8 _].
    cbv beta iota in E9. rewrite run_pbind, run_acc in E9. cbn [perform] in E9. rewrite run_pbind in E9. cbn [run mres] in E9.
    destruct r8 as [[]|e].
    - rewrite run_pbind in E9. unfold drop_request in E9. cbn [perform run acc pret] in E9. injection E9 as <- _ <-. split.
      + intros l. unfold upd. destruct (decide (l = loc p)) as [->|]; apply H8.
      + intros y [= <-]. split; [done|]. unfold upd. rewrite decide_True by done. cbn. split; [set_solver|]. split; [by apply T8|].
        intros Hn. clear -E8 Hn. unfold set_result in E8. rewrite run_pbind, run_acc in E8. cbn [perform] in E8.
        rewrite bool_decide_false in E8 by (rewrite Hn; by intros []). cbn in E8. injection E8 as <- _. unfold upd. rewrite decide_True by done. cbn. by rewrite lookup_insert.
    - cbn in E9. injection E9 as <- _ <-. split; [apply H8|]. done.
  Qed.
  Lemma prefix_kept σ σ' l : kept σ σ' -> exists k, hist (σ' l) = hist (σ l) ++ k.
  Proof. intros (_ & _ & _ & H). exact (H l). Qed.
  Lemma after_request_run n p f kw pk a i rd σ μ σ' μ' x : run (after_request n p f kw pk a i rd) σ μ = (σ', μ', Some (Ok x)) ->
    exists σ4 k', kept σ σ4 /\
      hist (σ4 (loc p)) = hist (σ (loc p)) ++ k' /\ hist (σ' (loc p)) = hist (σ4 (loc p)) ++ [HResult a i (addr_of_arg x)] /\
      a ∉ reqs (σ' (loc p)) /\ is_Some (ress (σ' (loc p)) !! a) /\
      (ress (σ4 (loc p)) !! a = None -> ress (σ' (loc p)) !! a = Some (addr_of_arg x)).
  Proof.
    unfold after_request. intros E9.
    rewrite run_pbind in E9. destruct (run (check_guards _ _ _ _ _ _ _) σ μ) as [[σ2 μ2] [[g|e]|]] eqn:E2; [|done|done].
    destruct (ts_run _ _ _ _ _ _ _ (tsk_check_guards data_prefix hash_of ses _ p _ _ (tsk_execute data_prefix hash_of ses body guards_of n p) σ) E2) as [_ K2].
    rewrite run_pbind in E9. destruct g; cbn [massert run pret pfail] in E9; [|done].
    rewrite run_pbind in E9. destruct (run (unpack_in _ _ _) σ2 μ2) as [[σ3 μ3] [[u|e]|]] eqn:E3; [|done|done].
    destruct (ts_run _ _ _ _ _ _ _ (tsk_unpack_in ses p _ σ2) E3) as [_ K3].
    rewrite run_pbind in E9. destruct (run (run_prog _ _ _ _ _ _) σ3 μ3) as [[σ4 μ4] [[z|e]|]] eqn:E4; [|done|done].
    destruct (ts_run _ _ _ _ _ _ _ (tsk_run_prog data_prefix hash_of ses _ p _ (tsk_execute data_prefix hash_of ses body guards_of n p) σ3) E4) as [_ K4].
    rewrite run_pbind in E9. destruct (mk_addr_run data_prefix hash_of ses p z σ4 μ4) as (σ5 & E5 & S5). rewrite E5 in E9. cbv beta iota in E9.
    rewrite run_pbind, run_acc in E9. cbn [perform] in E9.
    destruct (store_run _ _ _ _ _ _ _ _ _ _ E9) as [H9 Hy]. destruct (Hy x eq_refl) as (-> & Hq & Hr & Hw).
    assert (K : kept σ σ4) by (eapply kept_trans; [exact K2|]; by eapply kept_trans). destruct (prefix_kept _ _ (loc p) K) as [k' Hk'].
    exists σ4, k'. split; [done|]. split; [done|]. split.
    { rewrite H9. unfold upd. rewrite decide_True by done. cbn. by rewrite (proj2 (proj2 (S5 (loc p)))). }
    split; [done|]. split; [done|]. intros Hn. apply Hw. unfold upd. rewrite decide_True by done. cbn. by rewrite (proj1 (S5 (loc p))).
  Qed.

  (** ** running the body *)
  Lemma run_body_effects n p f kw pk a (rd : bool) σ μ σ' μ' out :
    (if rd then is_Some (ress (σ (loc p)) !! a) else forall q, q = p \/ q ∈ others ses (Some p) -> ress (σ (loc q)) !! a = None) ->
    run (run_body n p f kw pk a rd) σ μ = (σ', μ', Some out) ->
    exists k, hist (σ' (loc p)) = hist (σ (loc p)) ++ [HAttempt a (rid μ (nrid μ))] ++ k ++ [HOutput a (rid μ (nrid μ))] /\
      match out with
      | Ok x => (exists k', k = k' ++ [HResult a (rid μ (nrid μ)) (addr_of_arg x)]) /\ a ∉ reqs (σ' (loc p)) /\ is_Some (ress (σ' (loc p)) !! a)
      | Err e => a ∈ reqs (σ' (loc p)) \/ is_Some (ress (σ' (loc p)) !! a)
      end.
  Proof.
    intros Hrd. rewrite run_body_eq, run_pbind, run_acc. cbn [perform]. rewrite run_pbind, run_acc. cbn [perform].
    set (i := rid μ (nrid μ)). set (σ0 := upd (loc p) (add_hist _ _) σ). set (μ0 := Local _ _ _ _ _). rewrite run_pbind, run_mtry.
    assert (H0 : hist (σ0 (loc p)) = hist (σ (loc p)) ++ [HAttempt a i]). { unfold σ0, upd. by rewrite decide_True. }
    assert (R0 : forall l, ress (σ0 l) = ress (σ l)). { intros l. unfold σ0, upd. by destruct (decide (l = loc p)) as [->|]. }
    destruct (run (pbind (request _ _ _ _ _ _) _) σ0 μ0) as [[σ9 μ9] r9] eqn:E9.
    destruct r9 as [r9|]; [|done]. rewrite run_pbind, run_acc. cbn [perform run mres]. intros H.
    assert (r9 = out) as ->. { clear -H. by destruct r9; cbn in H; injection H. }
    assert (Hσ : σ' = upd (loc p) (add_hist (HOutput a i) (σ9 (loc p))) σ9). { clear -H. by destruct out; cbn in H; injection H as <- _. } clear H.
    assert (Hh : hist (σ' (loc p)) = hist (σ9 (loc p)) ++ [HOutput a i]). { subst σ'. unfold upd. by rewrite decide_True. }
    assert (Hq : reqs (σ' (loc p)) = reqs (σ9 (loc p)) /\ ress (σ' (loc p)) = ress (σ9 (loc p))). { subst σ'. unfold upd. by rewrite decide_True. }
    destruct Hq as [Hq Hr]. rewrite Hq, Hr, Hh. clear Hσ Hh Hq Hr σ'.
    rewrite run_pbind in E9. destruct (run (request _ _ _ _ _ _) σ0 μ0) as [[σ1 μ1] r1] eqn:E1.
    destruct (ts_run _ _ _ _ _ _ _ (tsk_request data_prefix hash_of ses p a _ σ0) E1) as [_ K1].
    assert (T1 : hist (σ1 (loc p)) = hist (σ0 (loc p)) /\ (a ∈ reqs (σ1 (loc p)) \/ is_Some (ress (σ1 (loc p)) !! a))).
    { destruct rd.
      - rewrite <- R0 in Hrd. split; [|right; eapply in_ress_kept; [exact K1|exact Hrd]].
        unfold request in E1. rewrite run_pbind, ready_stored in E1 by done. cbn in E1. injection E1 as <- _ _. unfold upd. by rewrite decide_True.
      - unfold request in E1. rewrite run_pbind, ready_none in E1 by (intros q Hq; rewrite R0; by apply Hrd).
        rewrite run_pbind, run_acc in E1. cbn [perform] in E1. case_bool_decide as Hin; cbn in E1; injection E1 as <- _ _; [by auto|].
        unfold upd. rewrite decide_True by done. cbn. split; [done|]. left. set_solver. }
    destruct T1 as [T1 T1'].
    destruct r1 as [[[]|e]|]; [| |done].
    - destruct out as [x|e].
      + destruct (after_request_run _ _ _ _ _ _ _ _ _ _ _ _ _ E9) as (σ4 & k' & K & Hk & Hh & Hq & Hr & _).
        eexists. split; [|split; [by exists k'|done]]. rewrite Hh, Hk, T1, H0, <- !app_assoc. done.
      + destruct (ts_run _ _ _ _ _ _ _ (tsk_after_request n p f kw pk a i rd σ1) E9) as [_ K2].
        destruct (prefix_kept _ _ (loc p) K2) as [k Hk]. exists k. split; [rewrite Hk, T1, H0, <- !app_assoc; done|].
        destruct T1' as [Hin|Hin]; [by apply K2|]. right. by eapply in_ress_kept.
    - injection E9 as <- _ <-. exists []. split; [rewrite T1, H0, <- !app_assoc; done|]. done.
  Qed.

  Lemma ready_false cur p a c σ μ σ' μ' : run (ready data_prefix hash_of ses cur p a c) σ μ = (σ', μ', Some (Ok false)) ->
    σ' = σ /\ μ' = μ /\ forall q, q = p \/ q ∈ others ses cur -> ress (σ (loc q)) !! a = None.
  Proof.
    unfold ready. rewrite run_pbind, run_acc. cbn [perform]. case_bool_decide as Hh; [done|]. intros H.
    assert (forall qs, run (ready_elsewhere data_prefix hash_of ses p a c qs) σ μ = (σ', μ', Some (Ok false)) ->
      σ' = σ /\ μ' = μ /\ forall q, q ∈ qs -> ress (σ (loc q)) !! a = None) as Hq.
    { clear H. induction qs as [|q qs IH]; cbn [ready_elsewhere]; intros H.
      - injection H as <- <-. split; [done|]. split; [done|]. intros q Hq. by apply elem_of_nil in Hq.
      - rewrite run_pbind, run_acc in H. cbn [perform] in H. case_bool_decide as Hh'.
        + exfalso. rewrite run_pbind, run_acc in H. cbn [perform] in H. destruct (ress (σ (loc q)) !! a) as [b|]; [|done].
          rewrite run_pbind, run_acc in H. cbn [perform] in H. destruct (vals (σ (loc q)) !! b) as [v|]; [|done].
          rewrite run_pbind in H. destruct (run (mk_addr _ _ _ _ _) σ μ) as [[σ2 μ2] [[b'|e]|]]; [|done|done].
          rewrite run_pbind in H. destruct (run (set_result _ _ _ _) σ2 μ2) as [[σ3 μ3] [[u|e]|]]; [|done|done].
          rewrite run_pbind in H. destruct (run (sync _ _ _ _) σ3 μ3) as [[σ4 μ4] [[u'|e]|]]; done.
        + destruct (IH H) as (-> & -> & Ho). split; [done|]. split; [done|]. intros q' Hq'. apply elem_of_cons in Hq' as [->|Hq']; [by apply eq_None_not_Some|by apply Ho]. }
    destruct (Hq _ H) as (-> & -> & Ho). split; [done|]. split; [done|]. intros q [->|Hin]; [by apply eq_None_not_Some|by apply Ho].
  Qed.

  (** ** a whole call *)
  Lemma call_effects n p f kw σ μ σ' μ' out : run (execute n p f kw) σ μ = (σ', μ', Some out) ->
    ((forall l, reqs (σ' l) = reqs (σ l) /\ hist (σ' l) = hist (σ l)) /\
     forall x, out = Ok x -> exists b v, ress (σ' (loc p)) !! call_addr f kw = Some b /\ vals (σ' (loc p)) !! b = Some v /\ x = AVal v) \/
    (exists i k,
      hist (σ' (loc p)) = hist (σ (loc p)) ++ [HAttempt (call_addr f kw) i] ++ k ++ [HOutput (call_addr f kw) i] /\
      match out with
      | Ok x => (exists k', k = k' ++ [HResult (call_addr f kw) i (addr_of_arg x)]) /\ call_addr f kw ∉ reqs (σ' (loc p)) /\ is_Some (ress (σ' (loc p)) !! call_addr f kw)
      | Err e => call_addr f kw ∈ reqs (σ' (loc p)) \/ is_Some (ress (σ' (loc p)) !! call_addr f kw)
      end).
  Proof.
    destruct n as [|n]; [done|]. rewrite execute_unfold. destruct (sorted_kwargs kw) as [s|e] eqn:Es.
    2: { cbn. intros [= <- _ <-]. left. done. }
    rewrite <- Es. destruct (run_address0 p f kw s σ μ Es) as (σ1 & S1 & Hrun). rewrite Hrun. clear Hrun. set (a := call_addr f kw).
    rewrite run_pbind, run_acc. cbn [perform]. set (μ1 := Local _ _ _ _ _). rewrite run_pbind.
    destruct (run (ready _ _ _ _ _ _ _) σ1 μ1) as [[σ2 μ2] r2] eqn:E2.
    destruct (quiet_run _ _ _ _ _ _ (ready_evs data_prefix hash_of ses (Some p) p a _) E2) as [Q2 _].
    assert (Q : forall l, reqs (σ2 l) = reqs (σ l) /\ hist (σ2 l) = hist (σ l)).
    { intros l. destruct (S1 l) as (_ & A & B), (Q2 l) as [A' B']. split; congruence. }
    destruct r2 as [[rd|e]|]; [| |done].
    2: { intros [= <- _ <-]. left. done. }
    destruct (ts_run _ _ _ _ _ _ _ (ts_ready data_prefix hash_of ses (Some p) p a _ σ1) E2) as [T2 _].
    destruct (rd && _) eqn:Erd.
    - intros H. left. destruct rd; [|done].
      destruct (T2 eq_refl) as [b Hb]. unfold get_ready in H. rewrite run_pbind, run_acc in H. cbn [perform] in H. rewrite Hb in H.
      rewrite run_pbind, run_acc in H. cbn [perform] in H. destruct (vals (σ2 (loc p)) !! b) as [v|] eqn:Ev; cbn in H.
      + injection H as <- _ <-. split; [done|]. intros x [= <-]. eauto.
      + injection H as <- _ <-. split; [done|]. done.
    - intros H. right.
      destruct (run_body_effects n p f kw (pack (sort_keys kw)) a rd σ2 μ2 σ' μ' out) as (k & Hk & Ho).
      + destruct rd; [by apply T2|]. destruct (ready_false _ _ _ _ _ _ _ _ E2) as (-> & _ & Hn). exact Hn.
      + exact H.
      + exists (rid μ2 (nrid μ2)), k. rewrite (proj2 (Q (loc p))) in Hk. by split.
  Qed.

  (** ** when is a result stored while other calls run *)
  Definition res_ev (a : addr) (e : event) : Prop := match e with EWriteRes _ a' _ => a' = a | _ => True end.
  Lemma res_run {X} a (t : tree (D := D) X) σ μ σ' μ' x : evs (res_ev a) t -> run t σ μ = (σ', μ', x) ->
    forall l a', a' <> a -> ress (σ' l) !! a' = ress (σ l) !! a'.
  Proof.
    intros He Hr. eapply (evs_run (res_ev a) (fun σ μ σ' μ' => forall l a', a' <> a -> ress (σ' l) !! a' = ress (σ l) !! a')); [| | |exact He|exact Hr].
    - done.
    - intros s1 m1 s2 m2 s3 m3 A B l a' Hne. by rewrite B, A.
    - intros e s m s1 m1 y Hv Hp l' a' Hne. destruct e; cbn in Hv, Hp; injection Hp as <- _ _; try done; unfold upd;
        (destruct (decide (l' = l)) as [->|]; [|done]); try done. subst. cbn. by rewrite lookup_insert_ne.
  Qed.
  Lemma val_res {X} a (t : tree (D := D) X) : evs val_ev t -> evs (res_ev a) t.
  Proof. apply evs_mono. by intros []. Qed.
  Lemma set_result_res p a b : evs (res_ev a) (set_result (D := D) ses p a b).
  Proof.
    unfold set_result. apply evs_pbind; [by split|]. intros h. destruct h; [|by split]. apply evs_pbind; [by split|]. intros [q|]; [|done].
    destruct (Qle_bool q 0); [done|]. apply evs_pbind; [by split|]. intros x. destruct (Qle_bool q x); [done|]. apply evs_pbind; [by split|].
    intros o. unfold massert. by destruct (bool_decide _).
  Qed.
  Lemma ready_res cur p a c : evs (res_ev a) (ready data_prefix hash_of ses cur p a c).
  Proof.
    unfold ready. apply evs_pbind; [by split|]. intros h. destruct h; [done|]. induction (others ses cur) as [|q qs IH]; cbn [ready_elsewhere]; [done|].
    apply evs_pbind; [by split|]. intros h. destruct h; [|done]. apply evs_pbind; [by split|]. intros [b|]; [|done]. apply evs_pbind; [by split|]. intros [v|]; [|done].
    apply evs_pbind; [apply val_res, mk_addr_evs|]. intros b'. apply evs_pbind; [apply set_result_res|]. intros _. apply evs_pbind; [apply val_res, sync_evs|done].
  Qed.
  Lemma request_res p a c : evs (res_ev a) (request data_prefix hash_of ses p a c).
  Proof.
    unfold request. apply evs_pbind; [apply ready_res|]. intros rd. destruct rd; [by split|]. apply evs_pbind; [by split|]. intros h. by destruct h.
  Qed.

  Definition unknown σ a : Prop := forall q, q < length (places ses) -> ress (σ (loc q)) !! a = None.
  Definition attempted p a σ σ' : Prop := exists i k, hist (σ' (loc p)) = hist (σ (loc p)) ++ k /\ HAttempt a i ∈ k.
  Lemma attempted_l p a σ σ1 σ' : kept σ σ1 -> attempted p a σ1 σ' -> attempted p a σ σ'.
  Proof.
    intros K (i & k & Hk & Hin). destruct (prefix_kept _ _ (loc p) K) as [k1 Hk1]. exists i, (k1 ++ k). rewrite Hk, Hk1, app_assoc. split; [done|].
    apply elem_of_app. by right.
  Qed.
  Lemma attempted_r p a σ σ1 σ' : attempted p a σ σ1 -> kept σ1 σ' -> attempted p a σ σ'.
  Proof.
    intros (i & k & Hk & Hin) K. destruct (prefix_kept _ _ (loc p) K) as [k1 Hk1]. exists i, (k ++ k1). rewrite Hk1, Hk, app_assoc. split; [done|].
    apply elem_of_app. by left.
  Qed.
  Definition inside p a {X} (t : tree (D := D) X) : Prop := tsk t /\
    forall σ μ σ' μ' x, unknown σ a -> run t σ μ = (σ', μ', x) -> unknown σ' a \/ attempted p a σ σ'.
  Lemma inside_pbind p a {X Y} (m : M X) (g : X -> @M D Y) : inside p a m -> (forall x, inside p a (g x)) -> inside p a (pbind m g).
  Proof.
    intros [Tm Hm] Hg. split; [apply tsk_pbind; [done|]; intros x; apply Hg|]. intros σ μ σ' μ' x Hu Hr. rewrite run_pbind in Hr.
    destruct (run m σ μ) as [[σ1 μ1] r] eqn:E1. destruct (ts_run _ _ _ _ _ _ _ (Tm σ) E1) as [_ K1].
    destruct r as [[y|e]|]; [|injection Hr as <- _ _; by eapply Hm..].
    destruct (ts_run _ _ _ _ _ _ _ (proj1 (Hg y) σ1) Hr) as [_ K2]. destruct (Hm _ _ _ _ _ Hu E1) as [Hu1|Ha].
    - destruct (proj2 (Hg y) _ _ _ _ _ Hu1 Hr) as [?|?]; [by left|right]. by eapply attempted_l.
    - right. by eapply attempted_r.
  Qed.
  Lemma inside_mtry p a {X} (m : @M D X) : inside p a m -> inside p a (mtry m).
  Proof.
    intros [Tm Hm]. split; [by apply tsk_mtry|]. intros σ μ σ' μ' x Hu Hr. rewrite run_mtry in Hr. destruct (run m σ μ) as [[σ1 μ1] r] eqn:E1.
    injection Hr as <- _ _. by eapply Hm.
  Qed.
  Lemma inside_same p a {X} (t : tree (D := D) X) : tsk t -> (forall σ μ σ' μ' x, run t σ μ = (σ', μ', x) -> forall l, ress (σ' l) !! a = ress (σ l) !! a) -> inside p a t.
  Proof. intros T H. split; [done|]. intros σ μ σ' μ' x Hu Hr. left. intros q Hq. rewrite (H _ _ _ _ _ Hr). by apply Hu. Qed.
  Lemma inside_val p a {X} (t : tree (D := D) X) : tsk t -> evs val_ev t -> inside p a t.
  Proof. intros T H. apply inside_same; [done|]. intros σ μ σ' μ' x Hr l. by rewrite (proj1 (proj1 (val_run _ _ _ _ _ _ H Hr) l)). Qed.
  Lemma inside_done p a {X} (x : X) : inside p a (Done x).
  Proof. apply inside_val; [apply tsk_done|done]. Qed.
  Lemma inside_acc p a (e : event) : match e with EWriteRes _ _ _ | EWriteVal _ _ _ | EDelReq _ _ => False | _ => True end -> inside p a (acc e).
  Proof.
    intros He. apply inside_same; [apply tsk_acc; by destruct e|]. intros σ μ σ' μ' x Hr l'. rewrite run_acc in Hr.
    destruct e; cbn in He, Hr; try done; injection Hr as <- _ _; try done; unfold upd; (destruct (decide (l' = l)) as [->|]; done).
  Qed.
  Lemma inside_other p a a' {X} (t : tree (D := D) X) : tsk t -> evs (res_ev a') t -> a <> a' -> inside p a t.
  Proof. intros T H Hne. apply inside_same; [done|]. intros σ μ σ' μ' x Hr l. by eapply res_run. Qed.
  Lemma unknown_none σ a p : p < length (places ses) -> unknown σ a -> forall q, q = p \/ q ∈ others ses (Some p) -> ress (σ (loc q)) !! a = None.
  Proof. intros Hp Hu q [->|Hq]; [by apply Hu|]. apply Hu. unfold others in Hq. apply elem_of_list_filter in Hq as [_ Hq]. apply elem_of_seq in Hq. lia. Qed.
  Lemma inside_request p a a' c : p < length (places ses) -> inside p a (request data_prefix hash_of ses p a' c).
  Proof.
    intros Hp. destruct (decide (a = a')) as [->|Hne]; [|eapply inside_other; [apply tsk_request|apply request_res|done]].
    split; [apply tsk_request|]. intros σ μ σ' μ' x Hu Hr. left. unfold request in Hr. rewrite run_pbind, ready_none in Hr by (by apply unknown_none).
    rewrite run_pbind, run_acc in Hr. cbn [perform] in Hr. case_bool_decide; cbn in Hr; injection Hr as <- _ _; [done|].
    intros q Hq. unfold upd. destruct (decide (loc q = loc p)) as [_|]; [|by apply Hu]. cbn. exact (Hu p Hp).
  Qed.
  Lemma inside_swarm_with p a f kw : p < length (places ses) -> inside p a (swarm_with data_prefix hash_of ses p f kw).
  Proof.
    intros Hp. unfold swarm_with. apply inside_pbind; [apply inside_done|]. intros s. apply inside_pbind; [apply inside_val; [apply tsk_pack_in|apply pack_in_evs]|]. intros pk.
    apply inside_pbind; [apply inside_val; [apply tsk_result_address|apply result_address_evs]|]. intros a'.
    apply inside_pbind; [by apply inside_request|]. intros _. apply inside_done.
  Qed.
  Lemma inside_run_prog p a c (b : prog (D := D)) : p < length (places ses) -> (forall f kw, inside p a (c f kw)) -> inside p a (run_prog data_prefix hash_of ses c p b).
  Proof.
    intros Hp Hc. induction b as [x|e|f kw k IH|f kw k IH|k IH]; cbn [run_prog]; [apply inside_done|apply inside_done| | |].
    - apply inside_pbind; [apply inside_mtry, Hc|apply IH].
    - apply inside_pbind; [by apply inside_mtry, inside_swarm_with|apply IH].
    - apply inside_pbind; [|apply IH]. by apply inside_acc.
  Qed.
  Lemma inside_check_guards p a c gs kw : p < length (places ses) -> (forall f kw, inside p a (c f kw)) -> inside p a (check_guards data_prefix hash_of ses c p gs kw).
  Proof.
    intros Hp Hc. induction gs as [|g gs IH]; cbn [check_guards]; [apply inside_done|]. apply inside_pbind.
    - apply inside_mtry. destruct g; [apply Hc|by apply inside_run_prog].
    - intros [x|e]; [done|apply inside_done].
  Qed.
  Lemma inside_execute p a n : p < length (places ses) -> forall f kw, inside p a (execute n p f kw).
  Proof.
    intros Hp. induction n as [|n IH]; intros f kw; [apply inside_done|]. split; [apply tsk_execute|]. intros σ μ σ' μ' x Hu.
    rewrite execute_unfold. destruct (sorted_kwargs kw) as [s|e] eqn:Es.
    2: { cbn. intros [= <- _ _]. by left. }
    rewrite <- Es. destruct (run_address0 p f kw s σ μ Es) as (σ1 & S1 & Hrun). rewrite Hrun. clear Hrun.
    assert (Hu1 : unknown σ1 a). { intros q Hq. rewrite (proj1 (S1 (loc q))). by apply Hu. }
    assert (Hat : forall s', attempted p a σ1 s' -> attempted p a σ s').
    { intros s' (i & k & Hk & Hin). exists i, k. by rewrite <- (proj2 (proj2 (S1 (loc p)))). }
    destruct (decide (a = call_addr f kw)) as [->|Hne].
    - rewrite run_pbind, run_acc. cbn [perform]. rewrite run_pbind, ready_none by (by apply unknown_none). cbn [andb]. intros Hr. right. apply Hat.
      rewrite run_body_eq, run_pbind, run_acc in Hr. cbn [perform] in Hr. rewrite run_pbind, run_acc in Hr. cbn [perform] in Hr.
      set (i := rid μ (nrid μ)) in *. cbn [rid nrid] in Hr. fold i in Hr.
      match type of Hr with run ?t ?s0 _ = _ => assert (Ht : tsk t) end.
      { apply tsk_pbind; [apply tsk_mtry, tsk_pbind; [apply tsk_request|intros _; apply tsk_after_request]|]. intros out. apply tsk_pbind; [apply tsk_acc; by intros|]. intros _. apply tsk_done. }
      destruct (ts_run _ _ _ _ _ _ _ (Ht _) Hr) as [_ K]. eapply attempted_r; [|exact K]. exists i, [HAttempt (call_addr f kw) i].
      split; [|by left]. unfold upd. by rewrite decide_True.
    - set (a' := call_addr f kw) in *. intros Hr.
      match type of Hr with run ?t _ _ = _ => assert (Ht : inside p a t) end.
      { apply inside_pbind; [by apply inside_acc|]. intros y. apply inside_pbind; [eapply inside_other; [apply tsk_ready|apply ready_res|done]|]. intros rd.
        destruct (rd && _).
        - apply inside_same; [apply tsk_get_ready|]. intros s1 m1 s2 m2 z Hz l. unfold get_ready in Hz. rewrite run_pbind, run_acc in Hz. cbn [perform] in Hz.
          destruct (ress (s1 (loc p)) !! a') as [b|]; [|cbn in Hz; by injection Hz as <- _ _]. rewrite run_pbind, run_acc in Hz. cbn [perform] in Hz.
          destruct (vals (s1 (loc p)) !! b); cbn in Hz; by injection Hz as <- _ _.
        - rewrite run_body_eq. apply inside_pbind; [by apply inside_acc|]. intros i. apply inside_pbind; [by apply inside_acc|]. intros _.
          apply inside_pbind; [|intros out; apply inside_pbind; [by apply inside_acc|]; intros _; apply inside_done].
          apply inside_mtry, inside_pbind; [by apply inside_request|]. intros _.
          split; [apply tsk_after_request|]. intros s0 m0 s9 m9 z Hz Hrz. unfold after_request in Hrz.
          match type of Hrz with run ?t _ _ = _ => assert (Hin : inside p a t); [|by eapply Hin] end.
          assert (Hst : forall (b : addr) (w : arg D), inside p a (pbind (mtry (pbind (if rd then acc (ESetP p (Some 1%Q)) else pret tt) (fun _ => set_result ses p a' b))) (fun o =>
             pbind (acc (ESetP p (pcc ses p))) (fun _ => pbind (mres o) (fun _ => pbind (drop_request ses p a') (fun _ => pret w)))))).
          { intros b w. eapply (inside_other p a a'); [| |done].
            - apply tsk_store.
            - apply evs_pbind; [apply evs_mtry, evs_pbind; [by destruct rd; [split|]|intros _; apply set_result_res]|]. intros o. apply evs_pbind; [by split|]. intros _.
              apply evs_pbind; [done|]. intros _. apply evs_pbind; [by split|done]. }
          apply inside_pbind; [by apply inside_check_guards|]. intros g. apply inside_pbind; [unfold massert; destruct g; apply inside_done|]. intros _.
          apply inside_pbind; [apply inside_val; [apply tsk_unpack_in|apply unpack_in_evs]|]. intros u.
          apply inside_pbind; [by apply inside_run_prog|]. intros w. apply inside_pbind; [apply inside_val; [apply tsk_mk_addr|apply mk_addr_evs]|]. intros b.
          apply inside_pbind; [by apply inside_acc|]. intros _. apply Hst. }
      destruct (proj2 Ht _ _ _ _ _ Hu1 Hr) as [?|?]; [by left|right; by apply Hat].
  Qed.

  Lemma inside_after n p f kw pk a i rd σ μ σ' μ' x : p < length (places ses) -> unknown σ a ->
    run (after_request n p f kw pk a i rd) σ μ = (σ', μ', Some (Ok x)) ->
    ress (σ' (loc p)) !! a = Some (addr_of_arg x) \/ attempted p a σ σ'.
  Proof.
    intros Hp Hu Hr0. pose proof Hr0 as E9. unfold after_request in E9.
    rewrite run_pbind in E9. destruct (run (check_guards _ _ _ _ _ _ _) σ μ) as [[σ2 μ2] [[g|e]|]] eqn:E2; [|done|done].
    destruct (ts_run _ _ _ _ _ _ _ (tsk_check_guards data_prefix hash_of ses _ p _ _ (tsk_execute data_prefix hash_of ses body guards_of n p) σ) E2) as [_ K2].
    pose proof (proj2 (inside_check_guards p a _ (guards_of f) kw Hp (inside_execute p a n Hp)) _ _ _ _ _ Hu E2) as I2.
    rewrite run_pbind in E9. destruct g; cbn [massert run pret pfail] in E9; [|done].
    rewrite run_pbind in E9. destruct (run (unpack_in _ _ _) σ2 μ2) as [[σ3 μ3] [[u|e]|]] eqn:E3; [|done|done].
    destruct (ts_run _ _ _ _ _ _ _ (tsk_unpack_in ses p _ σ2) E3) as [_ K3].
    destruct (val_run _ _ _ _ _ _ (unpack_in_evs ses p _) E3) as [S3 _].
    rewrite run_pbind in E9. destruct (run (run_prog _ _ _ _ _ _) σ3 μ3) as [[σ4 μ4] [[z|e]|]] eqn:E4; [|done|done].
    destruct (ts_run _ _ _ _ _ _ _ (tsk_run_prog data_prefix hash_of ses _ p _ (tsk_execute data_prefix hash_of ses body guards_of n p) σ3) E4) as [_ K4].
    rewrite run_pbind in E9. destruct (mk_addr_run data_prefix hash_of ses p z σ4 μ4) as (σ5 & E5 & S5). rewrite E5 in E9. cbv beta iota in E9.
    rewrite run_pbind, run_acc in E9. cbn [perform] in E9.
    destruct (store_run _ _ _ _ _ _ _ _ _ _ E9) as [H9 Hy]. destruct (Hy x eq_refl) as (-> & _ & _ & Hw).
    assert (K49 : hist (σ' (loc p)) = hist (σ4 (loc p)) ++ [HResult a i (addr_of_arg z)]).
    { rewrite H9. unfold upd. rewrite decide_True by done. cbn. by rewrite (proj2 (proj2 (S5 (loc p)))). }
    assert (A49 : attempted p a σ σ4 -> attempted p a σ σ').
    { intros (j & k & Hk & Hin). exists j, (k ++ [HResult a i (addr_of_arg z)]). rewrite K49, Hk, app_assoc. split; [done|]. apply elem_of_app. by left. }
    assert (I4 : unknown σ4 a \/ attempted p a σ σ4).
    { destruct I2 as [Hu2|Ha].
      - assert (Hu3 : unknown σ3 a). { intros q Hq. rewrite (proj1 (S3 (loc q))). by apply Hu2. }
        destruct (proj2 (inside_run_prog p a _ _ Hp (inside_execute p a n Hp)) _ _ _ _ _ Hu3 E4) as [?|?]; [by left|right].
        eapply attempted_l; [|done]. by eapply kept_trans.
      - right. eapply attempted_r; [exact Ha|]. by eapply kept_trans. }
    destruct I4 as [Hu4|Ha]; [left|right; by apply A49]. apply Hw. unfold upd. rewrite decide_True by done. cbn. rewrite (proj1 (S5 (loc p))). by apply Hu4.
  Qed.
  Lemma first_result n p f kw σ μ σ' μ' x : p < length (places ses) -> unknown σ (call_addr f kw) ->
    run (execute n p f kw) σ μ = (σ', μ', Some (Ok x)) ->
    ress (σ' (loc p)) !! call_addr f kw = Some (addr_of_arg x) \/
    exists i j k, hist (σ' (loc p)) = hist (σ (loc p)) ++ [HAttempt (call_addr f kw) i] ++ k /\ HAttempt (call_addr f kw) j ∈ k.
  Proof.
    intros Hp Hu. destruct n as [|n]; [done|]. rewrite execute_unfold. destruct (sorted_kwargs kw) as [s|e] eqn:Es; [|done].
    rewrite <- Es. destruct (run_address0 p f kw s σ μ Es) as (σ1 & S1 & Hrun). rewrite Hrun. clear Hrun. set (a := call_addr f kw) in *.
    assert (Hu1 : unknown σ1 a). { intros q Hq. rewrite (proj1 (S1 (loc q))). by apply Hu. }
    rewrite run_pbind, run_acc. cbn [perform]. rewrite run_pbind, ready_none by (by apply unknown_none). cbn [andb].
    rewrite run_body_eq, run_pbind, run_acc. cbn [perform]. rewrite run_pbind, run_acc. cbn [perform rid nrid].
    set (i := rid μ (nrid μ)). set (σ2 := upd (loc p) (add_hist _ _) σ1). set (μ2 := Local _ _ _ _ _). rewrite run_pbind, run_mtry.
    assert (H2 : hist (σ2 (loc p)) = hist (σ (loc p)) ++ [HAttempt a i]). { unfold σ2, upd. rewrite decide_True by done. cbn. by rewrite (proj2 (proj2 (S1 (loc p)))). }
    assert (Hu2 : unknown σ2 a). { intros q Hq. unfold σ2, upd. destruct (decide (loc q = loc p)); [cbn|]; by apply Hu1. }
    rewrite run_pbind. unfold request. rewrite run_pbind, ready_none by (by apply unknown_none). rewrite run_pbind, run_acc. cbn [perform].
    assert (forall σ3 μ3, ress (σ3 (loc p)) = ress (σ2 (loc p)) -> unknown σ3 a -> hist (σ3 (loc p)) = hist (σ2 (loc p)) ->
      (let '(σ4, μ4, r) := (let '(σ5, μ5, r) := run (after_request n p f kw (pack (sort_keys kw)) a i false) σ3 μ3 in (σ5, μ5, match r with Some x => Some (Ok x) | None => None end)) in
       match r with Some (Ok out) => run (pbind (acc (EHist (loc p) (HOutput a i))) (fun _ => mres out)) σ4 μ4 | Some (Err e) => (σ4, μ4, Some (Err e)) | None => (σ4, μ4, None) end) = (σ', μ', Some (Ok x)) ->
      ress (σ' (loc p)) !! a = Some (addr_of_arg x) \/ exists i j k, hist (σ' (loc p)) = hist (σ (loc p)) ++ [HAttempt a i] ++ k /\ HAttempt a j ∈ k) as Hrest.
    { intros σ3 μ3 _ Hu3 H3 Hr. destruct (run (after_request _ _ _ _ _ _ _ _) σ3 μ3) as [[σ5 μ5] [r5|]] eqn:E5; [|done].
      rewrite run_pbind, run_acc in Hr. cbn [perform] in Hr. destruct r5 as [y|e]; [|done]. cbn in Hr. injection Hr as <- _ ->.
      destruct (inside_after _ _ _ _ _ _ _ _ _ _ _ _ _ Hp Hu3 E5) as [Hx|(j & k & Hk & Hin)].
      - left. unfold upd. rewrite decide_True by done. exact Hx.
      - right. exists i, j, (k ++ [HOutput a i]). split; [|apply elem_of_app; by left]. unfold upd. rewrite decide_True by done. cbn. rewrite Hk, H3, H2. by rewrite <- !app_assoc. }
    case_bool_decide as Hin; cbn [run acc pret perform]; intros Hr; (eapply Hrest; [| | |exact Hr]).
    - done.
    - done.
    - done.
    - unfold upd. by rewrite decide_True.
    - intros q Hq. unfold upd. destruct (decide (loc q = loc p)) as [Eq|]; [cbn; rewrite <- Eq|]; by apply Hu2.
    - unfold upd. by rewrite decide_True.
  Qed.
  (** a call whose result is stored in the function's own portal *)
  Lemma answered n p f kw s b σ μ : sorted_kwargs kw = Ok s -> p_zero (pcc ses p) = true -> ress (σ (loc p)) !! call_addr f kw = Some b ->
    exists σ', same_but_vals σ σ' /\
      exists μ', run (execute (S n) p f kw) σ μ = (σ', μ', Some (match vals (σ' (loc p)) !! b with Some v => Ok (AVal v) | None => Err KeyError end)).
  Proof.
    intros Es Hz Hb. destruct (run_address0 p f kw s σ μ Es) as (σ1 & S1 & Hrun). exists σ1. split; [done|]. eexists. rewrite execute_unfold, Hrun, run_pbind, run_acc.
    cbn [perform]. rewrite run_pbind, ready_stored by (rewrite (proj1 (S1 (loc p))), Hb; eauto). rewrite Hz. cbn [andb orb].
    unfold get_ready. rewrite run_pbind, run_acc. cbn [perform]. rewrite (proj1 (S1 (loc p))), Hb. rewrite run_pbind, run_acc. cbn [perform].
    destruct (vals (σ1 (loc p)) !! b); done.
  Qed.
  End Calls.
End Call.
