(** Histories of arbitrary functions (bodies and guards without any restriction): nothing stored is lost; what one call does. *)
From Verif.Lib Require Import Py.
From Verif.Model Require Import PureAddr PureExec.
From Verif.Spec Require Import PureAddrSpec PureExecSpec.
From Verif.Proofs Require Import PureAddrP PureExecP PureExecSysP PureExecSeqP.
From Coq Require Import QArith.
From stdpp Require Import gmap sorting.
Local Open Scope nat_scope.

Section Any.
  Context {D : Type} (data_prefix : D -> string) (hash_of : value D -> string).
  Notation kwargs := (list (string * arg D)).
  Notation text_of := (text_of data_prefix hash_of).
  Notation pack := (pack data_prefix hash_of).
  Notation state := (@state D).
  Notation event := (@event D).
  Notation call_addr := (call_addr data_prefix hash_of).
  Implicit Types (σ : state) (μ : local) (kw : kwargs) (f : fn_state).

  Definition kept σ σ' : Prop :=
    (forall l b v, vals (σ l) !! b = Some v -> vals (σ' l) !! b = Some v) /\ results_kept σ σ' /\ requests_kept σ σ' /\
    (forall l, hist (σ l) `prefix_of` hist (σ' l)).
  Lemma kept_refl σ : kept σ σ.
  Proof. split; [done|]. split; [by intros ???|]. split; [intros ?? H; by left|]. done. Qed.
  Lemma kept_trans σ1 σ2 σ3 : kept σ1 σ2 -> kept σ2 σ3 -> kept σ1 σ3.
  Proof.
    intros (V & R & Q & H) (V' & R' & Q' & H'). split; [auto|]. split; [intros l a b ?; by apply R', R|]. split.
    - intros l a Hin. destruct (Q l a Hin) as [Hin'|[b Hb]]; [by apply Q'|]. right. exists b. by apply R'.
    - intros l. by transitivity (hist (σ2 l)).
  Qed.
  Definition in_ress σ l a : Prop := is_Some (ress (σ l) !! a).
  Lemma in_ress_kept σ σ' l a : kept σ σ' -> in_ress σ l a -> in_ress σ' l a.
  Proof. intros (_ & R & _) [b Hb]. exists b. by apply R. Qed.

  Definition safe_ev (e : event) σ : Prop :=
    match e with
    | EWriteVal l b _ => vals (σ l) !! b = None
    | EWriteRes l a _ => ress (σ l) !! a = None
    | EDelReq l a => in_ress σ l a
    | _ => True
    end.
  Lemma perform_kept (e : event) σ μ σ' μ' x : safe_ev e σ -> perform e σ μ = (σ', μ', x) -> kept σ σ'.
  Proof.
    intros Hs Hp. destruct e; cbn in Hs, Hp; injection Hp as <- _ _; try apply kept_refl;
      (split; [|split; [|split]]); intros l0; unfold upd; (destruct (decide (l0 = l)) as [->|]; [|by eauto]); cbn; try done; try (intros ???; done); try (intros ??; by left).
    - intros b0 v0 H0. rewrite lookup_insert_ne; [done|]. by intros ->; rewrite Hs in H0.
    - intros a0 b0 H0. rewrite lookup_insert_ne; [done|]. by intros ->; rewrite Hs in H0.
    - intros a0 Hin. left. set_solver.
    - intros a0 Hin. destruct (decide (a0 = a)) as [->|Hne]; [right|left]; [exact Hs|]. set_solver.
    - by apply prefix_app_r.
  Qed.

  (** alone, and stopped anywhere *)
  Fixpoint ts {X} (t : tree X) σ (Q : state -> X -> Prop) : Prop :=
    match t with
    | Done x => Q σ x
    | Step e k => safe_ev e σ /\ forall μ σ' μ' a, perform e σ μ = (σ', μ', a) -> ts (k a) σ' Q
    end.
  Lemma ts_mono {X} (t : tree X) : forall σ (Q Q' : state -> X -> Prop), (forall σ' x, kept σ σ' -> Q σ' x -> Q' σ' x) -> ts t σ Q -> ts t σ Q'.
  Proof.
    induction t as [x|e k IH]; intros σ Q Q' HQ; cbn; [apply HQ, kept_refl|]. intros [He Hk]. split; [done|]. intros μ σ' μ' a Hp.
    eapply IH; [|by eapply Hk]. intros σ'' x HK. apply HQ. eapply kept_trans; [by eapply perform_kept|done].
  Qed.
  Lemma ts_tbind {X Y} (t : tree X) (f : X -> tree Y) : forall σ Q, ts t σ (fun σ' x => ts (f x) σ' Q) -> ts (tbind t f) σ Q.
  Proof.
    induction t as [x|e k IH]; intros σ Q; cbn; [done|]. intros [He Hk]. split; [done|]. intros μ σ' μ' a Hp. eapply IH, Hk, Hp.
  Qed.
  Lemma ts_pbind {X Y} (m : M X) (f : X -> @M D Y) σ (Q : state -> option (res Y) -> Prop) :
    ts m σ (fun σ' r => match r with Some (Ok x) => ts (f x) σ' Q | Some (Err e) => Q σ' (Some (Err e)) | None => Q σ' None end) -> ts (pbind m f) σ Q.
  Proof. intros H. apply ts_tbind. eapply ts_mono; [|exact H]. by intros σ' [[x|e]|] _. Qed.
  Lemma ts_mtry {X} (m : @M D X) σ (Q : state -> option (res (res X)) -> Prop) :
    ts m σ (fun σ' r => match r with Some x => Q σ' (Some (Ok x)) | None => Q σ' None end) -> ts (mtry m) σ Q.
  Proof. intros H. apply ts_tbind. eapply ts_mono; [|exact H]. by intros σ' [x|] _. Qed.
  Lemma ts_acc (e : event) σ (Q : state -> option (res (ans e)) -> Prop) :
    safe_ev e σ -> (forall μ σ' μ' a, perform e σ μ = (σ', μ', a) -> Q σ' (Some (Ok a))) -> ts (acc e) σ Q.
  Proof. intros Hs HQ. cbn. split; [done|]. intros μ σ' μ' a Hp. by eapply HQ. Qed.
  Lemma ts_run_n {X} (t : tree X) : forall n σ Q μ σ' μ' t', ts t σ Q -> run_n n t σ μ = (σ', μ', t') -> kept σ σ'.
  Proof.
    induction t as [x|e k IH]; intros [|n] σ Q μ σ' μ' t' Hts Hr; cbn in Hr; try (injection Hr as <- _ _; apply kept_refl).
    destruct Hts as [He Hk]. destruct (perform e σ μ) as [[σ1 μ1] a] eqn:Ep.
    eapply kept_trans; [by eapply perform_kept|]. eapply IH; [by eapply Hk|exact Hr].
  Qed.
  Lemma ts_run {X} (t : tree X) : forall σ Q μ σ' μ' x, ts t σ Q -> run t σ μ = (σ', μ', x) -> Q σ' x /\ kept σ σ'.
  Proof.
    induction t as [x0|e k IH]; intros σ Q μ σ' μ' x Hts Hr; cbn in Hr.
    - injection Hr as <- _ <-. split; [exact Hts|apply kept_refl].
    - destruct Hts as [He Hk]. destruct (perform e σ μ) as [[σ1 μ1] a] eqn:Ep.
      destruct (IH a σ1 Q μ1 σ' μ' x ltac:(by eapply Hk) Hr) as [HQ HK]. split; [done|].
      eapply kept_trans; [by eapply perform_kept|done].
  Qed.

  Definition tsk {X} (t : tree X) : Prop := forall σ, ts t σ (fun _ _ => True).
  Lemma tsk_done {X} (x : X) : tsk (Done x).
  Proof. by intros σ. Qed.
  Lemma tsk_pbind {X Y} (m : M X) (f : X -> @M D Y) : tsk m -> (forall x, tsk (f x)) -> tsk (pbind m f).
  Proof. intros Hm Hf σ. apply ts_pbind. eapply ts_mono; [|apply Hm]. intros σ' [[x|e]|] _ _; [apply Hf|done|done]. Qed.
  Lemma tsk_mtry {X} (m : @M D X) : tsk m -> tsk (mtry m).
  Proof. intros Hm σ. apply ts_mtry. eapply ts_mono; [|apply Hm]. by intros σ' [x|] _ _. Qed.
  Lemma tsk_acc (e : event) : (forall σ, safe_ev e σ) -> tsk (acc e).
  Proof. intros He σ. by apply ts_acc. Qed.

  Section Ses.
  Context (ses : session).
  Notation loc := (loc ses).
  Ltac tk := repeat (match goal with
    | |- forall _, _ => intro
    | |- tsk (pbind _ _) => apply tsk_pbind
    | |- tsk (mtry _) => apply tsk_mtry
    | |- tsk (acc _) => apply tsk_acc; by intros
    | |- tsk (mres _) => apply tsk_done
    | |- tsk (pret _) => apply tsk_done
    | |- tsk (pfail _) => apply tsk_done
    | |- _ => done end).
  Lemma tsk_put p b v : tsk (put (D := D) ses p b v).
  Proof.
    intros σ. unfold put. apply ts_pbind, ts_acc; [done|]. intros μ σ' μ' h Hp. cbn in Hp. injection Hp as <- _ <-.
    case_bool_decide as Hh; [done|]. apply ts_acc; [|done]. cbn. by apply eq_None_not_Some.
  Qed.
  Lemma tsk_mk_addr p x : tsk (mk_addr data_prefix hash_of ses p x).
  Proof. destruct x; cbn [mk_addr]; tk. apply tsk_put. Qed.
  Lemma tsk_find_other p b qs : tsk (find_other (D := D) ses p b qs).
  Proof. induction qs as [|q qs IH]; cbn [find_other]; tk. destruct x; [|done]. tk. apply tsk_put. Qed.
  Lemma tsk_resolve p b : tsk (resolve (D := D) ses p b).
  Proof. unfold resolve. tk. destruct x; [tk|]. apply tsk_find_other. Qed.
  Lemma tsk_pack_in p l : tsk (pack_in data_prefix hash_of ses p l).
  Proof. induction l as [|[k x] l IH]; cbn [pack_in]; tk; apply tsk_mk_addr. Qed.
  Lemma tsk_unpack_in p l : tsk (unpack_in (D := D) ses p l).
  Proof. induction l as [|[k x] l IH]; cbn [unpack_in]; [tk|]. destruct x; tk; apply tsk_resolve. Qed.
  Lemma tsk_result_address p f l : tsk (result_address data_prefix hash_of ses p f l).
  Proof. unfold result_address. tk; first [apply tsk_mk_addr|apply tsk_pack_in]. Qed.
  Lemma tsk_load_function p a : tsk (load_function (D := D) ses p a).
  Proof. unfold load_function. tk; [apply tsk_resolve|]. destruct x; try (by tk). tk; [apply tsk_resolve|]. destruct x; by tk. Qed.
  Lemma tsk_load_arguments p a : tsk (load_arguments (D := D) ses p a).
  Proof. unfold load_arguments. tk; [apply tsk_resolve|]. destruct x; try (by tk). tk; [apply tsk_resolve|]. destruct x; by tk. Qed.
  Lemma tsk_sync p a c : tsk (sync (D := D) ses p a c).
  Proof. destruct c; cbn [sync]; [apply tsk_unpack_in|]. tk; [apply tsk_load_function|apply tsk_load_arguments|apply tsk_unpack_in]. Qed.

  Definition then_in_res p a : state -> option (res unit) -> Prop := fun σ' o => o = Some (Ok tt) -> in_ress σ' (loc p) a.
  Lemma ts_set_result p a b σ : ts (set_result (D := D) ses p a b) σ (then_in_res p a).
  Proof.
    unfold set_result. apply ts_pbind, ts_acc; [done|]. intros μ σ' μ' h Hp. cbn in Hp. injection Hp as <- _ <-. case_bool_decide as Hh.
    - eapply (ts_mono _ _ (fun _ _ => True)); [intros σ' o HK _ _; by eapply in_ress_kept|].
      match goal with |- ts ?t _ _ => assert (Ht : tsk t); [|apply Ht] end.
      tk. destruct x as [q|]; [|tk]. destruct (Qle_bool q 0); [tk|]. tk. destruct (Qle_bool q x); [tk|]. tk. unfold massert. destruct (bool_decide _); tk.
    - apply ts_acc; [by apply eq_None_not_Some|]. intros μ1 σ1 μ1' u Hp _. cbn in Hp. injection Hp as <- _ _. unfold in_ress, upd. rewrite decide_True by done. cbn.
      rewrite lookup_insert. by eauto.
  Qed.
  Lemma tsk_set_result p a b : tsk (set_result (D := D) ses p a b).
  Proof. intros σ. eapply ts_mono; [|apply ts_set_result]. done. Qed.
  Definition ready_in_res p a : state -> option (res bool) -> Prop := fun σ' o => o = Some (Ok true) -> in_ress σ' (loc p) a.
  Lemma ts_ready_elsewhere p a c qs : forall σ, ts (ready_elsewhere data_prefix hash_of ses p a c qs) σ (ready_in_res p a).
  Proof.
    induction qs as [|q qs IH]; intros σ; cbn [ready_elsewhere]; [done|]. apply ts_pbind, ts_acc; [done|]. intros _ σ1 _ h _. destruct h; [|apply IH].
    apply ts_pbind, ts_acc; [done|]. intros _ σ2 _ r _. destruct r as [b|]; [|done]. apply ts_pbind, ts_acc; [done|]. intros _ σ3 _ d _. destruct d as [v|]; [|done].
    apply ts_pbind. eapply ts_mono; [|apply tsk_mk_addr]. intros σ4 [[b'|e]|] _ _; [|done|done].
    apply ts_pbind. eapply ts_mono; [|apply ts_set_result]. intros σ5 [[[]|e]|] _ H5; [|done|done]. specialize (H5 eq_refl).
    apply ts_pbind. eapply ts_mono; [|apply tsk_sync]. intros σ6 [[u|e]|] HK _; [|done|done]. intros _. by eapply in_ress_kept.
  Qed.
  Lemma ts_ready cur p a c σ : ts (ready data_prefix hash_of ses cur p a c) σ (ready_in_res p a).
  Proof.
    unfold ready. apply ts_pbind, ts_acc; [done|]. intros μ σ1 μ' h Hp. cbn in Hp. injection Hp as <- _ <-.
    case_bool_decide as Hh; [by intros _|apply ts_ready_elsewhere].
  Qed.
  Lemma tsk_ready cur p a c : tsk (ready data_prefix hash_of ses cur p a c).
  Proof. intros σ. eapply ts_mono; [|apply ts_ready]. done. Qed.
  Lemma tsk_request p a c : tsk (request data_prefix hash_of ses p a c).
  Proof.
    intros σ. unfold request. apply ts_pbind. eapply ts_mono; [|apply ts_ready]. intros σ1 [[rd|e]|] _ H1; [|done|done]. destruct rd.
    - unfold drop_request. apply ts_acc; [by apply H1|done].
    - apply ts_pbind, ts_acc; [done|]. intros _ σ2 _ h _. destruct h; [done|]. by apply ts_acc.
  Qed.
  Lemma tsk_get_ready p a : tsk (get_ready (D := D) ses p a).
  Proof. unfold get_ready. tk. destruct x; tk. destruct x; tk. Qed.
  Lemma tsk_swarm_with p f kw : tsk (swarm_with data_prefix hash_of ses p f kw).
  Proof. unfold swarm_with. tk; [apply tsk_pack_in|apply tsk_result_address|apply tsk_request]. Qed.
  Lemma tsk_run_prog c p (b : prog (D := D)) : (forall f kw, tsk (c f kw)) -> tsk (run_prog data_prefix hash_of ses c p b).
  Proof.
    intros Hc. induction b as [x|e|f kw k IH|f kw k IH|k IH]; cbn [run_prog]; [tk|tk| | |tk].
    - apply tsk_pbind; [apply tsk_mtry, Hc|apply IH].
    - apply tsk_pbind; [apply tsk_mtry, tsk_swarm_with|apply IH].
  Qed.
  Lemma tsk_check_guards c p gs kw : (forall f kw, tsk (c f kw)) -> tsk (check_guards data_prefix hash_of ses c p gs kw).
  Proof.
    intros Hc. induction gs as [|g gs IH]; cbn [check_guards]; [tk|]. apply tsk_pbind.
    - apply tsk_mtry. destruct g; [apply Hc|by apply tsk_run_prog].
    - intros [x|e]; [done|tk].
  Qed.

  Section Calls.
  Context (body : fn_state -> kwargs -> prog (D := D)) (guards_of : fn_state -> list (guard_fn (D := D))).
  Notation execute := (execute data_prefix hash_of body guards_of ses).
  Notation run_body := (run_body data_prefix hash_of body guards_of ses).
  Lemma tsk_run_body n p f kw pk a rd : (forall f kw, tsk (execute n p f kw)) -> tsk (run_body n p f kw pk a rd).
  Proof.
    intros Hc. unfold PureExecP.run_body. apply tsk_pbind; [tk|]. intros i. apply tsk_pbind; [tk|]. intros _.
    apply tsk_pbind; [|intros out; tk]. apply tsk_mtry. apply tsk_pbind; [apply tsk_request|]. intros _.
    apply tsk_pbind; [by apply tsk_check_guards|]. intros g. apply tsk_pbind; [unfold massert; destruct g; tk|]. intros _.
    apply tsk_pbind; [apply tsk_unpack_in|]. intros u. apply tsk_pbind; [by apply tsk_run_prog|]. intros x. apply tsk_pbind; [apply tsk_mk_addr|]. intros b.
    apply tsk_pbind; [tk|]. intros _.
    intros σ. apply ts_pbind, ts_mtry. apply ts_pbind.
    eapply (ts_mono _ _ (fun _ _ => True)); [|destruct rd; [by apply ts_acc|done]]. intros σ1 [[u0|e]|] _ _; [| |].
      + eapply ts_mono; [|apply ts_set_result]. intros σ2 [o|] _ H2; [|done].
        apply ts_pbind, ts_acc; [done|]. intros μ σ3 μ' u' Hp. cbn in Hp. injection Hp as <- _ _.
        destruct o as [[]|e]; [|done]. apply ts_pbind. cbn [ts mres]. apply ts_pbind. unfold drop_request. apply ts_acc; [by apply H2|done].
      + apply ts_pbind, ts_acc; [done|]. intros _ σ3 _ u' _. done.
      + done.
  Qed.
  Lemma tsk_execute n p f kw : tsk (execute n p f kw).
  Proof.
    revert f kw. induction n as [|n IH]; intros f kw; [apply tsk_done|]. rewrite execute_unfold.
    tk; [apply tsk_pack_in|apply tsk_result_address|apply tsk_ready|]. destruct (x3 && _); [apply tsk_get_ready|by apply tsk_run_body].
  Qed.
  Lemma tsk_op n p (o : op (D := D)) : tsk (op_tree data_prefix hash_of body guards_of ses n p o).
  Proof.
    assert (Hga : forall f kw, tsk (PureExec.get_address data_prefix hash_of ses p f kw)).
    { intros f kw. unfold PureExec.get_address. tk; [apply tsk_pack_in|apply tsk_result_address]. }
    assert (Had : forall f l, tsk (addresses data_prefix hash_of ses p f l)).
    { intros f l. induction l as [|kw l IH]; cbn [addresses]; tk. apply tsk_result_address. }
    assert (Hra : forall l, tsk (request_all data_prefix hash_of ses p l)).
    { intros l. induction l as [|[a kw] l IH]; cbn [request_all]; tk. apply tsk_request. }
    assert (Hea : forall f l, tsk (execute_all data_prefix hash_of body guards_of ses n p f l)).
    { intros f l. induction l as [|[a kw] l IH]; cbn [execute_all]; tk. apply tsk_execute. }
    destruct o as [f kw|f kw|f kw|s1 f l|s1 s2 f l|a]; cbn [op_tree]; tk.
    - apply tsk_execute.
    - unfold swarm. tk; apply tsk_request.
    - unfold run_fn. tk; apply tsk_execute.
    - unfold swarm_list. tk.
    - unfold run_list, swarm_list. tk.
    - unfold worker. tk. destruct x; [|tk]. tk; [apply tsk_ready|]. destruct x; [tk|]. tk.
      + unfold addr_can_be_executed. tk; [apply tsk_load_function|apply tsk_load_arguments|apply tsk_unpack_in|]. apply tsk_check_guards. intros. apply tsk_execute.
      + destruct x; [|tk]. tk. unfold addr_execute. tk; [apply tsk_load_function|apply tsk_load_arguments|apply tsk_execute].
  Qed.
  End Calls.
  End Ses.
  Lemma history_kept body guards_of ok σ σ' : history data_prefix hash_of body guards_of ok σ σ' -> kept σ σ'.
  Proof.
    induction 1 as [σ|σ σ1 σ2 j μ m μ' t _ IH _ _ Hr]; [apply kept_refl|]. eapply kept_trans; [exact IH|].
    eapply ts_run_n; [apply tsk_op|exact Hr].
  Qed.
End Any.
