(** Concurrent histories of arbitrary functions (bodies and guards without any restriction). *)
From Verif.Lib Require Import Py.
From Verif.Model Require Import PureAddr PureExec.
From Verif.Spec Require Import PureAddrSpec PureExecSpec ConcSpec.
From Verif.Proofs Require Import PureAddrP PureExecP PureExecSysP.
From Coq Require Import QArith.
From stdpp Require Import gmap sorting.
Local Open Scope nat_scope.

Section Conc.
  Context {D : Type} (data_prefix : D -> string) (hash_of : value D -> string).
  Hypothesis CF : collision_free data_prefix hash_of.
  Notation kwargs := (list (string * arg D)).
  Notation text_of := (text_of data_prefix hash_of).
  Notation addr_of_arg := (addr_of_arg data_prefix hash_of).
  Notation pack := (pack data_prefix hash_of).
  Notation state := (@state D).
  Notation event := (@event D).
  Notation call_addr := (call_addr data_prefix hash_of).
  Notation call_stored := (call_stored data_prefix hash_of).
  Notation Inv := (consistent data_prefix hash_of).
  Implicit Types (σ : state) (μ : local) (kw : kwargs) (f : fn_state).

  Lemma grew_refl σ : grew σ σ.
  Proof. split; [done|]. by split. Qed.
  Lemma grew_trans σ1 σ2 σ3 : grew σ1 σ2 -> grew σ2 σ3 -> grew σ1 σ3.
  Proof. intros (V & R & H) (V' & R' & H'). split; [auto|]. split; [auto|]. intros l. by transitivity (hist (σ2 l)). Qed.
  Definition in_ress σ l a : Prop := is_Some (ress (σ l) !! a).
  Definition origin σ l a b : Prop := ((exists v, vals (σ l) !! b = Some v) \/ exists r, HResult a r b ∈ hist (σ l)) /\ recorded σ a b.
  Lemma recorded_grew σ σ' a b : grew σ σ' -> recorded σ a b -> recorded σ' a b.
  Proof. intros (_ & _ & H) (l & r & Hr). exists l, r. destruct (H l) as [k ->]. apply elem_of_app. by left. Qed.
  Lemma in_ress_grew σ σ' l a : grew σ σ' -> in_ress σ l a -> in_ress σ' l a.
  Proof. intros (_ & R & _). apply R. Qed.
  Lemma origin_grew σ σ' l a b : grew σ σ' -> origin σ l a b -> origin σ' l a b.
  Proof.
    intros G [Ho Hrec]. split; [|by eapply recorded_grew]. clear Hrec. destruct G as (V & _ & H), Ho as [[v Hv]|[r Hr]]; [left; exists v; auto|right]. exists r. destruct (H l) as [k ->]. apply elem_of_app. by left.
  Qed.
  Lemma call_stored_grew σ σ' l a : grew σ σ' -> call_stored σ l a -> call_stored σ' l a.
  Proof. intros (V & _) (f & pk & Ha & H1 & H2 & H3). exists f, pk. split; [done|]. split; [auto|]. split; auto. Qed.

  Definition good_ev (e : event) σ : Prop :=
    match e with
    | EWriteVal l b v => text_of v = b
    | EWriteRes l a b => origin σ l a b
    | EWriteReq l a => call_stored σ l a
    | EDelReq l a => in_ress σ l a
    | _ => True
    end.
  Lemma consistent_step σ σ' : Inv σ -> grew σ σ' ->
    (forall l b v, vals (σ' l) !! b = Some v -> vals (σ l) !! b = Some v \/ text_of v = b) ->
    (forall l a b, ress (σ' l) !! a = Some b -> ress (σ l) !! a = Some b \/ origin σ l a b) ->
    (forall l a, a ∈ reqs (σ' l) -> a ∈ reqs (σ l) \/ call_stored σ l a) -> Inv σ'.
  Proof.
    intros (HV & HQ & HR & HC) G V R Q. split; [|split; [|split]].
    - intros l b v H. destruct (V _ _ _ H) as [H1|H1]; [by eapply HV|done].
    - intros l a H. eapply call_stored_grew; [exact G|]. destruct (Q _ _ H) as [H1|H1]; [by apply HQ|done].
    - intros l a b H. apply (origin_grew σ σ' l a b G). destruct (R _ _ _ H) as [H1|H1]; [split; [by apply HR|by eapply HC]|done].
    - intros l a b H. apply (recorded_grew σ σ' a b G). destruct (R _ _ _ H) as [H1|[_ H1]]; [by eapply HC|done].
  Qed.
  Lemma perform_good (e : event) σ μ σ' μ' x : Inv σ -> good_ev e σ -> perform e σ μ = (σ', μ', x) ->
    grew σ σ' /\ Inv σ' /\ forall l a, a ∈ reqs (σ l) -> a ∈ reqs (σ' l) \/ in_ress σ' l a.
  Proof.
    intros HI Hs Hp.
    assert (Hid : grew σ σ /\ Inv σ /\ forall l a, a ∈ reqs (σ l) -> a ∈ reqs (σ l) \/ in_ress σ l a) by (split; [apply grew_refl|split; [done|by left]]).
    destruct e; cbn [perform good_ev] in Hs, Hp; injection Hp as <- _ _; try exact Hid.
    - (* value *)
      assert (G : grew σ (upd l (set_vals <[b:=v]> (σ l)) σ)).
      { split; [|split]; intros l0; unfold upd; (destruct (decide (l0 = l)) as [->|]; [|done]); cbn; try done.
        intros b0 v0 H0. destruct (decide (b0 = b)) as [->|]; [|by rewrite lookup_insert_ne].
        rewrite lookup_insert. f_equal. apply CF. rewrite Hs. symmetry. by apply (proj1 HI _ _ _ H0). }
      split; [done|]. split.
      + apply (consistent_step σ); [done|done|..]; intros l0; unfold upd; (destruct (decide (l0 = l)) as [->|]; [|by left]); cbn; try (by left).
        intros b0 v0 H0. destruct (decide (b0 = b)) as [->|Hn]; [rewrite lookup_insert in H0; injection H0 as <-; by right|].
        rewrite lookup_insert_ne in H0 by done. by left.
      + intros l0 a0 H0. left. unfold upd. by destruct (decide (l0 = l)) as [->|].
    - (* result *)
      assert (G : grew σ (upd l (set_ress <[a:=b]> (σ l)) σ)).
      { split; [|split]; intros l0; unfold upd; (destruct (decide (l0 = l)) as [->|]; [|done]); cbn; try done.
        intros a0 H0. destruct (decide (a0 = a)) as [->|]; [rewrite lookup_insert; eauto|by rewrite lookup_insert_ne]. }
      split; [done|]. split.
      + apply (consistent_step σ); [done|done|..]; intros l0; unfold upd; (destruct (decide (l0 = l)) as [->|]; [|by left]); cbn; try (by left).
        intros a0 b0 H0. destruct (decide (a0 = a)) as [->|Hn]; [rewrite lookup_insert in H0; injection H0 as <-; by right|].
        rewrite lookup_insert_ne in H0 by done. by left.
      + intros l0 a0 H0. left. unfold upd. by destruct (decide (l0 = l)) as [->|].
    - (* request *)
      assert (G : grew σ (upd l (set_reqs (fun r => r ∪ {[a]}) (σ l)) σ)).
      { split; [|split]; intros l0; unfold upd; (destruct (decide (l0 = l)) as [->|]; [|done]); cbn; done. }
      split; [done|]. split.
      + apply (consistent_step σ); [done|done|..]; intros l0; unfold upd; (destruct (decide (l0 = l)) as [->|]; [|by left]); cbn; try (by left).
        intros a0 H0. apply elem_of_union in H0 as [H0|H0]; [by left|]. apply elem_of_singleton in H0 as ->. by right.
      + intros l0 a0 H0. left. unfold upd. destruct (decide (l0 = l)) as [->|]; [|done]. cbn. set_solver.
    - (* a request is dropped *)
      assert (G : grew σ (upd l (set_reqs (fun r => r ∖ {[a]}) (σ l)) σ)).
      { split; [|split]; intros l0; unfold upd; (destruct (decide (l0 = l)) as [->|]; [|done]); cbn; done. }
      split; [done|]. split.
      + apply (consistent_step σ); [done|done|..]; intros l0; unfold upd; (destruct (decide (l0 = l)) as [->|]; [|by left]); cbn; try (by left).
        intros a0 H0. left. set_solver.
      + intros l0 a0 H0. unfold upd, in_ress. destruct (decide (l0 = l)) as [->|]; [|by left]. cbn.
        destruct (decide (a0 = a)) as [->|]; [by right|]. left. set_solver.
    - (* a record *)
      assert (G : grew σ (upd l (add_hist h (σ l)) σ)).
      { split; [|split]; intros l0; unfold upd; (destruct (decide (l0 = l)) as [->|]; [|done]); cbn; try done. by apply prefix_app_r. }
      split; [done|]. split.
      + apply (consistent_step σ); [done|done|..]; intros l0; unfold upd; (destruct (decide (l0 = l)) as [->|]; [|by left]); cbn; by left.
      + intros l0 a0 H0. left. unfold upd. by destruct (decide (l0 = l)) as [->|].
  Qed.

  (** between two accesses others may do anything of the same kind *)
  Fixpoint cs {X} (t : tree X) σ (Q : state -> X -> Prop) : Prop :=
    match t with
    | Done x => Q σ x
    | Step e k => forall σ0, grew σ σ0 -> Inv σ0 -> good_ev e σ0 /\
        forall μ σ' μ' a, perform e σ0 μ = (σ', μ', a) -> cs (k a) σ' Q
    end.
  Lemma cs_mono {X} (t : tree X) : forall σ (Q Q' : state -> X -> Prop), Inv σ -> (forall σ' x, grew σ σ' -> Inv σ' -> Q σ' x -> Q' σ' x) -> cs t σ Q -> cs t σ Q'.
  Proof.
    induction t as [x|e k IH]; intros σ Q Q' HI HQ; cbn; [apply HQ; [apply grew_refl|done]|]. intros Hk σ0 G0 I0. destruct (Hk σ0 G0 I0) as [He Hk'].
    split; [done|]. intros μ σ' μ' a Hp. destruct (perform_good e σ0 μ σ' μ' a I0 He Hp) as (G & I' & _).
    eapply IH; [exact I'| |by eapply Hk']. intros σ'' x G' I''. apply HQ; [|done]. eapply grew_trans; [exact G0|]. by eapply grew_trans.
  Qed.
  Lemma cs_tbind {X Y} (t : tree X) (f : X -> tree Y) : forall σ Q, cs t σ (fun σ' x => cs (f x) σ' Q) -> cs (tbind t f) σ Q.
  Proof.
    induction t as [x|e k IH]; intros σ Q; cbn; [done|]. intros Hk σ0 G0 I0. destruct (Hk σ0 G0 I0) as [He Hk'].
    split; [done|]. intros μ σ' μ' a Hp. eapply IH, Hk', Hp.
  Qed.
  Lemma cs_pbind {X Y} (m : M X) (f : X -> @M D Y) σ (Q : state -> option (res Y) -> Prop) : Inv σ ->
    cs m σ (fun σ' r => match r with Some (Ok x) => cs (f x) σ' Q | Some (Err e) => Q σ' (Some (Err e)) | None => Q σ' None end) -> cs (pbind m f) σ Q.
  Proof. intros HI H. apply cs_tbind. eapply cs_mono; [done| |exact H]. by intros σ' [[x|e]|] _ _. Qed.
  Lemma cs_mtry {X} (m : @M D X) σ (Q : state -> option (res (res X)) -> Prop) : Inv σ ->
    cs m σ (fun σ' r => match r with Some x => Q σ' (Some (Ok x)) | None => Q σ' None end) -> cs (mtry m) σ Q.
  Proof. intros HI H. apply cs_tbind. eapply cs_mono; [done| |exact H]. by intros σ' [x|] _ _. Qed.
  Lemma cs_acc (e : event) σ (Q : state -> option (res (ans e)) -> Prop) :
    (forall σ0, grew σ σ0 -> Inv σ0 -> good_ev e σ0) ->
    (forall σ0 μ σ' μ' a, grew σ σ0 -> Inv σ0 -> perform e σ0 μ = (σ', μ', a) -> grew σ σ' -> Inv σ' -> Q σ' (Some (Ok a))) -> cs (acc e) σ Q.
  Proof.
    intros Hs HQ. cbn. intros σ0 G0 I0. split; [auto|]. intros μ σ' μ' a Hp. destruct (perform_good e σ0 μ σ' μ' a I0 (Hs _ G0 I0) Hp) as (G & I' & _).
    eapply HQ; [exact G0|done|exact Hp| |done]. by eapply grew_trans.
  Qed.

  Lemma cs_acc' (e : event) σ (Q : state -> option (res (ans e)) -> Prop) :
    (forall σ0, grew σ σ0 -> Inv σ0 -> good_ev e σ0) -> (forall σ' a, grew σ σ' -> Inv σ' -> Q σ' (Some (Ok a))) -> cs (acc e) σ Q.
  Proof. intros Hs HQ. apply cs_acc; eauto. Qed.

  Definition csk {X} (t : tree X) : Prop := forall σ, Inv σ -> cs t σ (fun _ _ => True).
  Lemma csk_done {X} (x : X) : csk (Done x).
  Proof. by intros σ. Qed.
  Lemma csk_pbind {X Y} (m : M X) (f : X -> @M D Y) : csk m -> (forall x, csk (f x)) -> csk (pbind m f).
  Proof. intros Hm Hf σ HI. apply cs_pbind; [done|]. eapply cs_mono; [done| |by apply Hm]. intros σ' [[x|e]|] _ I' _; [by apply Hf|done|done]. Qed.
  Lemma csk_mtry {X} (m : @M D X) : csk m -> csk (mtry m).
  Proof. intros Hm σ HI. apply cs_mtry; [done|]. eapply cs_mono; [done| |by apply Hm]. by intros σ' [x|] _ _. Qed.
  Lemma csk_acc (e : event) : (forall σ, good_ev e σ) -> csk (acc e).
  Proof. intros He σ HI. by apply cs_acc. Qed.

  Section Ses.
  Context (ses : session).
  Notation loc := (loc ses).
  Ltac tk := repeat (match goal with
    | |- forall _, _ => intro
    | |- csk (pbind _ _) => apply csk_pbind
    | |- csk (mtry _) => apply csk_mtry
    | |- csk (acc _) => apply csk_acc; by intros
    | |- csk (mres _) => apply csk_done
    | |- csk (pret _) => apply csk_done
    | |- csk (pfail _) => apply csk_done
    | |- _ => done end).
  (** the rest of a computation after a part with a known result *)
  Lemma cs_then {X Y} (m : M X) (f : X -> @M D Y) σ (P : state -> option (res X) -> Prop) (Q : state -> option (res Y) -> Prop) : Inv σ -> cs m σ P ->
    (forall σ' x, grew σ σ' -> Inv σ' -> P σ' (Some (Ok x)) -> cs (f x) σ' Q) ->
    (forall σ' e, grew σ σ' -> Inv σ' -> P σ' (Some (Err e)) -> Q σ' (Some (Err e))) -> (forall σ', grew σ σ' -> Inv σ' -> P σ' None -> Q σ' None) -> cs (pbind m f) σ Q.
  Proof. intros HI Hm H1 H2 H3. apply cs_pbind; [done|]. eapply cs_mono; [done| |exact Hm]. intros σ' [[x|e]|] G I'; eauto. Qed.

  Definition put_post σ' l b v (o : option (res unit)) : Prop := o = Some (Ok tt) /\ vals (σ' l) !! b = Some v.
  Lemma cs_put p b v σ : Inv σ -> text_of v = b -> cs (put (D := D) ses p b v) σ (fun σ' o => put_post σ' (loc p) b v o).
  Proof.
    intros HI E. unfold put. apply cs_pbind; [done|]. apply cs_acc; [done|]. intros σ0 μ σ' μ' h G0 I0 Hp G I'. cbn in Hp. injection Hp as <- _ <-.
    case_bool_decide as Hh.
    - split; [done|]. destruct Hh as [v0 Hv]. rewrite Hv. f_equal. apply CF. rewrite E. by apply (proj1 I0 _ _ _ Hv).
    - apply cs_acc; [done|]. intros σ1 μ1 σ2 μ2 u G1 I1 Hp _ _. cbn in Hp. injection Hp as <- _ <-. split; [done|]. unfold upd. rewrite decide_True by done. cbn.
      by rewrite lookup_insert.
  Qed.
  Lemma cs_mk_addr p x σ : Inv σ -> cs (mk_addr data_prefix hash_of ses p x) σ (fun σ' o => o = Some (Ok (addr_of_arg x)) /\
    forall v, x = AVal v -> vals (σ' (loc p)) !! text_of v = Some v).
  Proof.
    intros HI. destruct x as [v|b|b]; cbn [mk_addr]; [|by split..].
    eapply cs_then; [done|by apply cs_put| |by intros ??? _ [? _]|by intros ??? [? _]]. intros σ' u G I' [_ H]. cbn. split; [done|]. by intros v0 [= <-].
  Qed.
  Lemma csk_mk_addr p x : csk (mk_addr data_prefix hash_of ses p x).
  Proof. intros σ HI. eapply cs_mono; [done| |by apply cs_mk_addr]. done. Qed.
  Lemma csk_find_other p b qs : csk (find_other (D := D) ses p b qs).
  Proof.
    induction qs as [|q qs IH]; cbn [find_other]; [tk|]. intros σ HI. apply cs_pbind; [done|]. apply cs_acc; [done|].
    intros σ0 μ σ' μ' h G0 I0 Hp G I'. cbn in Hp. injection Hp as <- _ <-. destruct (vals (σ0 (PureExec.loc ses q)) !! b) as [v|] eqn:Ev; [|by apply IH].
    eapply cs_then; [done|apply cs_put; [done|by apply (proj1 I0 _ _ _ Ev)]|by intros..].
  Qed.
  Lemma csk_resolve p b : csk (resolve (D := D) ses p b).
  Proof. unfold resolve. tk. destruct x; [tk|]. apply csk_find_other. Qed.
  Lemma cs_pack_in p l : forall σ, Inv σ -> cs (pack_in data_prefix hash_of ses p l) σ (fun _ o => o = Some (Ok (pack l))).
  Proof.
    induction l as [|[k x] l IH]; intros σ HI; cbn [pack_in]; [done|].
    eapply cs_then; [done|by apply cs_mk_addr| |by intros ??? _ [? _]|by intros ??? [? _]]. intros σ1 b G1 I1 [[= ->] _].
    eapply cs_then; [done|by apply IH| |done|done]. intros σ2 m G2 I2 [= ->]. done.
  Qed.
  Lemma csk_pack_in p l : csk (pack_in data_prefix hash_of ses p l).
  Proof. intros σ HI. eapply cs_mono; [done| |by apply cs_pack_in]. done. Qed.
  Lemma csk_unpack_in p l : csk (unpack_in (D := D) ses p l).
  Proof. induction l as [|[k x] l IH]; cbn [unpack_in]; [tk|]. destruct x; tk; apply csk_resolve. Qed.
  (** the address of a call, with everything a worker needs in the store *)
  Definition address_post p f kw σ' (o : option (res addr)) : Prop :=
    match o with Some (Ok a) => a = call_addr f kw /\ call_stored σ' (loc p) a | Some (Err _) => True | None => False end.
  Lemma cs_result_address p f kw σ : Inv σ -> cs (result_address data_prefix hash_of ses p f kw) σ (address_post p f kw).
  Proof.
    intros HI. unfold result_address. apply cs_pbind; [done|]. cbn [cs mres].
    destruct (sorted_kwargs_cases kw) as [Es|[e Es]]; rewrite Es; [|done].
    eapply cs_then; [done|by apply cs_mk_addr| |by intros ??? _ [? _]|by intros ??? [? _]]. intros σ1 b1 G1 I1 [[= ->] H1].
    eapply cs_then; [done|by apply cs_pack_in| |done|done]. intros σ2 pk G2 I2 [= ->].
    eapply cs_then; [done|by apply cs_mk_addr| |by intros ??? _ [? _]|by intros ??? [? _]]. intros σ3 b3 G3 I3 [[= ->] H3].
    eapply cs_then; [done|by apply cs_mk_addr| |by intros ??? _ [? _]|by intros ??? [? _]]. intros σ4 b4 G4 I4 [[= ->] H4].
    cbn [cs pret address_post]. split.
    - pose proof (call_addr_result data_prefix hash_of f kw _ Es) as Hr. unfold result_addr in Hr. rewrite Es in Hr. by injection Hr.
    - exists f, (pack (sort_keys kw)). split; [done|]. split; [|split].
      + apply (proj1 (grew_trans _ _ _ G2 (grew_trans _ _ _ G3 G4))). by apply H1.
      + apply (proj1 G4). by apply H3.
      + exact (H4 _ eq_refl).
  Qed.
  Lemma csk_result_address p f kw : csk (result_address data_prefix hash_of ses p f kw).
  Proof. intros σ HI. eapply cs_mono; [done| |by apply cs_result_address]. done. Qed.
  Lemma csk_load_function p a : csk (load_function (D := D) ses p a).
  Proof. unfold load_function. tk; [apply csk_resolve|]. destruct x; try (by tk). tk; [apply csk_resolve|]. destruct x; by tk. Qed.
  Lemma csk_load_arguments p a : csk (load_arguments (D := D) ses p a).
  Proof. unfold load_arguments. tk; [apply csk_resolve|]. destruct x; try (by tk). tk; [apply csk_resolve|]. destruct x; by tk. Qed.
  Lemma csk_sync p a c : csk (sync (D := D) ses p a c).
  Proof. destruct c; cbn [sync]; [apply csk_unpack_in|]. tk; [apply csk_load_function|apply csk_load_arguments|apply csk_unpack_in]. Qed.

  Definition then_in_res p a : state -> option (res unit) -> Prop := fun σ' o => o = Some (Ok tt) -> in_ress σ' (loc p) a.
  Lemma cs_set_result p a b σ : Inv σ -> origin σ (loc p) a b -> cs (set_result (D := D) ses p a b) σ (then_in_res p a).
  Proof.
    intros HI Ho. unfold set_result. apply cs_pbind; [done|]. apply cs_acc; [done|]. intros σ0 μ σ' μ' h G0 I0 Hp G I'. cbn in Hp. injection Hp as <- _ <-. case_bool_decide as Hh.
    - eapply (cs_mono _ _ (fun _ _ => True)); [done|intros σ' o HK _ _ _; by eapply in_ress_grew|].
      match goal with |- cs ?t _ _ => assert (Ht : csk t); [|by apply Ht] end.
      tk. destruct x as [q|]; [|tk]. destruct (Qle_bool q 0); [tk|]. tk. destruct (Qle_bool q x); [tk|]. tk. unfold massert. destruct (bool_decide _); tk.
    - apply cs_acc; [intros σ1 G1 I1; eapply origin_grew; [|exact Ho]; by eapply grew_trans|].
      intros σ1 μ1 σ2 μ2 u G1 I1 Hp _ _ _. cbn in Hp. injection Hp as <- _ _. unfold in_ress, upd. rewrite decide_True by done. cbn.
      rewrite lookup_insert. by eauto.
  Qed.
  Definition ready_in_res p a : state -> option (res bool) -> Prop := fun σ' o => o = Some (Ok true) -> in_ress σ' (loc p) a.
  Lemma cs_ready_elsewhere p a c qs : forall σ, Inv σ -> cs (ready_elsewhere data_prefix hash_of ses p a c qs) σ (ready_in_res p a).
  Proof.
    induction qs as [|q qs IH]; intros σ HI; cbn [ready_elsewhere]; [done|].
    apply cs_pbind; [done|]. apply cs_acc'; [done|]. intros σ1 h _ I1. destruct h; [|by apply IH].
    apply cs_pbind; [done|]. apply cs_acc; [done|]. intros σ20 μ20 σ2 μ2 r _ _ Hp _ I2. cbn in Hp. injection Hp as <- _ <-.
    destruct (ress (σ20 (PureExec.loc ses q)) !! a) as [b|] eqn:Eb; [|done]. apply (proj2 (proj2 (proj2 I2))) in Eb.
    apply cs_pbind; [done|]. apply cs_acc; [done|]. intros σ30 μ30 σ3 μ3 d G30 I3 Hp G3 _. cbn in Hp. injection Hp as <- _ <-.
    destruct (vals (σ30 (PureExec.loc ses q)) !! b) as [v|] eqn:Ev; [|done]. apply (proj1 I3) in Ev. apply (recorded_grew _ _ _ _ G30) in Eb.
    eapply cs_then; [done|by apply cs_mk_addr| |by intros ??? _ [? _]|by intros ??? [? _]]. intros σ4 b' G4 I4 [[= ->] H4].
    eapply cs_then; [done|apply cs_set_result; [done|split; [left; exists v; by apply H4|cbn; rewrite Ev; by eapply recorded_grew]]| |by intros|by intros]. intros σ5 [] G5 I5 H5. specialize (H5 eq_refl).
    eapply cs_then; [done|by apply csk_sync| |by intros|by intros]. intros σ6 u G6 I6 _ _. by eapply in_ress_grew.
  Qed.
  Lemma cs_ready cur p a c σ : Inv σ -> cs (ready data_prefix hash_of ses cur p a c) σ (ready_in_res p a).
  Proof.
    intros HI. unfold ready. apply cs_pbind; [done|]. apply cs_acc; [done|]. intros σ0 μ σ1 μ' h G0 I0 Hp G I'. cbn in Hp. injection Hp as <- _ <-.
    case_bool_decide as Hh; [by intros _|by apply cs_ready_elsewhere].
  Qed.
  Lemma csk_ready cur p a c : csk (ready data_prefix hash_of ses cur p a c).
  Proof. intros σ HI. eapply cs_mono; [done| |by apply cs_ready]. done. Qed.
  Lemma cs_request p a c σ : Inv σ -> call_stored σ (loc p) a -> cs (request data_prefix hash_of ses p a c) σ (fun _ _ => True).
  Proof.
    intros HI Hc. unfold request. eapply cs_then; [done|by apply cs_ready| |done|done]. intros σ1 rd G1 I1 H1. destruct rd.
    - unfold drop_request. apply cs_acc; [|done]. intros σ2 G2 _. eapply in_ress_grew; [exact G2|]. by apply H1.
    - apply cs_pbind; [done|]. apply cs_acc'; [done|]. intros σ2 h G2 I2. destruct h; [done|]. apply cs_acc; [|done].
      intros σ3 G3 _. eapply call_stored_grew; [|exact Hc]. eapply grew_trans; [exact G1|]. by eapply grew_trans.
  Qed.
  Lemma cs_get_ready p a σ : Inv σ -> cs (get_ready (D := D) ses p a) σ (fun σ' o => forall x, o = Some (Ok x) -> recorded σ' a (addr_of_arg x)).
  Proof.
    intros HI. unfold get_ready. apply cs_pbind; [done|]. apply cs_acc; [done|]. intros σ20 μ20 σ2 μ2 r _ _ Hp _ I2. cbn in Hp. injection Hp as <- _ <-.
    destruct (ress (σ20 (loc p)) !! a) as [b|] eqn:Eb; [|done]. apply (proj2 (proj2 (proj2 I2))) in Eb.
    apply cs_pbind; [done|]. apply cs_acc; [done|]. intros σ30 μ30 σ3 μ3 d G30 I3 Hp G3 _. cbn in Hp. injection Hp as <- _ <-.
    destruct (vals (σ30 (loc p)) !! b) as [v|] eqn:Ev; [|done]. apply (proj1 I3) in Ev. cbn. intros x [= <-]. cbn. rewrite Ev. by eapply recorded_grew.
  Qed.
  Lemma sorted_packed f kw s : sorted_kwargs kw = Ok s -> call_addr f (as_args (pack s)) = call_addr f kw.
  Proof. intros Es. pose proof (sorted_kwargs_ok _ _ Es) as E. subst s. by apply (call_addr_packed data_prefix hash_of f kw _ Es). Qed.
  (** get_address and the beginning of a call *)
  Lemma cs_address {Y} p f kw σ (g : list (string * addr) -> addr -> @M D Y) (Q : state -> option (res Y) -> Prop) : Inv σ ->
    (forall σ' pk, grew σ σ' -> Inv σ' -> call_stored σ' (loc p) (call_addr f kw) -> call_addr f (as_args pk) = call_addr f kw -> cs (g pk (call_addr f kw)) σ' Q) ->
    (forall σ' e, grew σ σ' -> Inv σ' -> Q σ' (Some (Err e))) ->
    cs (pbind (mres (sorted_kwargs kw)) (fun s => pbind (pack_in data_prefix hash_of ses p s) (fun packed =>
        pbind (result_address data_prefix hash_of ses p f (as_args packed)) (fun a => g packed a)))) σ Q.
  Proof.
    intros HI Hg He. apply cs_pbind; [done|]. cbn [cs mres]. destruct (sorted_kwargs kw) as [s|e] eqn:Es; [|apply He; [apply grew_refl|done]].
    eapply cs_then; [done|by apply cs_pack_in| |done|done]. intros σ1 pk G1 I1 [= ->].
    eapply cs_then; [done|by apply cs_result_address| | |by intros ??? []].
    - intros σ2 a G2 I2 [-> Hc]. rewrite (sorted_packed f kw s Es) in *. apply Hg; [by eapply grew_trans|done|done|by apply sorted_packed].
    - intros σ2 e G2 I2 _. apply He; [by eapply grew_trans|done].
  Qed.
  Lemma csk_swarm_with p f kw : csk (swarm_with data_prefix hash_of ses p f kw).
  Proof.
    intros σ HI. unfold swarm_with. apply cs_address; [done| |done]. intros σ1 pk G1 I1 Hc _.
    eapply cs_then; [done|by apply cs_request|done..].
  Qed.
  Lemma csk_run_prog c p (b : prog (D := D)) : (forall f kw, csk (c f kw)) -> csk (run_prog data_prefix hash_of ses c p b).
  Proof.
    intros Hc. induction b as [x|e|f kw k IH|f kw k IH|k IH]; cbn [run_prog]; [tk|tk| | |tk].
    - apply csk_pbind; [apply csk_mtry, Hc|apply IH].
    - apply csk_pbind; [apply csk_mtry, csk_swarm_with|apply IH].
  Qed.
  Lemma csk_check_guards c p gs kw : (forall f kw, csk (c f kw)) -> csk (check_guards data_prefix hash_of ses c p gs kw).
  Proof.
    intros Hc. induction gs as [|g gs IH]; cbn [check_guards]; [tk|]. apply csk_pbind.
    - apply csk_mtry. destruct g; [apply Hc|by apply csk_run_prog].
    - intros [x|e]; [done|tk].
  Qed.

  Section Calls.
  Context (body : fn_state -> kwargs -> prog (D := D)) (guards_of : fn_state -> list (guard_fn (D := D))).
  Notation execute := (execute data_prefix hash_of body guards_of ses).
  Notation run_body := (run_body data_prefix hash_of body guards_of ses).
  Definition call_post p a : state -> option (res (arg D)) -> Prop := fun σ' o => forall x, o = Some (Ok x) -> in_ress σ' (loc p) a /\ recorded σ' a (addr_of_arg x).
  Lemma call_post_grew p a σ σ' o : grew σ σ' -> call_post p a σ o -> call_post p a σ' o.
  Proof. intros G H x Hx. destruct (H x Hx). split; [by eapply in_ress_grew|by eapply recorded_grew]. Qed.
  Lemma cs_run_body n p f kw pk a rd σ : Inv σ -> call_stored σ (loc p) a -> (forall f kw, csk (execute n p f kw)) ->
    cs (run_body n p f kw pk a rd) σ (call_post p a).
  Proof.
    intros HI Hc Hx. unfold PureExecP.run_body.
    apply cs_pbind; [done|]. apply cs_acc'; [done|]. intros σ1 i G1 I1.
    apply cs_pbind; [done|]. apply cs_acc'; [done|]. intros σ2 u G2 I2.
    assert (Hc2 : call_stored σ2 (loc p) a) by (eapply call_stored_grew; [|exact Hc]; by eapply grew_trans).
    eapply (cs_then _ _ _ (fun σ' o => forall x, o = Some (Ok (Ok x)) -> in_ress σ' (loc p) a /\ recorded σ' a (addr_of_arg x))); [done| |..].
    - apply cs_mtry; [done|].
      apply (cs_mono _ _ (call_post p a)); [done|intros σ3 [[x|e]|] _ _ H3; try done; intros x0 [= <-]; by apply (H3 x)|].
      eapply cs_then; [done|by apply cs_request| |by intros ???????|by intros]. intros σ3 [] G3 I3 _.
      eapply cs_then; [done|by apply csk_check_guards| |by intros ???????|by intros]. intros σ4 g G4 I4 _.
      eapply (cs_then _ _ _ (fun _ _ => True)); [done|by unfold massert; destruct g| |by intros ???????|by intros]. intros σ5 [] G5 I5 _.
      eapply cs_then; [done|by apply csk_unpack_in| |by intros ???????|by intros]. intros σ6 un G6 I6 _.
      eapply cs_then; [done|by apply csk_run_prog| |by intros ???????|by intros]. intros σ7 x G7 I7 _.
      eapply cs_then; [done|by apply cs_mk_addr| |by intros ??? _ [? _]|by intros ??? [? _]]. intros σ8 b G8 I8 [[= ->] _].
      apply cs_pbind; [done|]. apply cs_acc; [done|]. intros σ80 μ80 σ9 μ9 u9 G80 I80 Hp G9 I9.
      assert (Ho : origin σ9 (loc p) a (addr_of_arg x)).
      { enough (HResult a i (addr_of_arg x) ∈ hist (σ9 (loc p))) by (split; [right; by exists i|by exists (loc p), i]). cbn in Hp. injection Hp as <- _ _. unfold upd. rewrite decide_True by done. cbn. apply elem_of_app. right. by apply elem_of_list_singleton. }
      clear Hp. eapply (cs_then _ _ _ (fun σ' o => forall u, o = Some (Ok (Ok u)) -> in_ress σ' (loc p) a)); [done| | |by intros|by intros].
      + apply cs_mtry; [done|]. eapply (cs_then _ _ _ (fun _ _ => True)); [done|destruct rd; [by apply cs_acc|done]| |by intros ???????|by intros].
        intros σ10 u10 G10 I10 _. eapply cs_mono; [done| |apply cs_set_result; [done|by eapply origin_grew]].
        intros σ11 [[[]|e]|] _ _ H11; try done. intros [] _. by apply H11.
      + intros σ10 o G10 I10 H10. apply cs_pbind; [done|]. apply cs_acc'; [done|]. intros σ11 u11 G11 I11.
        apply cs_pbind; [done|]. cbn [cs mres]. destruct o as [u12|e]; [|done].
        assert (Hin : in_ress σ11 (loc p) a) by (eapply in_ress_grew; [exact G11|by eapply H10]).
        apply cs_pbind; [done|]. unfold drop_request. apply cs_acc'; [intros; by eapply in_ress_grew|].
        intros σ12 u13 G12 I12. cbn. intros x0 [= <-]. split; [by eapply in_ress_grew|].
        eapply (recorded_grew σ9); [|exact (proj2 Ho)]. eapply grew_trans; [exact G10|]. by eapply grew_trans.
    - intros σ3 out G3 I3 H3. apply cs_pbind; [done|]. apply cs_acc'; [done|]. intros σ4 u4 G4 I4. cbn. intros x [= ->]. destruct (H3 x eq_refl). split; [by eapply in_ress_grew|by eapply recorded_grew].
    - intros σ3 e _ _ _ x [=].
    - intros σ3 _ _ _ x [=].
  Qed.
  Lemma cs_execute n p f kw σ : Inv σ -> cs (execute n p f kw) σ (call_post p (call_addr f kw)).
  Proof.
    revert f kw σ. induction n as [|n IH]; intros f kw σ HI; [done|]. rewrite execute_unfold. apply cs_address; [done| |by intros ??????].
    intros σ1 pk G1 I1 Hc Hpk. apply cs_pbind; [done|]. apply cs_acc'; [done|]. intros σ2 x G2 I2.
    eapply cs_then; [done|by apply cs_ready| |by intros ???????|by intros]. intros σ3 rd G3 I3 H3. destruct rd; cbn [andb].
    - specialize (H3 eq_refl). destruct (_ || _).
      + eapply cs_mono; [done| |by apply cs_get_ready]. intros σ4 o G4 I4 H4 x0 Hx0. split; [by eapply in_ress_grew|by apply H4].
      + apply cs_run_body; [done|eapply call_stored_grew; [|exact Hc]; by eapply grew_trans|]. intros f0 kw0 σ0 I0. eapply cs_mono; [done| |by apply IH]. done.
    - apply cs_run_body; [done|eapply call_stored_grew; [|exact Hc]; by eapply grew_trans|]. intros f0 kw0 σ0 I0. eapply cs_mono; [done| |by apply IH]. done.
  Qed.
  Lemma csk_execute n p f kw : csk (execute n p f kw).
  Proof. intros σ HI. eapply cs_mono; [done| |by apply cs_execute]. done. Qed.

  (** ** Operations *)
  Lemma cs_get_address p f kw σ : Inv σ -> cs (PureExec.get_address data_prefix hash_of ses p f kw) σ (fun σ' o =>
    match o with Some (Ok ac) => ac.1 = call_addr f kw /\ call_addr f ac.2 = call_addr f kw /\ call_stored σ' (loc p) ac.1 | Some (Err _) => True | None => False end).
  Proof. intros HI. unfold PureExec.get_address. apply cs_address; [done| |done]. intros σ1 pk G1 I1 Hc Hpk. cbn. done. Qed.
  Lemma cs_swarm p f kw σ : Inv σ -> cs (swarm data_prefix hash_of ses p f kw) σ (fun _ o => forall a, o = Some (Ok a) -> a = call_addr f kw).
  Proof.
    intros HI. unfold swarm. eapply cs_then; [done|by apply cs_get_address| |by intros|by intros ??? []]. intros σ1 [a c] G1 I1 (-> & _ & Hc). cbn [fst snd].
    eapply cs_then; [done|by apply cs_request| |by intros|by intros]. intros σ2 u G2 I2 _. cbn. by intros a0 [= <-].
  Qed.
  Lemma cs_run_fn n p f kw σ : Inv σ -> cs (run_fn data_prefix hash_of body guards_of ses n p f kw) σ (fun σ' o =>
    forall a, o = Some (Ok a) -> a = call_addr f kw /\ in_ress σ' (loc p) a).
  Proof.
    intros HI. unfold run_fn. eapply cs_then; [done|by apply cs_get_address| |by intros|by intros ??? []]. intros σ1 [a c] G1 I1 (-> & E & Hc). cbn [fst snd].
    eapply cs_then; [done|by apply cs_execute| |by intros|by intros]. intros σ2 x G2 I2 H2. cbn in E. rewrite E in H2. cbn. intros a0 [= <-]. split; [done|]. by eapply H2.
  Qed.
  Definition item σ p f kw (ac : addr * kwargs) : Prop := ac.1 = call_addr f kw /\ call_addr f ac.2 = call_addr f kw /\ call_stored σ (loc p) ac.1.
  Lemma item_grew σ σ' p f kw ac : grew σ σ' -> item σ p f kw ac -> item σ' p f kw ac.
  Proof. intros G (H1 & H2 & H3). split; [done|]. split; [done|]. by eapply call_stored_grew. Qed.
  Lemma cs_addresses p f l : forall σ, Inv σ -> cs (addresses data_prefix hash_of ses p f l) σ (fun σ' o => forall m, o = Some (Ok m) -> Forall2 (item σ' p f) l m).
  Proof.
    induction l as [|kw l IH]; intros σ HI; cbn [addresses]; [by intros m [= <-]|]. apply cs_pbind; [done|]. cbn [cs mres].
    destruct (sorted_kwargs kw) as [s|e] eqn:Es; [|done].
    eapply cs_then; [done|by apply cs_result_address| |by intros|by intros ??? []]. intros σ1 a G1 I1 [-> Hc].
    eapply cs_then; [done|by apply IH| |by intros|by intros]. intros σ2 m G2 I2 Hm. cbn. intros m' [= <-]. constructor; [|by apply Hm].
    eapply (item_grew σ1); [done|]. split; [done|]. split; [|done]. cbn. rewrite (sorted_kwargs_ok _ _ Es). apply call_addr_sorted.
  Qed.
  Lemma cs_request_all p f m : forall σ, Inv σ -> (forall ac, ac ∈ m -> exists kw, item σ p f kw ac) -> cs (request_all data_prefix hash_of ses p m) σ (fun _ _ => True).
  Proof.
    induction m as [|[a c] m IH]; intros σ HI Hm; cbn [request_all]; [done|]. destruct (Hm (a, c)) as [kw (_ & _ & Hc)]; [by left|].
    eapply cs_then; [done|by apply cs_request| |by intros|by intros]. intros σ1 u G1 I1 _. apply IH; [done|].
    intros ac Hin. destruct (Hm ac) as [kw' Hi]; [by right|]. exists kw'. by eapply item_grew.
  Qed.
  Lemma cs_execute_all n p f m : forall σ, Inv σ -> cs (execute_all data_prefix hash_of body guards_of ses n p f m) σ (fun σ' o =>
    o = Some (Ok tt) -> forall ac, ac ∈ m -> in_ress σ' (loc p) (call_addr f ac.2)).
  Proof.
    induction m as [|[a c] m IH]; intros σ HI; cbn [execute_all]; [intros _ ac Hin; by apply elem_of_nil in Hin|].
    eapply cs_then; [done|by apply cs_execute| |by intros|by intros]. intros σ1 x G1 I1 H1.
    eapply cs_mono; [done| |by apply IH]. intros σ2 o G2 I2 H2 Ho ac Hin. apply elem_of_cons in Hin as [->|Hin]; [|by apply H2].
    eapply in_ress_grew; [exact G2|]. by eapply H1.
  Qed.
  Lemma item_shuffled σ p f l m (s : @shuffle D) : (forall k, s k ≡ₚ k) -> Forall2 (item σ p f) l m -> forall ac, ac ∈ s m -> exists kw, item σ p f kw ac.
  Proof. intros Hs Hm ac Hin. rewrite (Hs m) in Hin. apply elem_of_list_lookup in Hin as [i Hi]. destruct (Forall2_lookup_r _ _ _ _ _ Hm Hi) as (kw & _ & H). eauto. Qed.
  Lemma cs_swarm_list s1 p f l σ : (forall k, s1 k ≡ₚ k) -> Inv σ -> cs (swarm_list data_prefix hash_of ses s1 p f l) σ (fun σ' o =>
    forall m, o = Some (Ok m) -> Forall2 (item σ' p f) l m).
  Proof.
    intros Hs HI. unfold swarm_list. eapply cs_then; [done|by apply cs_addresses| |by intros|by intros]. intros σ1 m G1 I1 Hm. specialize (Hm m eq_refl).
    eapply cs_then; [done|apply (cs_request_all p f); [done|by eapply item_shuffled]| |by intros|by intros]. intros σ2 u G2 I2 _. cbn. intros m' [= <-].
    eapply Forall2_impl; [exact Hm|]. intros kw ac. by apply item_grew.
  Qed.
  Lemma cs_run_list s1 s2 n p f l σ : (forall k, s1 k ≡ₚ k) -> (forall k, s2 k ≡ₚ k) -> Inv σ ->
    cs (run_list data_prefix hash_of body guards_of ses s1 s2 n p f l) σ (fun σ' o =>
      forall m, o = Some (Ok m) -> Forall2 (item σ' p f) l m /\ forall ac, ac ∈ m -> in_ress σ' (loc p) (call_addr f ac.2)).
  Proof.
    intros Hs1 Hs2 HI. unfold run_list. eapply cs_then; [done|by apply cs_swarm_list| |by intros|by intros]. intros σ1 m G1 I1 Hm. specialize (Hm m eq_refl).
    eapply cs_then; [done|by apply cs_execute_all| |by intros|by intros]. intros σ2 [] G2 I2 H2. cbn. intros m' [= <-]. split.
    - eapply Forall2_impl; [exact Hm|]. intros kw ac. by apply item_grew.
    - intros ac Hin. apply H2; [done|]. by rewrite (Hs2 m).
  Qed.
  Lemma csk_worker n p a : csk (worker data_prefix hash_of body guards_of ses n p a).
  Proof.
    unfold worker. tk. destruct x; [|tk]. tk; [apply csk_ready|]. destruct x; [tk|]. tk.
    + unfold addr_can_be_executed. tk; [apply csk_load_function|apply csk_load_arguments|apply csk_unpack_in|]. apply csk_check_guards. intros. apply csk_execute.
    + destruct x; [|tk]. tk. unfold addr_execute. tk; [apply csk_load_function|apply csk_load_arguments|apply csk_execute].
  Qed.
  End Calls.
  End Ses.

  Section System.
  Context (body : fn_state -> kwargs -> prog (D := D)) (guards_of : fn_state -> list (guard_fn (D := D))).
  Notation achieved := (achieved data_prefix hash_of).
  Definition op_post (j : job (D := D)) σ (r : option (res (list (arg D)))) : Prop := forall out, r = Some (Ok out) -> achieved j σ out.
  Lemma achieved_grew j σ σ' out : grew σ σ' -> achieved j σ out -> achieved j σ' out.
  Proof.
    intros G. pose proof (proj1 (proj2 G)) as R. unfold ConcSpec.achieved. destruct (j_op j); try done.
    - intros [H (x & -> & H')]. split; [by apply R|]. exists x. split; [done|by eapply recorded_grew].
    - intros [-> H]. split; [done|by apply R].
    - intros [-> H]. split; [done|]. intros kw Hin. by apply R, H.
  Qed.
  Lemma cs_op (j : job) σ : Inv σ -> shuffles_permute (j_op j) ->
    cs (op_tree data_prefix hash_of body guards_of (j_ses j) (j_fuel j) (j_portal j) (j_op j)) σ (op_post j).
  Proof.
    intros HI Hsh. destruct j as [ses p n o]. cbn [j_ses j_fuel j_portal j_op] in *. unfold op_post, ConcSpec.achieved. cbn [j_op j_ses j_portal].
    destruct o as [f kw|f kw|f kw|s1 f l|s1 s2 f l|a]; cbn [op_tree shuffles_permute] in *.
    - eapply cs_then; [done|by apply cs_execute| |by intros|by intros]. intros σ1 x G1 I1 H1. cbn. intros out [= <-]. destruct (H1 x eq_refl). split; [done|by exists x].
    - eapply cs_then; [done|by apply cs_swarm| |by intros|by intros]. intros σ1 x G1 I1 H1. cbn. intros out [= <-]. by rewrite (H1 _ eq_refl).
    - eapply cs_then; [done|by apply cs_run_fn| |by intros|by intros]. intros σ1 x G1 I1 H1. cbn. intros out [= <-]. by destruct (H1 _ eq_refl) as [-> ?].
    - eapply cs_then; [done|by apply cs_swarm_list| |by intros|by intros]. intros σ1 m G1 I1 H1. cbn. intros out [= <-]. specialize (H1 m eq_refl).
      clear -H1. induction H1 as [|kw ac l m (H & _) _ IH]; [done|]. cbn. by rewrite H, IH.
    - destruct Hsh. eapply cs_then; [done|by apply cs_run_list| |by intros|by intros]. intros σ1 m G1 I1 H1. cbn. intros out [= <-]. destruct (H1 m eq_refl) as [H2 H3].
      clear -H2 H3. induction H2 as [|kw ac l m (H & H' & _) _ IH]; [split; [done|intros kw Hin; by apply elem_of_nil in Hin]|].
      destruct IH as [IH1 IH2]; [intros ac' Hin; apply H3; by right|]. cbn. rewrite H, IH1. split; [done|]. intros kw' Hin.
      apply elem_of_cons in Hin as [->|Hin]; [|by apply IH2]. rewrite <- H'. apply H3. by left.
    - eapply cs_then; [done|by apply csk_worker| |by intros|by intros]. intros σ1 u G1 I1 _. cbn. by intros out [= <-].
  Qed.
  Notation sys_step := (sys_step data_prefix hash_of body guards_of).
  Notation sys_run := (sys_run data_prefix hash_of body guards_of).
  Definition live σ (pr : proc (D := D)) : Prop := exists σ1, grew σ1 σ /\ Inv σ1 /\ cs (p_tree pr) σ1 (op_post (p_job pr)).
  Definition sys_ok (s : sys (D := D)) : Prop := Inv s.1 /\ forall pr, pr ∈ s.2 -> live s.1 pr.
  Definition req_step (x : action (D := D)) σ σ' : Prop :=
    forall l a, a ∈ reqs (σ l) -> x <> UserDrop l a -> a ∈ reqs (σ' l) \/ in_ress σ' l a.
  Lemma live_grew σ σ' pr : grew σ σ' -> live σ pr -> live σ' pr.
  Proof. intros G (σ1 & G1 & I1 & H). exists σ1. split; [by eapply grew_trans|done]. Qed.
  Lemma step_ok s x : sys_ok s -> (forall j μ, x = Spawn j μ -> shuffles_permute (j_op j)) ->
    sys_ok (sys_step s x) /\ grew s.1 (sys_step s x).1 /\ req_step x s.1 (sys_step s x).1.
  Proof.
    destruct s as [σ ps]. intros [HI Hl] Hx. cbn [fst snd] in *.
    assert (Hsame : sys_ok (σ, ps) /\ grew σ σ /\ req_step x σ σ) by (split; [done|]; split; [apply grew_refl|by left]).
    destruct x as [j μ|i|l a]; cbn [PureExec.sys_step].
    - split; [|split; [apply grew_refl|by left]]. split; [done|]. cbn. intros pr Hin. apply elem_of_app in Hin as [Hin|Hin]; [by apply Hl|].
      apply elem_of_list_singleton in Hin as ->. exists σ. split; [apply grew_refl|]. split; [done|]. cbn. apply cs_op; [done|by eapply Hx].
    - destruct (ps !! i) as [[j [r|e k] μ]|] eqn:Ei; [exact Hsame| |exact Hsame].
      destruct (Hl _ (elem_of_list_lookup_2 _ _ _ Ei)) as (σ1 & G1 & I1 & H1). cbn [p_tree p_job] in H1. cbn [cs] in H1. destruct (H1 σ G1 HI) as [He Hk].
      destruct (perform e σ μ) as [[σ2 μ2] a] eqn:Ep. destruct (perform_good e σ μ σ2 μ2 a HI He Ep) as (G2 & I2 & R2). cbn [fst snd].
      split; [|split; [done|intros l0 a0 H0 _; by apply R2]]. split; [done|]. cbn. intros pr Hin.
      apply elem_of_list_lookup in Hin as [i' Hi']. destruct (decide (i' = i)) as [->|Hn].
      + rewrite list_lookup_insert in Hi' by (by eapply lookup_lt_Some). injection Hi' as <-. exists σ2. split; [apply grew_refl|]. split; [done|]. cbn. by eapply Hk.
      + rewrite list_lookup_insert_ne in Hi' by done. eapply live_grew; [exact G2|]. apply Hl. by eapply elem_of_list_lookup_2.
    - assert (G : grew σ (upd l (set_reqs (fun r => r ∖ {[a]}) (σ l)) σ)).
      { split; [|split]; intros l0; unfold upd; (destruct (decide (l0 = l)) as [->|]; [|done]); cbn; done. }
      cbn [fst snd]. split; [|split; [done|]].
      + split.
        * apply (consistent_step σ); [done|done|..]; intros l0; cbn; unfold upd; (destruct (decide (l0 = l)) as [->|]; [|by left]); cbn; try (by left).
          intros a0 H0. left. set_solver.
        * cbn. intros pr Hin. eapply live_grew; [exact G|]. by apply Hl.
      + intros l0 a0 H0 Hne. left. unfold upd. destruct (decide (l0 = l)) as [->|]; [|done]. cbn. apply elem_of_difference. split; [done|]. set_solver.
  Qed.
  Lemma run_ok xs : forall s, sys_ok s -> (forall j μ, Spawn j μ ∈ xs -> shuffles_permute (j_op j)) ->
    sys_ok (sys_run s xs) /\ grew s.1 (sys_run s xs).1 /\
    forall l a, a ∈ reqs (s.1 l) -> UserDrop l a ∉ xs -> a ∈ reqs ((sys_run s xs).1 l) \/ in_ress (sys_run s xs).1 l a.
  Proof.
    induction xs as [|x xs IH]; intros s Hs Hx; [split; [done|split; [apply grew_refl|by left]]|].
    destruct (step_ok s x Hs) as (H1 & H2 & H3); [intros j μ ->; apply (Hx j μ); by left|].
    destruct (IH _ H1) as (H4 & H5 & H6); [intros j μ Hin; apply (Hx j μ); by right|]. change (sys_run s (x :: xs)) with (sys_run (sys_step s x) xs).
    split; [done|]. split; [by eapply grew_trans|]. intros l a Ha Hn. apply not_elem_of_cons in Hn as [Hn1 Hn2].
    destruct (H3 l a Ha) as [H|H]; [by intros ->|by apply H6|right; by eapply in_ress_grew].
  Qed.
  Lemma live_done σ pr r : Inv σ -> live σ pr -> p_tree pr = Done r -> op_post (p_job pr) σ r.
  Proof. intros HI (σ1 & G1 & I1 & H) E. rewrite E in H. cbn in H. intros out Ho. eapply achieved_grew; [exact G1|by apply H]. Qed.
  End System.
End Conc.
