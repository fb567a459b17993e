From Verif.Lib Require Import Py.
From Verif.Model Require Import PureAddr PureExec.
From Verif.Spec Require Import PureAddrSpec PureExecSpec.
From Verif.Proofs Require Import PureAddrP.
From Coq Require Import QArith.
From stdpp Require Import gmap sorting.
Local Open Scope nat_scope.

(** * Plain evaluation *)
Section Eval.
  Context {D : Type} (data_prefix : D -> string) (hash_of : value D -> string).
  Notation kwargs := (list (string * arg D)).
  Context (body : fn_state -> kwargs -> prog (D := D)) (guards_of : fn_state -> list (guard_fn (D := D))).
  Notation eval := (eval data_prefix hash_of body guards_of).
  Notation denote := (denote data_prefix hash_of).
  Notation accepts := (accepts data_prefix hash_of).
  Notation evaluates := (evaluates data_prefix hash_of body guards_of).
  Implicit Types (kw : kwargs) (f : fn_state).

  Definition extends (c c' : fn_state -> kwargs -> option (res (arg D))) : Prop :=
    forall f kw r, c f kw = Some r -> c' f kw = Some r.
  Lemma denote_mono c c' b r : extends c c' -> denote c b = Some r -> denote c' b = Some r.
  Proof.
    intros Hx. revert r. induction b as [x|e|f kw k IH|f kw k IH|k IH]; cbn [PureExecSpec.denote]; intros r H; try done.
    - destruct (c f kw) as [r0|] eqn:E; [|done]. rewrite (Hx _ _ _ E). by apply IH.
    - destruct (PureAddr.get_address _ _ f kw); by apply IH.
  Qed.
  Lemma accepts_mono c c' gs kw r : extends c c' -> accepts c gs kw = Some r -> accepts c' gs kw = Some r.
  Proof.
    intros Hx. induction gs as [|g gs IH]; cbn [PureExecSpec.accepts]; intros H; [done|].
    destruct g as [f|b].
    - destruct (c f kw) as [r0|] eqn:E; [|done]. rewrite (Hx _ _ _ E). destruct r0; [by apply IH|done].
    - destruct (denote c (b (sort_keys kw))) as [r0|] eqn:E; [|done]. rewrite (denote_mono _ _ _ _ Hx E). destruct r0; [by apply IH|done].
  Qed.
  Lemma eval_step_mono n : extends (eval n) (eval (S n)).
  Proof.
    induction n as [|n IH]; intros f kw r H; [done|]. cbn [PureExecSpec.eval] in H.
    change (eval (S (S n)) f kw) with (match accepts (eval (S n)) (guards_of f) kw with None => None | Some false => Some (Err AssertionError)
      | Some true => denote (eval (S n)) (body f (sort_keys kw)) end).
    destruct (accepts (eval n) (guards_of f) kw) as [ok|] eqn:E; [|done]. rewrite (accepts_mono _ _ _ _ _ IH E).
    destruct ok; [|done]. by apply (denote_mono _ _ _ _ IH).
  Qed.
  Lemma eval_mono n m f kw r : n <= m -> eval n f kw = Some r -> eval m f kw = Some r.
  Proof. intros Hle H. induction Hle as [|m Hle IH]; [done|]. by apply eval_step_mono. Qed.
  Lemma evaluates_det f kw r r' : evaluates f kw r -> evaluates f kw r' -> r = r'.
  Proof.
    intros [n H] [m H']. apply (eval_mono _ (max n m)) in H; [|lia]. apply (eval_mono _ (max n m)) in H'; [|lia]. congruence.
  Qed.
  Lemma eval_perm n : forall f kw kw', NoDup (map fst kw) -> kw ≡ₚ kw' -> eval n f kw = eval n f kw'.
  Proof.
    induction n as [|n IH]; intros f kw kw' Hn Hp; [done|]. cbn [PureExecSpec.eval]. rewrite <- (sort_ext kw kw' Hn Hp).
    assert (accepts (eval n) (guards_of f) kw = accepts (eval n) (guards_of f) kw') as ->; [|done].
    induction (guards_of f) as [|g gs IHg]; cbn [PureExecSpec.accepts]; [done|]. rewrite IHg.
    destruct g as [g|b]; [by rewrite (IH g kw kw')|by rewrite (sort_ext kw kw' Hn Hp)].
  Qed.
  (** ordinary functions have ordinary outcomes *)
  Hypothesis OF : ordinary_functions data_prefix hash_of body guards_of.
  Lemma ordinary_args_sort kw : ordinary_args kw -> ordinary_args (sort_keys kw).
  Proof. intros [Hn Ho]. split; [by rewrite sort_perm|]. intros k x. rewrite sort_perm. apply Ho. Qed.
  Lemma denote_ordinary c b r : (forall f kw r, ordinary_args kw -> c f kw = Some r -> ordinary_outcome r) ->
    ordinary b -> denote c b = Some r -> ordinary_outcome r.
  Proof.
    intros Hc. revert r. induction b as [x|e|f kw k IH|f kw k IH|k IH]; cbn [PureExecSpec.denote ordinary]; intros r Hb H.
    - injection H as <-. by intros y [= <-].
    - injection H as <-. by intros y [=].
    - destruct Hb as [Hkw Hk]. destruct (c f kw) as [r0|] eqn:E0; [|done]. eapply IH; [|exact H]. apply Hk. by eapply Hc.
    - destruct Hb as [Hkw Hk].
      assert (Ha : acceptable kw). { split; [apply Hkw|]. intros k0 m Hin. destruct (proj2 Hkw _ _ Hin) as (v & [= <-] & Hv). by apply (Hv m). }
      rewrite (get_address_canonical data_prefix hash_of f kw Ha) in H. eapply IH; [|exact H]. apply Hk.
    - done.
  Qed.
  Lemma eval_ordinary n : forall f kw r, ordinary_args kw -> eval n f kw = Some r -> ordinary_outcome r.
  Proof.
    induction n as [|n IH]; intros f kw r Hkw H; [done|]. cbn [PureExecSpec.eval] in H.
    destruct (accepts (eval n) (guards_of f) kw) as [[]|]; [|injection H as <-; by intros ? [=]|done].
    eapply denote_ordinary; [apply IH| |exact H]. apply OF. by apply ordinary_args_sort.
  Qed.
End Eval.

(** * Steps, invariants, weakest preconditions *)
Section P.
  Context {D : Type} (data_prefix : D -> string) (hash_of : value D -> string).
  Notation kwargs := (list (string * arg D)).
  Notation text_of := (text_of data_prefix hash_of).
  Notation pack := (pack data_prefix hash_of).
  Context (body : fn_state -> kwargs -> prog (D := D)) (guards_of : fn_state -> list (guard_fn (D := D))).
  Notation state := (@state D).
  Notation event := (@event D).
  Notation eval := (eval data_prefix hash_of body guards_of).
  Notation evaluates := (evaluates data_prefix hash_of body guards_of).
  Notation call_addr := (call_addr data_prefix hash_of).
  Notation call_stored := (call_stored data_prefix hash_of).
  Notation ordinary_call_stored := (ordinary_call_stored data_prefix hash_of).
  Implicit Types (kw : kwargs) (f : fn_state) (σ : state) (a b : addr) (v : value D).

  Hypothesis CF : collision_free data_prefix hash_of.
  (** [det]: all functions and calls are ordinary; [sq]: nobody else accesses the stores *)
  Variable det sq : bool.

  Definition Inv (σ : state) : Prop :=
    values_correct data_prefix hash_of σ /\ results_resolve σ /\ requests_callable data_prefix hash_of σ /\
    (det = true -> requests_ordinary data_prefix hash_of σ /\ results_faithful data_prefix hash_of body guards_of σ).
  Definition Rely (σ σ' : state) : Prop := if sq then σ' = σ else grew σ σ'.
  Definition Guar (σ σ' : state) : Prop := grew σ σ' /\ requests_kept σ σ' /\ (sq = true -> results_kept σ σ').
  Definition E (σ σ' : state) : Prop := grew σ σ' /\ (sq = true -> results_kept σ σ' /\ requests_kept σ σ').

  Lemma grew_refl σ : grew σ σ.
  Proof. split_and!; auto. Qed.
  Lemma grew_trans σ1 σ2 σ3 : grew σ1 σ2 -> grew σ2 σ3 -> grew σ1 σ3.
  Proof. intros (A1 & A2 & A3) (B1 & B2 & B3). split_and!; auto. intros l. etrans; [apply A3|apply B3]. Qed.
  Lemma Rely_refl σ : Rely σ σ.
  Proof. unfold Rely. destruct sq; [done|apply grew_refl]. Qed.
  Lemma E_refl σ : E σ σ.
  Proof. split; [apply grew_refl|]. intros _. split; [by intros ???|intros ???; by left]. Qed.
  Lemma E_trans σ1 σ2 σ3 : E σ1 σ2 -> E σ2 σ3 -> E σ1 σ3.
  Proof.
    intros [A1 A2] [B1 B2]. split; [by eapply grew_trans|]. intros Hs. destruct (A2 Hs) as [A3 A4], (B2 Hs) as [B3 B4]. split; [intros ???; auto|].
    intros l a Ha. destruct (A4 l a Ha) as [H|H]; [by apply B4|]. right. by apply (proj1 (proj2 B1)).
  Qed.
  Lemma Rely_E σ σ' : Rely σ σ' -> E σ σ'.
  Proof. unfold Rely. destruct sq eqn:Es; [intros ->; apply E_refl|]. intros H. split; [done|]. by rewrite Es. Qed.
  Lemma Guar_E σ σ' : Guar σ σ' -> E σ σ'.
  Proof. intros (A & B & C). split; [done|]. auto. Qed.
  Lemma Guar_refl σ : Guar σ σ.
  Proof. split; [apply grew_refl|]. split; [intros ???; by left|by intros _ ???]. Qed.
  Lemma E_grew σ σ' : E σ σ' -> grew σ σ'.
  Proof. by intros []. Qed.

  (** stable facts *)
  Definition stored σ l b v : Prop := vals (σ l) !! b = Some v.
  Definition in_res σ l a : Prop := is_Some (ress (σ l) !! a).
  Lemma stored_E σ σ' l b v : E σ σ' -> stored σ l b v -> stored σ' l b v.
  Proof. intros [[H _] _]. apply H. Qed.
  Lemma in_res_E σ σ' l a : E σ σ' -> in_res σ l a -> in_res σ' l a.
  Proof. intros [(_ & H & _) _]. apply H. Qed.
  Lemma hist_E σ σ' l h : E σ σ' -> h ∈ hist (σ l) -> h ∈ hist (σ' l).
  Proof. intros [(_ & _ & H) _] Hin. destruct (H l) as [t Ht]. rewrite Ht. apply elem_of_app. by left. Qed.
  Lemma call_stored_E σ σ' l a : E σ σ' -> call_stored σ l a -> call_stored σ' l a.
  Proof.
    intros He (f & pk & H0 & H1 & H2 & H3). exists f, pk. split_and!; [done|..]; eapply (stored_E σ); done.
  Qed.
  Lemma ordinary_call_stored_E σ σ' l a : E σ σ' -> ordinary_call_stored σ l a -> ordinary_call_stored σ' l a.
  Proof.
    intros He (f & kw & Ho & Ha & Hc & Hv). exists f, kw. split_and!; [done|done|by eapply call_stored_E|].
    intros k v H. eapply (stored_E σ); [done|]. by eapply Hv.
  Qed.

  (** preconditions and effects of accesses *)
  Definition pre (e : event) σ : Prop :=
    match e with
    | EWriteVal l b v => text_of v = b
    | EWriteRes l a b =>
        (exists v, stored σ l b v) /\ (sq = true -> ress (σ l) !! a = None) /\
        (det = true -> forall f kw, ordinary_args kw -> a = call_addr f kw -> exists v, b = text_of v /\ evaluates f kw (Ok (AVal v)))
    | EWriteReq l a => call_stored σ l a /\ (det = true -> ordinary_call_stored σ l a)
    | EDelReq l a => in_res σ l a
    | _ => True
    end.
  Definition post (e : event) σ σ' : ans e -> Prop :=
    match e return ans e -> Prop with
    | EHasVal l b => fun x => σ' = σ /\ x = bool_decide (is_Some (vals (σ l) !! b))
    | EGetVal l b => fun x => σ' = σ /\ x = vals (σ l) !! b
    | EWriteVal l b v => fun _ => stored σ' l b v
    | EHasRes l a => fun x => σ' = σ /\ x = bool_decide (is_Some (ress (σ l) !! a))
    | EGetRes l a => fun x => σ' = σ /\ x = ress (σ l) !! a
    | EWriteRes l a b => fun _ => ress (σ' l) !! a = Some b
    | EHasReq l a => fun x => σ' = σ /\ x = bool_decide (a ∈ reqs (σ l))
    | EWriteReq l a => fun _ => a ∈ reqs (σ' l) /\ forall l', ress (σ' l') = ress (σ l')
    | EDelReq l a => fun _ => a ∉ reqs (σ' l)
    | EHist l h => fun _ => h ∈ hist (σ' l)
    | ERand | ERun | EGetP _ | ESetP _ _ => fun _ => σ' = σ
    end.

  Lemma upd_eq l s σ : upd l s σ l = s.
  Proof. unfold upd. by rewrite decide_True. Qed.
  Lemma upd_ne l l' s σ : l' <> l -> upd l s σ l' = σ l'.
  Proof. intros H. unfold upd. by rewrite decide_False. Qed.
  Ltac upd_cases := match goal with |- context [upd ?l ?s ?σ ?l'] => unfold upd; destruct (decide (l' = l)) as [->|]
                    | H : context [upd ?l ?s ?σ ?l'] |- _ => unfold upd in H; destruct (decide (l' = l)) as [->|] end.

  Lemma write_val_grew l b v σ : values_correct data_prefix hash_of σ -> text_of v = b ->
    Guar σ (upd l (set_vals <[b := v]> (σ l)) σ).
  Proof.
    intros Hv Ht. split; [|split].
    - split_and!.
      + intros l' b' v' H. upd_cases; [|done]. cbn. destruct (decide (b' = b)) as [->|Hne]; [|by rewrite lookup_insert_ne].
        rewrite lookup_insert. f_equal. apply CF. rewrite Ht. symmetry. by apply (Hv l).
      + intros l' a H. upd_cases; done.
      + intros l'. upd_cases; done.
    - intros l' a H. left. upd_cases; done.
    - intros _ l' a b' H. upd_cases; done.
  Qed.
  Lemma write_res_grew l a b σ : (sq = true -> ress (σ l) !! a = None) -> Guar σ (upd l (set_ress <[a := b]> (σ l)) σ).
  Proof.
    intros Hs. split; [|split].
    - split_and!.
      + intros l' b' v' H. upd_cases; done.
      + intros l' a' H. upd_cases; [|done]. cbn. destruct (decide (a' = a)) as [->|Hne]; [by rewrite lookup_insert|by rewrite lookup_insert_ne].
      + intros l'. upd_cases; done.
    - intros l' a' H. left. upd_cases; done.
    - intros Hq l' a' b' H. upd_cases; [|done]. cbn. destruct (decide (a' = a)) as [->|Hne]; [|by rewrite lookup_insert_ne].
      rewrite (Hs Hq) in H. done.
  Qed.
  Lemma write_req_grew l a σ : Guar σ (upd l (set_reqs (fun r => r ∪ {[a]}) (σ l)) σ).
  Proof.
    split; [|split].
    - split_and!; [intros l' b' v' H|intros l' a' H|intros l']; upd_cases; done.
    - intros l' a' H. left. upd_cases; [|done]. cbn. set_solver.
    - intros _ l' a' b' H. upd_cases; done.
  Qed.
  Lemma del_req_grew l a σ : in_res σ l a -> Guar σ (upd l (set_reqs (fun r => r ∖ {[a]}) (σ l)) σ).
  Proof.
    intros Hr. split; [|split].
    - split_and!; [intros l' b' v' H|intros l' a' H|intros l']; upd_cases; done.
    - intros l' a' H. upd_cases; [|by left]. cbn. destruct (decide (a' = a)) as [->|]; [right; done|left; set_solver].
    - intros _ l' a' b' H. upd_cases; done.
  Qed.
  Lemma hist_grew l h σ : Guar σ (upd l (add_hist h (σ l)) σ).
  Proof.
    split; [|split].
    - split_and!; [intros l' b' v' H|intros l' a' H|intros l']; upd_cases; try done. cbn. by apply prefix_app_r.
    - intros l' a' H. left. upd_cases; done.
    - intros _ l' a' b' H. upd_cases; done.
  Qed.

  (** the invariant only depends on what the stores contain, and is kept when they grow with correct contents *)
  Lemma Inv_grew σ σ' : Inv σ -> grew σ σ' ->
    values_correct data_prefix hash_of σ' ->
    (forall l a b, ress (σ' l) !! a = Some b -> ress (σ l) !! a = Some b \/
        ((exists v, stored σ' l b v) /\
         (det = true -> forall f kw, ordinary_args kw -> a = call_addr f kw -> exists v, b = text_of v /\ evaluates f kw (Ok (AVal v))))) ->
    (forall l a, a ∈ reqs (σ' l) -> a ∈ reqs (σ l) \/ (call_stored σ' l a /\ (det = true -> ordinary_call_stored σ' l a))) ->
    Inv σ'.
  Proof.
    intros (Hv & Hr & Hq & Hd) Hg Hv' Hr' Hq'.
    assert (Hcs : forall l a, call_stored σ l a -> call_stored σ' l a).
    { intros l a (f & pk & H0 & H1 & H2 & H3). exists f, pk. split_and!; [done|..]; by apply (proj1 Hg). }
    split_and!; [done|..].
    - intros l a b H. destruct (Hr' l a b H) as [H0|[H0 _]]; [|done]. destruct (Hr l a b H0) as [v Hv0]. exists v. by apply (proj1 Hg).
    - intros l a H. destruct (Hq' l a H) as [H0|[H0 _]]; [|done]. by apply Hcs, Hq.
    - intros Hdet. destruct (Hd Hdet) as [Hro Hrf]. split.
      + intros l a H. destruct (Hq' l a H) as [H0|[_ H0]]; [|by apply H0].
        destruct (Hro l a H0) as (f & kw & Ho & Ha & Hc & Hvs). exists f, kw. split_and!; [done|done|by apply Hcs|].
        intros k v Hin. by apply (proj1 Hg), (Hvs k).
      + intros l f kw b Ho H. destruct (Hr' l _ b H) as [H0|[_ H0]]; [by eapply Hrf|]. by apply (H0 Hdet).
  Qed.

  Lemma perform_ok (e : event) σ μ σ' μ' x : Inv σ -> pre e σ -> perform e σ μ = (σ', μ', x) ->
    Guar σ σ' /\ Inv σ' /\ post e σ σ' x.
  Proof.
    intros HI Hp. pose proof HI as (Hv & Hr & Hq & Hd). destruct e as [l b|l b|l b v|l a|l a|l a b|l a|l a|l a|l h| | |q|q y]; cbn; intros [= <- _ <-]; cbn [pre] in Hp;
      try (split; [apply Guar_refl|split; [done|done]]).
    - pose proof (write_val_grew l b v σ Hv Hp) as Hg. split; [done|]. split; [|by unfold stored; rewrite upd_eq; cbn; rewrite lookup_insert].
      apply (Inv_grew σ); [done|apply Hg|..].
      + intros l' b' v' H. upd_cases; [|by eapply Hv]. cbn in H. apply lookup_insert_Some in H as [[<- <-]|[_ H]]; [done|by eapply Hv].
      + intros l' a b' H. left. upd_cases; done.
      + intros l' a H. left. upd_cases; done.
    - destruct Hp as (Hst & Hsq & Hdet). pose proof (write_res_grew l a b σ Hsq) as Hg. split; [done|]. split; [|by rewrite upd_eq; cbn; rewrite lookup_insert].
      apply (Inv_grew σ); [done|apply Hg|..].
      + intros l' b' v' H. upd_cases; exact (Hv _ _ _ H).
      + intros l' a' b' H. upd_cases; [|by left]. cbn in H. apply lookup_insert_Some in H as [[<- <-]|[_ H]]; [|by left]. right.
        split; [|done]. destruct Hst as [v Hst]. exists v. unfold stored. rewrite upd_eq. done.
      + intros l' a' H. left. upd_cases; done.
    - destruct Hp as [Hc Ho]. pose proof (write_req_grew l a σ) as Hg. split; [done|]. split; [|rewrite upd_eq; split; [cbn; set_solver|intros l'; upd_cases; done]].
      apply (Inv_grew σ); [done|apply Hg|..].
      + intros l' b' v' H. upd_cases; exact (Hv _ _ _ H).
      + intros l' a' b' H. left. upd_cases; done.
      + intros l' a' H. unfold upd in H at 1. destruct (decide (l' = l)) as [->|]; [|by left]. cbn in H. apply elem_of_union in H as [H|H]; [by left|].
        apply elem_of_singleton in H as ->. right. pose proof (Guar_E _ _ Hg) as He. split; [by eapply call_stored_E|]. intros Hdet. eapply ordinary_call_stored_E; [done|auto].
    - pose proof (del_req_grew l a σ Hp) as Hg. split; [done|]. split; [|rewrite upd_eq; cbn; set_solver].
      apply (Inv_grew σ); [done|apply Hg|..].
      + intros l' b' v' H. upd_cases; exact (Hv _ _ _ H).
      + intros l' a' b' H. left. upd_cases; done.
      + intros l' a' H. left. upd_cases; [|done]. cbn in H. set_solver.
    - pose proof (hist_grew l h σ) as Hg. split; [done|]. split; [|rewrite upd_eq; cbn; set_solver].
      apply (Inv_grew σ); [done|apply Hg|..].
      + intros l' b' v' H. upd_cases; exact (Hv _ _ _ H).
      + intros l' a' b' H. left. upd_cases; done.
      + intros l' a' H. left. upd_cases; done.
  Qed.

  (** ** Weakest preconditions under interference *)
  Fixpoint wp {X} (t : tree X) (σ : state) (Q : state -> X -> Prop) : Prop :=
    match t with
    | Done x => Q σ x
    | Step e k => forall σ1, Rely σ σ1 -> Inv σ1 -> pre e σ1 /\
        forall σ2 x, Guar σ1 σ2 -> Inv σ2 -> post e σ1 σ2 x -> wp (k x) σ2 Q
    end.
  Lemma wp_mono {X} (t : tree X) : forall σ (Q Q' : state -> X -> Prop), (forall σ x, Q σ x -> Q' σ x) -> wp t σ Q -> wp t σ Q'.
  Proof.
    induction t as [x|e k IH]; intros σ Q Q' HQ; cbn; [auto|]. intros H σ1 H1 H2. destruct (H σ1 H1 H2) as [Hp Hk]. split; [done|].
    intros σ2 x H3 H4 H5. eapply IH; [done|]. by apply Hk.
  Qed.
  Lemma wp_tbind {X Y} (t : tree X) (f : X -> tree Y) : forall σ Q, wp t σ (fun σ' x => wp (f x) σ' Q) -> wp (tbind t f) σ Q.
  Proof.
    induction t as [x|e k IH]; intros σ Q; cbn; [done|]. intros H σ1 H1 H2. destruct (H σ1 H1 H2) as [Hp Hk]. split; [done|].
    intros σ2 x H3 H4 H5. apply IH. by apply Hk.
  Qed.
  Definition mcont {X Y} (f : X -> @M D Y) (Q : state -> option (res Y) -> Prop) : state -> option (res X) -> Prop :=
    fun σ r => match r with Some (Ok x) => wp (f x) σ Q | Some (Err e) => Q σ (Some (Err e)) | None => Q σ None end.
  Lemma wp_pbind {X Y} (m : M X) (f : X -> M Y) σ Q : wp m σ (mcont f Q) -> wp (pbind m f) σ Q.
  Proof. intros H. apply wp_tbind. eapply wp_mono; [|exact H]. intros σ' [[x|e]|]; done. Qed.
  Definition tcont {X} (Q : state -> option (res (res X)) -> Prop) : state -> option (res X) -> Prop :=
    fun σ r => match r with Some x => Q σ (Some (Ok x)) | None => Q σ None end.
  Lemma wp_mtry {X} (m : M X) σ Q : wp m σ (tcont Q) -> wp (mtry m) σ Q.
  Proof. intros H. apply wp_tbind. eapply wp_mono; [|exact H]. intros σ' [x|]; done. Qed.
  (** E-closed version of one access *)
  Lemma wp_acc (e : event) σ (Q : state -> option (res (ans e)) -> Prop) :
    (forall σ1, Rely σ σ1 -> E σ σ1 -> Inv σ1 -> pre e σ1 /\
       forall σ2 x, E σ σ2 -> Inv σ2 -> post e σ1 σ2 x -> Q σ2 (Some (Ok x))) -> wp (acc e) σ Q.
  Proof.
    intros H σ1 H1 H2. destruct (H σ1 H1 (Rely_E _ _ H1) H2) as [Hp Hk]. split; [done|]. intros σ2 x H3 H4 H5. cbn.
    apply Hk; [|done|done]. eapply E_trans; [by apply Rely_E|by apply Guar_E].
  Qed.

  (** running a tree alone *)
  Lemma wp_run {X} (t : tree X) : forall σ μ Q σ' μ' x, wp t σ Q -> Inv σ -> run t σ μ = (σ', μ', x) ->
    Q σ' x /\ Inv σ' /\ grew σ σ' /\ requests_kept σ σ' /\ (sq = true -> results_kept σ σ').
  Proof.
    induction t as [x0|e k IH]; intros σ μ Q σ' μ' x; cbn; intros Hw HI Hr.
    - injection Hr as <- <- <-. split_and!; [done|done|apply grew_refl|intros ???; by left|by intros _ ???].
    - destruct (perform e σ μ) as [[σ1 μ1] ax] eqn:Ep. destruct (Hw σ (Rely_refl σ) HI) as [Hp Hk].
      destruct (perform_ok _ _ _ _ _ _ HI Hp Ep) as (HG & HI1 & Hpost).
      destruct (IH ax σ1 μ1 Q σ' μ' x (Hk σ1 ax HG HI1 Hpost) HI1 Hr) as (HQ & HI' & Hg & Hq & Hs).
      split_and!; [done|done|..].
      + eapply grew_trans; [apply HG|done].
      + intros l a Ha. destruct HG as (HG1 & HG2 & _). destruct (HG2 l a Ha) as [H|H]; [by apply Hq|]. right. by apply Hg.
      + intros Hsq l a b Hb. apply (Hs Hsq). by apply (proj2 (proj2 HG) Hsq).
  Qed.

  (** ** Specifications *)
  Context (ses : session).
  Notation loc := (loc ses).
  Notation K X := (state -> option (res X) -> Prop).
  Ltac acc_step := apply wp_pbind, wp_acc.

  Lemma put_spec p b v σ (Q : K unit) : text_of v = b -> Inv σ ->
    (forall σ', E σ σ' -> Inv σ' -> stored σ' (loc p) b v -> Q σ' (Some (Ok tt))) -> wp (put ses p b v) σ Q.
  Proof.
    intros Ht HI HQ. unfold put. acc_step. intros σ1 _ _ HI1. split; [done|]. intros σ2 x E2 HI2 [-> ->]. unfold mcont.
    case_bool_decide as Hs.
    - cbn. apply HQ; [done|done|]. destruct Hs as [v' Hs]. unfold stored. rewrite Hs. f_equal. apply CF. rewrite Ht. by apply (proj1 HI1 _ _ _ Hs).
    - apply wp_acc. intros σ3 _ E3 HI3. split; [done|]. intros σ4 x E4 HI4 H4. cbn in x. destruct x. apply HQ; [by eapply E_trans|done|done].
  Qed.
  Lemma mk_addr_spec p x σ (Q : K addr) : Inv σ ->
    (forall σ', E σ σ' -> Inv σ' -> (forall v, x = AVal v -> stored σ' (loc p) (text_of v) v) ->
       Q σ' (Some (Ok (addr_of_arg data_prefix hash_of x)))) -> wp (mk_addr data_prefix hash_of ses p x) σ Q.
  Proof.
    intros HI HQ. destruct x as [v|b|b]; cbn [mk_addr].
    - apply wp_pbind. apply put_spec; [done|done|]. intros σ' E' HI' Hs. cbn. apply HQ; [done|done|]. by intros v' [= <-].
    - cbn. apply HQ; [apply E_refl|done|done].
    - cbn. apply HQ; [apply E_refl|done|done].
  Qed.
  Definition in_store σ l b : Prop := is_Some (vals (σ l) !! b).
  Lemma in_store_E σ σ' l b : E σ σ' -> in_store σ l b -> in_store σ' l b.
  Proof. intros He [v H]. exists v. by eapply stored_E. Qed.
  Lemma find_other_spec p b qs : forall σ (Q : K (value D)), Inv σ ->
    (forall σ' r, E σ σ' -> Inv σ' -> match r with Some (Ok v) => stored σ' (loc p) b v | Some (Err _) => True | None => False end -> Q σ' r) ->
    wp (find_other ses p b qs) σ Q.
  Proof.
    induction qs as [|q qs IH]; intros σ Q HI HQ; cbn [find_other].
    - cbn. apply HQ; [apply E_refl|done|done].
    - acc_step. intros σ1 _ _ HI1. split; [done|]. intros σ2 x E2 HI2 [-> ->]. unfold mcont.
      destruct (vals (σ1 (PureExec.loc ses q)) !! b) as [v|] eqn:Ev.
      + apply wp_pbind. apply put_spec; [by apply (proj1 HI1 _ _ _ Ev)|done|]. intros σ3 E3 HI3 Hs. cbn. apply HQ; [by eapply E_trans|done|done].
      + apply IH; [done|]. intros σ3 r E3 HI3 Hr. apply HQ; [by eapply E_trans|done|done].
  Qed.
  Lemma resolve_spec p b σ (Q : K (value D)) : Inv σ ->
    (forall σ' r, E σ σ' -> Inv σ' -> (in_store σ (loc p) b -> exists v, r = Some (Ok v)) ->
       match r with Some (Ok v) => stored σ' (loc p) b v | Some (Err _) => True | None => False end -> Q σ' r) ->
    wp (resolve ses p b) σ Q.
  Proof.
    intros HI HQ. unfold resolve. acc_step. intros σ1 _ E1 HI1. split; [done|]. intros σ2 x E2 HI2 [-> ->]. unfold mcont.
    destruct (vals (σ1 (loc p)) !! b) as [v|] eqn:Ev.
    - cbn. apply HQ; [done|done|eauto|done].
    - apply find_other_spec; [done|]. intros σ3 r E3 HI3 Hr. apply HQ; [by eapply E_trans|done| |done].
      intros Hi. apply (in_store_E _ _ _ _ E1) in Hi as [v Hv]. congruence.
  Qed.

  Lemma pack_in_spec p (l : kwargs) : forall σ (Q : K (list (string * addr))), Inv σ ->
    (forall σ', E σ σ' -> Inv σ' -> (forall k v, (k, AVal v) ∈ l -> stored σ' (loc p) (text_of v) v) -> Q σ' (Some (Ok (pack l)))) ->
    wp (pack_in data_prefix hash_of ses p l) σ Q.
  Proof.
    induction l as [|[k x] l IH]; intros σ Q HI HQ; cbn [pack_in].
    - cbn. apply HQ; [apply E_refl|done|set_solver].
    - apply wp_pbind. apply mk_addr_spec; [done|]. intros σ1 E1 HI1 H1. unfold mcont. apply wp_pbind. apply IH; [done|].
      intros σ2 E2 HI2 H2. cbn. apply HQ; [by eapply E_trans|done|]. intros k' v [H|H]%elem_of_cons.
      + injection H as -> <-. eapply stored_E; [done|]. by apply H1.
      + by eapply H2.
  Qed.
  (** all addresses among the arguments are stored in p *)
  Definition args_stored σ p (l : kwargs) : Prop := forall k b, (k, AAddr b) ∈ l -> in_store σ (loc p) b.
  Lemma args_stored_E σ σ' p l : E σ σ' -> args_stored σ p l -> args_stored σ' p l.
  Proof. intros He H k b Hin. eapply in_store_E; [done|]. by eapply H. Qed.
  (** the unpacked arguments: addresses replaced by the values stored under them *)
  Definition unpacked σ p (l m : kwargs) : Prop :=
    Forall2 (fun x y => match x.2 with AAddr b => exists v, y = (x.1, AVal v) /\ stored σ (loc p) b v | _ => y = x end) l m.
  Lemma unpacked_E σ σ' p l m : E σ σ' -> unpacked σ p l m -> unpacked σ' p l m.
  Proof.
    intros He H. eapply Forall2_impl; [exact H|]. intros [k [v|b|b]] y; cbn; try done. intros (v & -> & Hv). exists v. split; [done|]. by eapply stored_E.
  Qed.
  Lemma unpack_in_spec p (l : kwargs) : forall σ (Q : K kwargs), Inv σ ->
    (forall σ' r, E σ σ' -> Inv σ' -> (args_stored σ p l -> exists m, r = Some (Ok m)) ->
       match r with Some (Ok m) => unpacked σ' p l m | Some (Err _) => True | None => False end -> Q σ' r) ->
    wp (unpack_in ses p l) σ Q.
  Proof.
    induction l as [|[k x] l IH]; intros σ Q HI HQ; cbn [unpack_in].
    - cbn. apply HQ; [apply E_refl|done|eauto|constructor].
    - assert (Hplain : match x with AAddr _ => False | _ => True end ->
        wp (pbind (unpack_in ses p l) (fun m => pret ((k, x) :: m))) σ Q).
      { intros Hx. apply wp_pbind. apply IH; [done|]. intros σ1 r E1 HI1 Hok Hr. destruct r as [[m|e]|]; cbn.
        - apply HQ; [done|done|eauto|]. constructor; [|done]. cbn. destruct x; done.
        - apply HQ; [done|done| |done]. intros Ha. destruct Hok as [m Hm]; [|done]. intros k' b Hin. apply (Ha k'). by right.
        - done. }
      destruct x as [v|b|b]; [by apply Hplain| |by apply Hplain].
      apply wp_pbind. apply resolve_spec; [done|]. intros σ1 r E1 HI1 Hok Hr. destruct r as [[v|e]|]; unfold mcont.
      + apply wp_pbind. apply IH; [done|]. intros σ2 r2 E2 HI2 Hok2 Hr2. destruct r2 as [[m|e]|]; cbn.
        * apply HQ; [by eapply E_trans|done|eauto|]. constructor; [|done]. cbn. exists v. split; [done|]. by eapply stored_E.
        * apply HQ; [by eapply E_trans|done| |done]. intros Ha. destruct Hok2 as [m Hm]; [|done].
          intros k' b' Hin. eapply in_store_E; [exact E1|]. apply (Ha k'). by right.
        * done.
      + apply HQ; [done|done| |done]. intros Ha. destruct Hok as [v Hv]; [|done]. apply (Ha k). by left.
      + done.
  Qed.

  Lemma sorted_kwargs_cases (l : kwargs) : sorted_kwargs l = Ok (sort_keys l) \/ exists e, sorted_kwargs l = Err e.
  Proof. unfold sorted_kwargs. destruct (forallb _ l); eauto. Qed.

  Definition stored_as σ l a f (pk : list (string * addr)) : Prop :=
      a = ((fn_name f ++ "_" ++ island_name f)%string,
           snd (text_of (VSig (fn_name f) (text_of (VFn f)) (island_name f) (text_of (VArgs pk))))) /\
      vals (σ l) !! text_of (VFn f) = Some (VFn f) /\
      vals (σ l) !! text_of (VArgs pk) = Some (VArgs pk) /\
      vals (σ l) !! signature_addr a
        = Some (VSig (fn_name f) (text_of (VFn f)) (island_name f) (text_of (VArgs pk))).
  Lemma stored_as_E σ σ' l a f pk : E σ σ' -> stored_as σ l a f pk -> stored_as σ' l a f pk.
  Proof. intros He (H0 & H1 & H2 & H3). split_and!; [done|..]; eapply (stored_E σ); done. Qed.

  Lemma result_address_spec p f (L : kwargs) σ (Q : K addr) : Inv σ ->
    (forall σ' r, E σ σ' -> Inv σ' -> r = Some (result_addr data_prefix hash_of f L) ->
       (forall a, result_addr data_prefix hash_of f L = Ok a -> stored_as σ' (loc p) a f (pack (sort_keys L))) ->
       (forall a k v, result_addr data_prefix hash_of f L = Ok a -> (k, AVal v) ∈ L -> stored σ' (loc p) (text_of v) v) -> Q σ' r) ->
    wp (result_address data_prefix hash_of ses p f L) σ Q.
  Proof.
    intros HI HQ. unfold result_address. apply wp_pbind. unfold mres. cbn [wp mcont].
    destruct (sorted_kwargs_cases L) as [Es|[e Es]]; rewrite Es.
    2: { apply HQ; [apply E_refl|done|unfold result_addr; by rewrite Es|..]; unfold result_addr; rewrite Es; done. }
    apply wp_pbind, mk_addr_spec; [done|]. intros σ1 E1 HI1 H1. unfold mcont.
    apply wp_pbind, pack_in_spec; [done|]. intros σ2 E2 HI2 H2. unfold mcont.
    apply wp_pbind, mk_addr_spec; [done|]. intros σ3 E3 HI3 H3. unfold mcont.
    apply wp_pbind, mk_addr_spec; [done|]. intros σ4 E4 HI4 H4. cbn.
    assert (E14 : E σ1 σ4) by (eapply E_trans; [done|]; by eapply E_trans).
    assert (Ea : result_addr data_prefix hash_of f L = Ok ((fn_name f ++ "_" ++ island_name f)%string,
       snd (text_of (VSig (fn_name f) (text_of (VFn f)) (island_name f) (text_of (VArgs (pack (sort_keys L)))))))).
    { unfold result_addr. by rewrite Es. }
    apply HQ; [by eapply E_trans|done|by rewrite Ea| |].
    - intros a Ha. rewrite Ea in Ha. injection Ha as <-. split_and!; [done|..].
      + eapply (stored_E σ1); [done|]. by apply H1.
      + eapply (stored_E σ3); [done|]. by apply H3.
      + exact (H4 _ eq_refl).
    - intros _ k v _ Hin. eapply (stored_E σ2); [by eapply E_trans|]. apply (H2 k). by rewrite sort_perm.
  Qed.

  (** ** ordinary calls *)
  Lemma ordinary_acceptable kw : ordinary_args kw -> acceptable kw.
  Proof. intros Hkw. split; [apply Hkw|]. intros k0 m Hin. destruct (proj2 Hkw _ _ Hin) as (v & [= <-] & Hv). by apply (Hv m). Qed.
  Lemma ordinary_plain kw : ordinary_args kw -> plain kw.
  Proof. intros [_ Ho] k x Hin. destruct (Ho _ _ Hin) as (v & -> & _). eauto. Qed.
  Lemma call_addr_canonical f kw : acceptable kw -> call_addr f kw = canonical data_prefix hash_of f kw.
  Proof. intros Ha. unfold PureExecSpec.call_addr. by rewrite (get_address_canonical data_prefix hash_of f kw Ha). Qed.
  Lemma same_args_keys kw kw' : same_args data_prefix hash_of kw kw' -> map fst kw' = map fst kw.
  Proof. induction 1; cbn; congruence. Qed.
  Lemma same_args_pack kw kw' : same_args data_prefix hash_of kw kw' -> pack kw' = pack kw.
  Proof. induction 1; [done| |]; unfold PureAddr.pack in *; cbn [map]; by f_equal. Qed.
  Lemma same_args_acceptable kw kw' : same_args data_prefix hash_of kw kw' -> acceptable kw -> acceptable kw'.
  Proof.
    intros Hs [Hn Ha]. split; [by rewrite (same_args_keys _ _ Hs)|]. intros k m Hin. apply (Ha k m). clear Hn Ha.
    induction Hs; [done| |]; apply elem_of_cons in Hin as [Hin|Hin]; [injection Hin as -> <-; by left|right; auto|done|right; auto].
  Qed.
  Lemma same_args_refl kw : same_args data_prefix hash_of kw kw.
  Proof. induction kw as [|[k x] kw IH]; by constructor. Qed.
  Lemma same_args_val kw kw' k v : same_args data_prefix hash_of kw kw' -> (k, AVal v) ∈ kw ->
    (k, AVal v) ∈ kw' \/ (k, AAddr (text_of v)) ∈ kw'.
  Proof.
    induction 1 as [|k0 x l l' Hs IH|k0 v0 l l' Hs IH]; [set_solver| |]; intros Hin; apply elem_of_cons in Hin as [Hin|Hin].
    - injection Hin as -> <-. left. by left.
    - destruct (IH Hin); [left|right]; by right.
    - injection Hin as -> <-. right. by left.
    - destruct (IH Hin); [left|right]; by right.
  Qed.

  Lemma ordinary_packed σ l a f kw f' pk : ordinary_args kw -> a = call_addr f kw -> stored_as σ l a f' pk ->
    f' = f /\ pk = sort_keys (pack kw).
  Proof.
    intros Ho -> (H0 & _). rewrite (call_addr_canonical f kw (ordinary_acceptable kw Ho)) in H0. unfold canonical in H0.
    injection H0 as _ Hh. apply (sig_inj data_prefix hash_of CF) in Hh as (_ & Hf & _ & Hl).
    apply CF in Hf. apply CF in Hl. injection Hf as ->. by injection Hl as ->.
  Qed.

  (** cached arguments of an address can be resolved *)
  Definition cached_ok σ p a (cached : option kwargs) : Prop :=
    match cached with Some args => args_stored σ p args | None => ordinary_call_stored σ (loc p) a end.
  Lemma cached_ok_E σ σ' p a cached : E σ σ' -> cached_ok σ p a cached -> cached_ok σ' p a cached.
  Proof. destruct cached; cbn; [apply args_stored_E|apply ordinary_call_stored_E]. Qed.

  Lemma load_function_spec p a σ (Q : K fn_state) : Inv σ ->
    (forall σ' r, E σ σ' -> Inv σ' ->
       (forall f pk, stored_as σ (loc p) a f pk -> r = Some (Ok f)) -> r <> None -> Q σ' r) -> wp (load_function ses p a) σ Q.
  Proof.
    intros HI HQ. unfold load_function. apply wp_pbind, resolve_spec; [done|]. intros σ1 r1 E1 HI1 Hok1 Hr1.
    destruct r1 as [[s|e]|]; [| |done].
    2: { apply HQ; [done|done| |done]. intros f pk (_ & _ & _ & H3). destruct Hok1 as [v Hv]; [eexists; exact H3|done]. }
    unfold mcont.
    assert (Hs : forall f pk, stored_as σ (loc p) a f pk -> s = VSig (fn_name f) (text_of (VFn f)) (island_name f) (text_of (VArgs pk))).
    { intros f pk (_ & _ & _ & H3). apply (stored_E _ _ _ _ _ E1) in H3. cbn in Hr1. unfold stored in *. congruence. }
    destruct s as [d|m|g|n fa i aa]; cbn [wp pfail]; try (apply HQ; [done|done|intros f pk H; by specialize (Hs f pk H)|done]).
    apply wp_pbind, resolve_spec; [done|]. intros σ2 r2 E2 HI2 Hok2 Hr2.
    destruct r2 as [[v|e]|]; [| |done].
    2: { apply HQ; [by eapply E_trans|done| |done]. intros f pk H. pose proof (Hs f pk H) as E0. injection E0 as -> -> -> ->. destruct H as (_ & H1 & _).
         destruct Hok2 as [v Hv]; [|done]. eapply in_store_E; [exact E1|]. eexists. exact H1. }
    unfold mcont.
    assert (Hv : forall f pk, stored_as σ (loc p) a f pk -> v = VFn f).
    { intros f pk H. pose proof (Hs f pk H) as E0. injection E0 as -> -> -> ->. destruct H as (_ & H1 & _).
      apply (stored_E _ _ _ _ _ E1) in H1. apply (stored_E _ _ _ _ _ E2) in H1. cbn in Hr2. unfold stored in *. congruence. }
    destruct v as [d|m|g|n' fa' i' aa']; cbn; apply HQ; try (by eapply E_trans); try done; intros f pk H; specialize (Hv f pk H); try done. by injection Hv as ->.
  Qed.
  Lemma load_arguments_spec p a σ (Q : K kwargs) : Inv σ ->
    (forall σ' r, E σ σ' -> Inv σ' ->
       (forall f pk, stored_as σ (loc p) a f pk -> r = Some (Ok (as_args pk))) -> r <> None -> Q σ' r) -> wp (load_arguments ses p a) σ Q.
  Proof.
    intros HI HQ. unfold load_arguments. apply wp_pbind, resolve_spec; [done|]. intros σ1 r1 E1 HI1 Hok1 Hr1.
    destruct r1 as [[s|e]|]; [| |done].
    2: { apply HQ; [done|done| |done]. intros f pk (_ & _ & _ & H3). destruct Hok1 as [v Hv]; [eexists; exact H3|done]. }
    unfold mcont.
    assert (Hs : forall f pk, stored_as σ (loc p) a f pk -> s = VSig (fn_name f) (text_of (VFn f)) (island_name f) (text_of (VArgs pk))).
    { intros f pk (_ & _ & _ & H3). apply (stored_E _ _ _ _ _ E1) in H3. cbn in Hr1. unfold stored in *. congruence. }
    destruct s as [d|m|g|n fa i aa]; cbn [wp pfail]; try (apply HQ; [done|done|intros f pk H; by specialize (Hs f pk H)|done]).
    apply wp_pbind, resolve_spec; [done|]. intros σ2 r2 E2 HI2 Hok2 Hr2.
    destruct r2 as [[v|e]|]; [| |done].
    2: { apply HQ; [by eapply E_trans|done| |done]. intros f pk H. pose proof (Hs f pk H) as E0. injection E0 as -> -> -> ->. destruct H as (_ & _ & H1 & _).
         destruct Hok2 as [v Hv]; [|done]. eapply in_store_E; [exact E1|]. eexists. exact H1. }
    unfold mcont.
    assert (Hv : forall f pk, stored_as σ (loc p) a f pk -> v = VArgs pk).
    { intros f pk H. pose proof (Hs f pk H) as E0. injection E0 as -> -> -> ->. destruct H as (_ & _ & H1 & _).
      apply (stored_E _ _ _ _ _ E1) in H1. apply (stored_E _ _ _ _ _ E2) in H1. cbn in Hr2. unfold stored in *. congruence. }
    destruct v as [d|m|g|n' fa' i' aa']; cbn; apply HQ; try (by eapply E_trans); try done; intros f pk H; specialize (Hv f pk H); try done. by injection Hv as ->.
  Qed.

  Lemma ordinary_args_stored σ p a f pk : ordinary_call_stored σ (loc p) a -> stored_as σ (loc p) a f pk -> args_stored σ p (as_args pk).
  Proof.
    intros (f0 & kw & Ho & Ha & _ & Hv) Hst. destruct (ordinary_packed _ _ _ _ _ _ _ Ho Ha Hst) as [-> ->].
    intros k b Hin. apply elem_of_list_fmap in Hin as ([k' b'] & [= -> ->] & Hin). rewrite sort_perm in Hin.
    apply elem_of_list_fmap in Hin as ([k'' x] & [= -> ->] & Hin). destruct (ordinary_plain kw Ho _ _ Hin) as [v ->]. exists v. by apply (Hv k'').
  Qed.

  Lemma sync_spec p a cached σ (Q : K kwargs) : Inv σ ->
    (forall σ' r, E σ σ' -> Inv σ' -> (cached_ok σ p a cached -> exists m, r = Some (Ok m)) -> r <> None -> Q σ' r) -> wp (sync ses p a cached) σ Q.
  Proof.
    intros HI HQ. destruct cached as [args|]; cbn [sync].
    - apply unpack_in_spec; [done|]. intros σ' r E1 HI1 Hok Hr. apply HQ; [done|done|done|]. by intros ->.
    - apply wp_pbind, load_function_spec; [done|]. intros σ1 r1 E1 HI1 H1 Hn1. destruct r1 as [[f|e]|]; [| |done].
      2: { apply HQ; [done|done| |done]. intros (f & kw & _ & _ & (f' & pk & Hst) & _). by specialize (H1 f' pk Hst). }
      unfold mcont. apply wp_pbind, load_arguments_spec; [done|]. intros σ2 r2 E2 HI2 H2 Hn2. destruct r2 as [[args|e]|]; [| |done].
      2: { apply HQ; [by eapply E_trans|done| |done]. intros (f0 & kw & _ & _ & (f' & pk & Hst) & _).
           by specialize (H2 f' pk (stored_as_E _ _ _ _ _ _ E1 Hst)). }
      unfold mcont. apply unpack_in_spec; [done|]. intros σ3 r3 E3 HI3 Hok Hr. apply HQ; [|done| |by intros ->].
      + eapply E_trans; [done|]. by eapply E_trans.
      + intros Hc. apply Hok. pose proof Hc as (f0 & kw & _ & _ & (f' & pk & Hst) & _).
        pose proof (H2 f' pk (stored_as_E _ _ _ _ _ _ E1 Hst)) as E0. injection E0 as ->.
        assert (E12 : E σ σ2) by (by eapply E_trans). eapply args_stored_E; [exact E12|].
        eapply ordinary_args_stored; [exact Hc|exact Hst].
  Qed.

  (** what a result of call a must be *)
  Definition is_result_of a v : Prop := exists f kw, ordinary_args kw /\ a = call_addr f kw /\ evaluates f kw (Ok (AVal v)).
  Lemma is_result_all a v : is_result_of a v ->
    forall f kw, ordinary_args kw -> a = call_addr f kw -> exists v', text_of v = text_of v' /\ evaluates f kw (Ok (AVal v')).
  Proof.
    intros (f0 & kw0 & Ho0 & Ha0 & n & He) f kw Ho Ha. exists v. split; [done|]. rewrite Ha0 in Ha.
    rewrite !call_addr_canonical in Ha by (by apply ordinary_acceptable).
    apply (canonical_inj data_prefix hash_of CF) in Ha as [-> Hp]. apply (pack_inj_plain data_prefix hash_of CF) in Hp; [|by apply ordinary_plain..].
    exists n. rewrite <- He. symmetry. apply eval_perm; [apply Ho0|done].
  Qed.
  Lemma faithful_unique σ l a b v : Inv σ -> det = true -> ress (σ l) !! a = Some b -> is_result_of a v -> b = text_of v.
  Proof.
    intros (_ & _ & _ & Hd) Hdet Hb (f & kw & Ho & -> & He). destruct (proj2 (Hd Hdet) l f kw b Ho Hb) as (v' & -> & He').
    pose proof (evaluates_det _ _ _ _ _ _ _ _ He He') as E0. by injection E0 as ->.
  Qed.
  Lemma set_result_spec p a b v σ (Q : K unit) : Inv σ -> stored σ (loc p) b v -> (det = true -> b = text_of v /\ is_result_of a v) ->
    (forall σ' r, E σ σ' -> Inv σ' ->
       match r with Some (Ok _) => in_res σ' (loc p) a | Some (Err _) => det = false | None => False end -> Q σ' r) -> wp (set_result ses p a b) σ Q.
  Proof.
    intros HI Hst Hd HQ. unfold set_result. acc_step. intros σ1 R1 E1 HI1. split; [done|]. intros σ2 x E2 HI2 [-> ->]. unfold mcont.
    case_bool_decide as Hin.
    - acc_step. intros σ3 R3 E3 HI3. split; [done|]. intros σ4 pc E4 HI4 H4. cbn in H4. subst σ4. unfold mcont.
      assert (E3' : E σ σ3) by (by eapply E_trans).
      assert (Hin3 : in_res σ3 (loc p) a) by exact (in_res_E _ _ _ _ E3 Hin).
      destruct pc as [q|]; [|cbn; by apply HQ]. destruct (Qle_bool q 0); [cbn; by apply HQ|].
      acc_step. intros σ5 R5 E5 HI5. split; [done|]. intros σ6 y E6 HI6 H6. cbn in H6. subst σ6. unfold mcont.
      assert (E5' : E σ σ5) by (by eapply E_trans).
      assert (Hin5 : in_res σ5 (loc p) a) by exact (in_res_E _ _ _ _ E5 Hin3).
      destruct (Qle_bool q y); [cbn; by apply HQ|].
      acc_step. intros σ7 R7 E7 HI7. split; [done|]. intros σ8 old E8 HI8 [-> ->]. unfold mcont, massert.
      assert (E7' : E σ σ7) by (by eapply E_trans).
      assert (Hin7 : in_res σ7 (loc p) a) by exact (in_res_E _ _ _ _ E7 Hin5).
      case_bool_decide as Hold; cbn; apply HQ; try done.
      destruct det eqn:Hdet; [exfalso|done]. destruct (Hd eq_refl) as [-> Hres]. destruct Hin7 as [b' Hb'].
      apply Hold. rewrite Hb'. f_equal. by eapply faithful_unique.
    - apply wp_acc. intros σ3 R3 E3 HI3. split.
      + cbn [pre]. split_and!.
        * exists v. eapply stored_E; [|exact Hst]. by eapply E_trans.
        * intros Hs. unfold Rely in R3. rewrite Hs in R3. subst σ3. by apply eq_None_not_Some.
        * intros Hdet f kw Ho Ha. destruct (Hd Hdet) as [-> Hres]. by apply (is_result_all a v Hres).
      + intros σ4 y E4 HI4 H4. apply HQ; [by eapply E_trans|done|]. by eexists.
  Qed.

  Definition addr_info σ p a cached : Prop :=
    det = true -> (exists f kw, ordinary_args kw /\ a = call_addr f kw) /\ cached_ok σ p a cached.
  Lemma addr_info_E σ σ' p a cached : E σ σ' -> addr_info σ p a cached -> addr_info σ' p a cached.
  Proof. intros He H Hdet. destruct (H Hdet). split; [done|]. by eapply cached_ok_E. Qed.

  Lemma ready_elsewhere_spec p a cached qs : forall σ (Q : K bool), Inv σ -> addr_info σ p a cached ->
    (forall σ' r, E σ σ' -> Inv σ' ->
       match r with Some (Ok true) => in_res σ' (loc p) a | Some (Ok false) => sq = true -> σ' = σ | Some (Err _) => det = false | None => False end -> Q σ' r) ->
    wp (ready_elsewhere data_prefix hash_of ses p a cached qs) σ Q.
  Proof.
    induction qs as [|q qs IH]; intros σ Q HI Hinfo HQ; cbn [ready_elsewhere].
    - cbn. apply HQ; [apply E_refl|done|done].
    - acc_step. intros σ1 R1 E1 HI1. split; [done|]. intros σ2 x _ HI2 [-> ->]. unfold mcont. case_bool_decide as Hin.
      2: { apply IH; [done|by eapply addr_info_E|]. intros σ3 r E3 HI3 Hr. apply HQ; [by eapply E_trans|done|].
           destruct r as [[[]|e]|]; try done. intros Hs. rewrite (Hr Hs). unfold Rely in R1. by rewrite Hs in R1. }
      acc_step. intros σ3 R3 E3 HI3. split; [done|]. intros σ4 x _ HI4 [-> ->]. unfold mcont.
      assert (Hin3 : in_res σ3 (PureExec.loc ses q) a) by exact (in_res_E _ _ _ _ E3 Hin). destruct Hin3 as [b Hb]. rewrite Hb.
      destruct (proj1 (proj2 HI3) _ _ _ Hb) as [v Hv].
      assert (E3' : E σ σ3) by (by eapply E_trans).
      acc_step. intros σ5 R5 E5 HI5. split; [done|]. intros σ6 x _ HI6 [-> ->]. unfold mcont.
      pose proof (stored_E _ _ _ _ _ E5 Hv) as Hv5. unfold stored in Hv5. rewrite Hv5.
      assert (E5' : E σ σ5) by (by eapply E_trans).
      assert (Hres : det = true -> is_result_of a v).
      { intros Hdet. destruct (Hinfo Hdet) as [(f & kw & Ho & ->) _]. exists f, kw. split_and!; [done|done|].
        destruct (proj2 (proj2 (proj2 (proj2 HI3)) Hdet) _ f kw b Ho Hb) as (v' & -> & He').
        assert (v = v') as -> by (apply CF; by apply (proj1 HI3 _ _ _ Hv)). done. }
      apply wp_pbind, mk_addr_spec; [done|]. intros σ7 E7 HI7 H7. cbn [mcont addr_of_arg].
      assert (E7' : E σ σ7) by (by eapply E_trans).
      apply wp_pbind. apply (set_result_spec p a (text_of v) v); [done|by apply H7|auto|]. intros σ8 r8 E8 HI8 H8.
      assert (E8' : E σ σ8) by (by eapply E_trans).
      destruct r8 as [[[]|e]|]; cbn [mcont]; [|by apply HQ|done].
      apply wp_pbind, sync_spec; [done|]. intros σ9 r9 E9 HI9 H9 Hn9. assert (E9' : E σ σ9) by (by eapply E_trans).
      destruct r9 as [[m|e]|]; cbn; [| |done].
      + apply HQ; [done|done|]. exact (in_res_E _ _ _ _ E9 H8).
      + apply HQ; [done|done|]. destruct det eqn:Hdet; [|done]. destruct H9 as [m Hm]; [|done]. eapply cached_ok_E; [exact E8'|]. by apply Hinfo.
  Qed.
  Definition ready_post σ0 p a σ (r : option (res bool)) : Prop :=
    match r with Some (Ok true) => in_res σ (loc p) a | Some (Ok false) => sq = true -> σ = σ0 /\ ~ in_res σ (loc p) a
    | Some (Err _) => det = false | None => False end.
  Lemma ready_spec cur p a cached σ (Q : K bool) : Inv σ -> addr_info σ p a cached ->
    (forall σ' r, E σ σ' -> Inv σ' -> ready_post σ p a σ' r -> Q σ' r) -> wp (ready data_prefix hash_of ses cur p a cached) σ Q.
  Proof.
    intros HI Hinfo HQ. unfold ready. acc_step. intros σ1 R1 E1 HI1. split; [done|]. intros σ2 x _ HI2 [-> ->]. unfold mcont. case_bool_decide as Hin.
    - cbn. by apply HQ.
    - apply ready_elsewhere_spec; [done|by eapply addr_info_E|]. intros σ3 r E3 HI3 Hr. apply HQ; [by eapply E_trans|done|].
      destruct r as [[[]|e]|]; try done. cbn. intros Hs. rewrite (Hr Hs). unfold Rely in R1. rewrite Hs in R1. by rewrite <- R1.
  Qed.

  Definition pending σ l a : Prop := a ∈ reqs (σ l) \/ in_res σ l a.
  Lemma pending_E σ σ' l a : sq = true -> E σ σ' -> pending σ l a -> pending σ' l a.
  Proof. intros Hs He [H|H]; [by apply (proj2 (proj2 He Hs))|]. right. by eapply in_res_E. Qed.
  Definition request_post σ0 p a σ (r : option (res unit)) : Prop :=
    match r with Some (Ok _) => sq = true -> (a ∈ reqs (σ (loc p)) <-> ~ in_res σ (loc p) a) | Some (Err _) => det = false | None => False end.
  Lemma request_spec p a cached σ (Q : K unit) : Inv σ -> call_stored σ (loc p) a -> (det = true -> ordinary_call_stored σ (loc p) a) ->
    addr_info σ p a cached ->
    (forall σ' r, E σ σ' -> Inv σ' -> request_post σ p a σ' r -> Q σ' r) -> wp (request data_prefix hash_of ses p a cached) σ Q.
  Proof.
    intros HI Hcs Hocs Hinfo HQ. unfold request. apply wp_pbind, ready_spec; [done|done|]. intros σ1 r1 E1 HI1 H1.
    destruct r1 as [[[]|e]|]; cbn [mcont]; [| |by apply HQ|done].
    - apply wp_acc. intros σ2 R2 E2 HI2. split; [exact (in_res_E _ _ _ _ E2 H1)|]. intros σ3 x E3 HI3 H3. apply HQ; [by eapply E_trans|done|].
      cbn. intros _. split; [intros H; by cbn in H3|]. intros H. destruct H. exact (in_res_E _ _ _ _ E3 H1).
    - acc_step. intros σ2 R2 E2 HI2. split; [done|]. intros σ3 x _ HI3 [-> ->]. unfold mcont. assert (E2' : E σ σ2) by (by eapply E_trans). case_bool_decide as Hin.
      + cbn. apply HQ; [done|done|]. cbn. intros Hs. unfold Rely in R2. rewrite Hs in R2. subst σ2. split; [|done]. intros _. by apply H1.
      + apply wp_acc. intros σ4 R4 E4 HI4. assert (E4' : E σ σ4) by (by eapply E_trans). split.
        * split; [exact (call_stored_E _ _ _ _ E4' Hcs)|]. intros Hdet. eapply ordinary_call_stored_E; [exact E4'|auto].
        * intros σ5 [] E5 HI5 H5. apply HQ; [exact (E_trans _ _ _ E2' E5)|done|]. cbn. intros Hs.
          destruct H5 as [H5 H5r]. split; [|done]. intros _ Hr. unfold in_res in Hr. rewrite H5r in Hr. unfold Rely in R2, R4. rewrite Hs in R2, R4. subst σ4 σ2.
          by apply H1.
  Qed.

  (** ** Calls *)
  (** in an ordinary history: kw are the argument values, kw' the arguments as passed *)
  Definition ordargs σ p kw kw' : Prop := det = true -> ordinary_args kw /\ same_args data_prefix hash_of kw kw' /\ args_stored σ p kw'.
  Lemma ordargs_E σ σ' p kw kw' : E σ σ' -> ordargs σ p kw kw' -> ordargs σ' p kw kw'.
  Proof. intros He H Hd. destruct (H Hd) as (H1 & H2 & H3). split_and!; [done|done|by eapply args_stored_E]. Qed.
  Lemma ordargs_refl σ p kw : (det = true -> ordinary_args kw) -> ordargs σ p kw kw.
  Proof.
    intros H Hd. specialize (H Hd). split_and!; [done|apply same_args_refl|]. intros k b Hin. destruct (ordinary_plain kw H _ _ Hin) as [v E0]. done.
  Qed.
  (** what is known about the address of a call *)
  Definition known σ p f kw kw' a : Prop :=
    a = call_addr f kw' /\ call_stored σ (loc p) a /\
    (det = true -> a = call_addr f kw /\ ordinary_call_stored σ (loc p) a /\ args_stored σ p (as_args (pack (sort_keys kw')))).
  Lemma known_E σ σ' p f kw kw' a : E σ σ' -> known σ p f kw kw' a -> known σ' p f kw kw' a.
  Proof.
    intros He (H0 & H1 & H2). split_and!; [done|by eapply call_stored_E|]. intros Hd. destruct (H2 Hd) as (H3 & H4 & H5).
    split_and!; [done|by eapply ordinary_call_stored_E|by eapply args_stored_E].
  Qed.
  Lemma known_info σ p f kw kw' a : known σ p f kw kw' a -> (det = true -> ordinary_args kw) -> addr_info σ p a (Some (as_args (pack (sort_keys kw')))).
  Proof. intros (_ & _ & H) Ho Hd. destruct (H Hd) as (H1 & _ & H2). split; [|done]. exists f, kw. split; [auto|done]. Qed.

  Lemma same_sorted kw kw' : same_args data_prefix hash_of kw kw' -> pack (sort_keys kw') = pack (sort_keys kw).
  Proof. intros H. by rewrite !pack_sort, (same_args_pack _ _ H). Qed.
  Lemma same_args_in kw kw' k x : same_args data_prefix hash_of kw kw' -> ordinary_args kw -> (k, x) ∈ kw' ->
    exists v, (k, AVal v) ∈ kw /\ (x = AVal v \/ x = AAddr (text_of v)).
  Proof.
    intros Hs [_ Ho]. revert Ho. induction Hs as [|k0 y l l' Hs IH|k0 v0 l l' Hs IH]; intros Ho Hin; [by apply elem_of_nil in Hin| |];
      apply elem_of_cons in Hin as [Hin|Hin].
    - injection Hin as -> ->. destruct (Ho k0 y) as (v & -> & _); [by left|]. exists v. split; [by left|by left].
    - destruct IH as (v & H1 & H2); [|done|]. { intros k1 x1 H1. apply (Ho k1 x1). by right. } exists v. split; [by right|done].
    - injection Hin as -> ->. exists v0. split; [by left|by right].
    - destruct IH as (v & H1 & H2); [|done|]. { intros k1 x1 H1. apply (Ho k1 x1). by right. } exists v. split; [by right|done].
  Qed.

  Lemma address_spec {X} p f kw kw' (g : list (string * addr) -> addr -> @M D X) σ (Q : K X) : Inv σ -> ordargs σ p kw kw' ->
    (forall e, det = false -> Q σ (Some (Err e))) ->
    (forall σ' a, E σ σ' -> Inv σ' -> known σ' p f kw kw' a -> wp (g (pack (sort_keys kw')) a) σ' Q) ->
    wp (pbind (mres (sorted_kwargs kw')) (fun s => pbind (pack_in data_prefix hash_of ses p s) (fun packed =>
        pbind (result_address data_prefix hash_of ses p f (as_args packed)) (fun a => g packed a)))) σ Q.
  Proof.
    intros HI Hoa Herr Hk. apply wp_pbind. unfold mres. cbn [wp mcont].
    assert (Hacc : det = true -> acceptable kw').
    { intros Hd. destruct (Hoa Hd) as (Ho & Hs & _). eapply same_args_acceptable; [done|by apply ordinary_acceptable]. }
    destruct (sorted_kwargs_cases kw') as [Es|[e Es]]; rewrite Es.
    2: { apply Herr. destruct det eqn:Hd; [|done]. rewrite (acceptable_sorted kw' (Hacc eq_refl)) in Es. done. }
    apply wp_pbind, pack_in_spec; [done|]. intros σ1 E1 HI1 H1. unfold mcont.
    apply wp_pbind, result_address_spec; [done|]. intros σ2 r E2 HI2 -> H2 _.
    set (pk := pack (sort_keys kw')) in *.
    assert (Er : result_addr data_prefix hash_of f (as_args pk) = Ok (call_addr f kw')).
    { unfold PureExecSpec.call_addr, PureAddr.get_address. rewrite Es. cbn. fold pk.
      destruct (result_addr data_prefix hash_of f (as_args pk)) eqn:E0; [done|]. unfold result_addr in E0. by rewrite sorted_as_args in E0. }
    rewrite Er. cbn [mcont]. assert (E12 : E σ σ2) by exact (E_trans _ _ _ E1 E2). apply Hk; [done|done|].
    specialize (H2 _ Er). split_and!; [done| |].
    { exists f, (pack (sort_keys (as_args pk))). exact H2. }
    intros Hd. destruct (Hoa Hd) as (Ho & Hs & Hst). pose proof (Hacc Hd) as Ha. pose proof (ordinary_acceptable kw Ho) as Hak.
    assert (Eca : call_addr f kw' = call_addr f kw).
    { rewrite !call_addr_canonical by done. unfold canonical. by rewrite (same_args_pack _ _ Hs). }
    assert (Hall : forall k v, (k, AVal v) ∈ kw -> stored σ2 (loc p) (text_of v) v).
    { intros k v Hin. destruct (same_args_val kw kw' k v Hs Hin) as [H|H].
      - eapply stored_E; [exact E2|]. apply (H1 k). by rewrite sort_perm.
      - destruct (Hst k _ H) as [v' Hv']. assert (v' = v) as -> by (apply CF; by apply (proj1 HI _ _ _ Hv')). exact (stored_E _ _ _ _ _ E12 Hv'). }
    split_and!; [done| |].
    - exists f, kw. split_and!; [done|done| |done]. exists f, (pack (sort_keys (as_args pk))). exact H2.
    - unfold pk. rewrite (same_sorted _ _ Hs). intros k b Hin. apply elem_of_list_fmap in Hin as ([k' b'] & [= -> ->] & Hin).
      apply elem_of_list_fmap in Hin as ([k'' x] & [= -> ->] & Hin). rewrite sort_perm in Hin.
      destruct (ordinary_plain kw Ho _ _ Hin) as [v ->]. exists v. by apply (Hall k'').
  Qed.

  (** what a call guarantees *)
  Definition exec_post n p f kw kw' σ (r : option (res (arg D))) : Prop :=
    (forall x, r = Some (Ok x) -> (exists v, x = AVal v) /\ in_res σ (loc p) (call_addr f kw')) /\
    (det = true -> (r = None -> eval n f kw = None) /\
       forall x, r = Some x -> evaluates f kw x /\
         (sq = true -> forall e, x = Err e -> call_addr f kw ∈ reqs (σ (loc p)) /\ exists i, HAttempt (call_addr f kw) i ∈ hist (σ (loc p)))).
  Definition call_ok n p (c : fn_state -> kwargs -> @M D (arg D)) : Prop :=
    forall f kw kw' σ (Q : K (arg D)), Inv σ -> ordargs σ p kw kw' ->
      (forall σ' r, E σ σ' -> Inv σ' -> exec_post n p f kw kw' σ' r -> Q σ' r) -> wp (c f kw') σ Q.

  Lemma swarm_with_spec p f kw kw' σ (Q : K (arg D)) : Inv σ -> ordargs σ p kw kw' ->
    (forall σ' r, E σ σ' -> Inv σ' -> match r with Some (Ok x) => x = AResult (call_addr f kw') /\ (det = true -> call_addr f kw' = call_addr f kw) /\
       (sq = true -> pending σ' (loc p) (call_addr f kw'))
       | Some (Err _) => det = false | None => False end -> Q σ' r) -> wp (swarm_with data_prefix hash_of ses p f kw') σ Q.
  Proof.
    intros HI Hoa HQ. unfold swarm_with. eapply address_spec; [done|exact Hoa|intros e Hd; apply HQ; [apply E_refl|done|done]|].
    intros σ1 a E1 HI1 Hk. apply wp_pbind. apply request_spec; [done|apply Hk|intros Hd; by apply Hk| |].
    { eapply known_info; [exact Hk|]. intros Hd. by apply Hoa. }
    intros σ2 r E2 HI2 Hr. assert (E12 : E σ σ2) by exact (E_trans _ _ _ E1 E2). destruct r as [[[]|e]|]; cbn; [|by apply HQ|done].
    apply HQ; [done|done|]. destruct Hk as (-> & _ & Hk). split_and!; [done| |].
    - intros Hd. by apply Hk.
    - intros Hs. unfold pending. destruct (decide (call_addr f kw' ∈ reqs (σ2 (loc p)))) as [H|H]; [by left|]. right.
      cbn in Hr. unfold in_res. destruct (ress (σ2 (loc p)) !! call_addr f kw') eqn:E0; [eauto|]. exfalso. apply H. apply (Hr Hs). unfold in_res. rewrite E0. by intros [].
  Qed.

  Notation denote := (denote data_prefix hash_of).
  Notation accepts := (accepts data_prefix hash_of).
  Definition prog_post n (b : prog (D := D)) (r : option (res (arg D))) : Prop :=
    (returns_values b -> forall x, r = Some (Ok x) -> exists v, x = AVal v) /\
    (det = true -> (r = None -> denote (eval n) b = None) /\ forall x, r = Some x -> exists m, denote (eval m) b = Some x).
  Lemma run_prog_spec n p c (b : prog (D := D)) : call_ok n p c -> ordinary_functions data_prefix hash_of body guards_of \/ det = false ->
    forall σ (Q : K (arg D)), Inv σ -> (det = true -> ordinary b) ->
    (forall σ' r, E σ σ' -> Inv σ' -> prog_post n b r -> Q σ' r) -> wp (run_prog data_prefix hash_of ses c p b) σ Q.
  Proof.
    intros Hc HOF. induction b as [x|e|f kw k IH|f kw k IH|k IH]; intros σ Q HI Ho HQ; cbn [run_prog].
    - cbn. apply HQ; [apply E_refl|done|]. split; [intros Hx y [= <-]; exact Hx|]. intros Hd. split; [done|]. intros y [= <-]. by exists 0.
    - cbn. apply HQ; [apply E_refl|done|]. split; [by intros _ y [=]|]. intros Hd. split; [done|]. intros y [= <-]. by exists 0.
    - apply wp_pbind, wp_mtry. apply (Hc f kw kw); [done|apply ordargs_refl; intros Hd; by apply (Ho Hd)|].
      intros σ1 r1 E1 HI1 [_ H1]. destruct r1 as [r1|]; cbn [tcont mcont].
      + apply IH; [done| |].
        * intros Hd. destruct (Ho Hd) as [Hkw Hk]. apply Hk. destruct (H1 Hd) as [_ H2]. destruct HOF as [OF|?]; [|congruence].
          destruct (proj1 (H2 r1 eq_refl)) as [m Hm]. eapply eval_ordinary; [exact OF|exact Hkw|exact Hm].
        * intros σ2 r2 E2 HI2 [Hv Hd2]. apply HQ; [exact (E_trans _ _ _ E1 E2)|done|]. split; [intros Hrv; apply Hv, Hrv|].
          intros Hd. destruct (Hd2 Hd) as [Hn Hs]. destruct (H1 Hd) as [_ H2]. destruct (proj1 (H2 r1 eq_refl)) as [m Hm]. split.
          -- intros ->. cbn [PureExecSpec.denote]. destruct (eval n f kw) as [r'|] eqn:En; [|done].
             assert (r' = r1) as -> by (eapply evaluates_det; [by exists n|by exists m]). by apply Hn.
          -- intros x ->. destruct (Hs x eq_refl) as [m' Hm']. exists (max m m'). cbn [PureExecSpec.denote].
             rewrite (eval_mono _ _ _ _ m (max m m') f kw r1 ltac:(lia) Hm).
             eapply denote_mono; [|exact Hm']. intros g gk gr Hg. eapply eval_mono; [|exact Hg]. lia.
      + apply HQ; [done|done|]. split; [done|]. intros Hd. split; [|done]. intros _. cbn [PureExecSpec.denote].
        destruct (H1 Hd) as [Hn _]. by rewrite (Hn eq_refl).
    - apply wp_pbind, wp_mtry. apply (swarm_with_spec p f kw kw); [done|apply ordargs_refl; intros Hd; by apply (Ho Hd)|].
      intros σ1 r1 E1 HI1 H1. destruct r1 as [r1|]; cbn [tcont mcont]; [|done].
      assert (Hga : det = true -> PureAddr.get_address data_prefix hash_of f kw = Ok (call_addr f kw)).
      { intros Hd. destruct (Ho Hd) as [Hkw _]. unfold PureExecSpec.call_addr.
        by rewrite (get_address_canonical data_prefix hash_of f kw (ordinary_acceptable kw Hkw)). }
      apply IH; [done| |].
      * intros Hd. destruct (Ho Hd) as [Hkw Hk]. destruct r1 as [x|e]; [|congruence]. destruct H1 as [-> _]. apply Hk.
      * intros σ2 r2 E2 HI2 [Hv Hd2]. apply HQ; [exact (E_trans _ _ _ E1 E2)|done|]. split; [intros Hrv; apply Hv, Hrv|].
        intros Hd. destruct (Hd2 Hd) as [Hn Hs]. cbn [PureExecSpec.denote]. rewrite (Hga Hd).
        destruct r1 as [x|e]; [|congruence]. destruct H1 as [-> _]. done.
    - acc_step. intros σ1 R1 E1 HI1. split; [done|]. intros σ1' x E1' HI1' H1. unfold mcont.
      cbn in H1. subst σ1'. apply IH; [done|intros Hd; by destruct (Ho Hd)|]. intros σ2 r2 E2 HI2 [Hv Hd2]. apply HQ; [exact (E_trans _ _ _ E1 E2)|done|].
      split; [intros Hrv; apply Hv, Hrv|]. intros Hd. by destruct (Ho Hd).
  Qed.

  Hypothesis HB : if det then ordinary_functions data_prefix hash_of body guards_of else forall f kw, returns_values (body f kw).
  Lemma HB_or : ordinary_functions data_prefix hash_of body guards_of \/ det = false.
  Proof. clear -HB. destruct det; auto. Qed.
  Lemma HB_of : det = true -> ordinary_functions data_prefix hash_of body guards_of.
  Proof. clear -HB. by destruct det. Qed.

  Definition guards_post n gs kw (r : option (res bool)) : Prop :=
    match r with Some (Err _) => False | _ => True end /\
    (det = true -> (r = None -> accepts (eval n) gs kw = None) /\ forall x, r = Some (Ok x) -> exists m, accepts (eval m) gs kw = Some x).
  Lemma check_guards_spec n p c f kw kw' gs : call_ok n p c -> (forall g, g ∈ gs -> g ∈ guards_of f) ->
    forall σ (Q : K bool), Inv σ -> ordargs σ p kw kw' ->
    (forall σ' r, E σ σ' -> Inv σ' -> guards_post n gs kw r -> Q σ' r) -> wp (check_guards data_prefix hash_of ses c p gs kw') σ Q.
  Proof.
    intros Hc. induction gs as [|g gs IH]; intros Hin σ Q HI Hoa HQ; cbn [check_guards].
    - cbn. apply HQ; [apply E_refl|done|]. split; [done|]. intros Hd. split; [done|]. intros x [= <-]. by exists 0.
    - apply wp_pbind, wp_mtry.
      assert (Hmid : forall σ1 r1, E σ σ1 -> Inv σ1 ->
        (det = true -> (r1 = None -> match g with GPure f => eval n f kw | GAuto b => denote (eval n) (b (sort_keys kw)) end = None) /\
           forall x, r1 = Some x -> exists m, match g with GPure f => eval m f kw | GAuto b => denote (eval m) (b (sort_keys kw)) end = Some x) ->
        tcont (mcont (fun r => match r with Ok _ => check_guards data_prefix hash_of ses c p gs kw' | Err _ => pret false end) Q) σ1 r1).
      { intros σ1 r1 E1 HI1 H1. destruct r1 as [r1|]; cbn [tcont mcont].
        2: { apply HQ; [done|done|]. split; [done|]. intros Hd. destruct (H1 Hd) as [Hn _]. split; [|done]. intros _.
             cbn [PureExecSpec.accepts]. by rewrite (Hn eq_refl). }
        assert (Hext : forall i j, i <= j -> extends (eval i) (eval j)).
        { intros i j Hij g' gk' r' H'. eapply eval_mono; [exact Hij|exact H']. }
        assert (Hup : forall i j x, i <= j -> match g with GPure f => eval i f kw | GAuto b => denote (eval i) (b (sort_keys kw)) end = Some x ->
           match g with GPure f => eval j f kw | GAuto b => denote (eval j) (b (sort_keys kw)) end = Some x).
        { intros i j x Hij. destruct g; [by apply Hext|]. apply denote_mono. by apply Hext. }
        destruct r1 as [x|e].
        - apply IH; [intros g' Hg'; apply Hin; by right|done|by eapply ordargs_E|]. intros σ2 r2 E2 HI2 [Hne Hd2].
          apply HQ; [exact (E_trans _ _ _ E1 E2)|done|]. split; [done|]. intros Hd. destruct (Hd2 Hd) as [Hn Hs].
          destruct (H1 Hd) as [_ H2]. destruct (H2 _ eq_refl) as [m Hm]. split.
          + intros Hr. cbn [PureExecSpec.accepts].
            destruct (match g with GPure f => eval n f kw | GAuto b => denote (eval n) (b (sort_keys kw)) end) as [r'|] eqn:En; [|done].
            assert (r' = Ok x) as ->; [|by apply Hn].
            pose proof (Hup n (max n m) _ ltac:(lia) En) as A1. pose proof (Hup m (max n m) _ ltac:(lia) Hm) as A2. congruence.
          + intros y Hr. destruct (Hs y Hr) as [m' Hm']. exists (max m m'). cbn [PureExecSpec.accepts].
            rewrite (Hup m (max m m') _ ltac:(lia) Hm). eapply accepts_mono; [|exact Hm']. apply Hext. lia.
        - cbn. apply HQ; [done|done|]. split; [done|]. intros Hd. split; [done|]. intros y [= <-]. destruct (H1 Hd) as [_ H2].
          destruct (H2 _ eq_refl) as [m Hm]. exists m. cbn [PureExecSpec.accepts]. by rewrite Hm. }
      destruct g as [f'|b].
      + apply (Hc f' kw kw'); [done|done|]. intros σ1 r1 E1 HI1 [_ H1]. apply Hmid; [done|done|]. intros Hd. destruct (H1 Hd) as [Hn Hs].
        split; [done|]. intros x Hx. destruct (Hs x Hx) as [[m Hm] _]. by exists m.
      + assert (Hb : det = true -> b (sort_keys kw') = b (sort_keys kw)).
        { intros Hd. destruct (Hoa Hd) as (_ & Hs & _). eapply (proj2 (HB_of Hd) f b); [apply Hin; by left|done]. }
        apply (run_prog_spec n p c (b (sort_keys kw')) Hc HB_or); [done| |].
        * intros Hd. rewrite (Hb Hd). eapply (proj2 (HB_of Hd) f b); [apply Hin; by left|]. apply ordinary_args_sort. by apply (Hoa Hd).
        * intros σ1 r1 E1 HI1 [_ H1]. apply Hmid; [done|done|]. intros Hd. rewrite (Hb Hd) in H1. apply (H1 Hd).
  Qed.

  Lemma unpacked_sorted σ p kw kw' m : Inv σ -> ordinary_args kw -> same_args data_prefix hash_of kw kw' ->
    unpacked σ p (as_args (pack (sort_keys kw'))) m -> m = sort_keys kw.
  Proof.
    intros HI Ho Hs. rewrite (same_sorted _ _ Hs). pose proof (ordinary_plain _ (ordinary_args_sort kw Ho)) as Hpl.
    generalize dependent (sort_keys kw). intros l Hpl. clear -HI Hpl CF. revert m.
    induction l as [|[k x] l IH]; intros m Hu; [by inversion Hu|]. cbn in Hu. inversion Hu as [|? y ? m' Hy Hu']; subst. cbn in Hy.
    destruct Hy as (v & -> & Hv). destruct (Hpl k x) as [v0 ->]; [by left|]. cbn in Hv. f_equal.
    - do 2 f_equal. apply CF. by apply (proj1 HI _ _ _ Hv).
    - apply IH; [|done]. intros k' x' Hin. apply (Hpl k' x'). by right.
  Qed.

  Lemma get_ready_spec n p f kw kw' a σ (Q : K (arg D)) : Inv σ -> (det = true -> ordinary_args kw) -> known σ p f kw kw' a -> in_res σ (loc p) a ->
    (forall σ' r, E σ σ' -> Inv σ' -> exec_post n p f kw kw' σ' r -> Q σ' r) -> wp (get_ready ses p a) σ Q.
  Proof.
    intros HI Ho Hk Hin HQ. unfold get_ready. acc_step. intros σ1 R1 E1 HI1. split; [done|]. intros σ2 x _ HI2 [-> ->]. unfold mcont.
    assert (Hin1 : in_res σ1 (loc p) a) by exact (in_res_E _ _ _ _ E1 Hin). pose proof Hin1 as [b Hb]. rewrite Hb.
    destruct (proj1 (proj2 HI1) _ _ _ Hb) as [v Hv].
    acc_step. intros σ3 R3 E3 HI3. split; [done|]. intros σ4 x _ HI4 [-> ->]. unfold mcont.
    pose proof (stored_E _ _ _ _ _ E3 Hv) as Hv3. unfold stored in Hv3. rewrite Hv3. cbn. apply HQ; [exact (E_trans _ _ _ E1 E3)|done|].
    destruct Hk as (-> & _ & Hk). split.
    - intros x [= <-]. split; [eauto|]. exact (in_res_E _ _ _ _ E3 Hin1).
    - intros Hd. split; [done|]. intros x [= <-]. split; [|done]. destruct (Hk Hd) as (Ea & _). rewrite Ea in Hb.
      destruct (proj2 (proj2 (proj2 (proj2 HI1)) Hd) _ f kw b (Ho Hd) Hb) as (v' & -> & He). 
      assert (v = v') as -> by (apply CF; by apply (proj1 HI1 _ _ _ Hv)). done.
  Qed.

  Notation execute := (execute data_prefix hash_of body guards_of ses).
  (** the part of [execute] after the choice to run the body *)
  Definition run_body fuel p f kw' packed a (rd : bool) : @M D (arg D) :=
    pbind (acc ERun) (fun run_id =>
    pbind (acc (EHist (loc p) (HAttempt a run_id))) (fun _ =>
    pbind (mtry (
      pbind (request data_prefix hash_of ses p a (Some (as_args packed))) (fun _ =>
      pbind (check_guards data_prefix hash_of ses (execute fuel p) p (guards_of f) kw') (fun g =>
      pbind (massert g) (fun _ =>
      pbind (unpack_in ses p (as_args packed)) (fun unpacked =>
      pbind (run_prog data_prefix hash_of ses (execute fuel p) p (body f unpacked)) (fun result =>
      pbind (mk_addr data_prefix hash_of ses p result) (fun b =>
      pbind (acc (EHist (loc p) (HResult a run_id b))) (fun _ =>
      pbind (mtry (pbind (if rd then acc (ESetP p (Some 1%Q)) else pret tt) (fun _ => set_result ses p a b))) (fun o =>
      pbind (acc (ESetP p (pcc ses p))) (fun _ =>
      pbind (mres o) (fun _ =>
      pbind (drop_request ses p a) (fun _ =>
      pret result))))))))))))) (fun out =>
    pbind (acc (EHist (loc p) (HOutput a run_id))) (fun _ =>
    mres out)))).
  Lemma execute_unfold fuel p f kw' : execute (S fuel) p f kw' =
    pbind (mres (sorted_kwargs kw')) (fun s => pbind (pack_in data_prefix hash_of ses p s) (fun packed =>
        pbind (result_address data_prefix hash_of ses p f (as_args packed)) (fun a =>
        pbind (acc ERand) (fun x =>
        pbind (ready data_prefix hash_of ses (Some p) p a (Some (as_args packed))) (fun rd =>
        if (rd && (p_zero (pcc ses p) || negb (below x (pcc ses p)))) then get_ready ses p a
        else run_body fuel p f kw' packed a rd))))).
  Proof. reflexivity. Qed.

  Definition body_post n f kw kw' p σ (r : option (res (arg D))) : Prop :=
    (forall x, r = Some (Ok x) -> (exists v, x = AVal v) /\ in_res σ (loc p) (call_addr f kw')) /\
    (det = true -> (r = None -> eval n f kw = None) /\
       forall x, r = Some x -> evaluates f kw x /\ (sq = true -> pending σ (loc p) (call_addr f kw))).

  Lemma no_result_of_failure σ l f kw e : Inv σ -> det = true -> ordinary_args kw -> evaluates f kw (Err e) -> ~ in_res σ l (call_addr f kw).
  Proof.
    intros HI Hd Ho He [b Hb]. destruct (proj2 (proj2 (proj2 (proj2 HI)) Hd) _ f kw b Ho Hb) as (v & _ & He').
    pose proof (evaluates_det _ _ _ _ _ _ _ _ He He'). done.
  Qed.

  Lemma run_body_spec n p f kw kw' a rd σ (Q : K (arg D)) : call_ok n p (execute n p) ->
    Inv σ -> ordargs σ p kw kw' -> known σ p f kw kw' a ->
    (forall σ' r, E σ σ' -> Inv σ' -> exec_post (S n) p f kw kw' σ' r -> Q σ' r) -> wp (run_body n p f kw' (pack (sort_keys kw')) a rd) σ Q.
  Proof.
    intros Hc HI Hoa Hk HQ. unfold run_body.
    assert (Ho : det = true -> ordinary_args kw) by (intros Hd; by apply Hoa).
    acc_step. intros σ1 R1 E1 HI1. split; [done|]. intros σ1' i _ _ ->. unfold mcont.
    acc_step. intros σ2 R2 E2 HI2. split; [done|]. intros σ3 u E3 HI3 H3. unfold mcont. cbn [post] in H3.
    assert (E03 : E σ σ3) by exact (E_trans _ _ _ E1 E3).
    apply wp_pbind, wp_mtry.
    assert (Hend : forall σ' r, E σ3 σ' -> Inv σ' -> body_post (S n) f kw kw' p σ' r ->
      tcont (mcont (fun out => pbind (acc (EHist (loc p) (HOutput a i))) (fun _ => mres out)) Q) σ' r).
    { intros σ' r E' HI' Hr. destruct r as [r|]; cbn [tcont mcont].
      - acc_step. intros σ5 R5 E5 HI5. split; [done|]. intros σ6 u' E6 HI6 H6. cbn.
        assert (E36 : E σ3 σ6) by exact (E_trans _ _ _ E' E6).
        apply HQ; [exact (E_trans _ _ _ E03 E36)|done|]. destruct Hr as [Hok Hdt]. split.
        + intros x Hx. destruct (Hok x Hx) as [Hv Hi]. split; [done|]. exact (in_res_E _ _ _ _ E6 Hi).
        + intros Hd. destruct (Hdt Hd) as [_ Hs]. split; [done|]. intros x Hx. destruct (Hs x Hx) as [He Hp]. split; [done|].
          intros Hsq e ->. pose proof (pending_E _ _ _ _ Hsq E6 (Hp Hsq)) as Hp6. split.
          * destruct Hp6 as [?|Hr6]; [done|]. exfalso. eapply no_result_of_failure; [exact HI6|done|by apply Ho|exact He|exact Hr6].
          * exists i. destruct Hk as (_ & _ & Hk). destruct (Hk Hd) as (<- & _). exact (hist_E _ _ _ _ E36 H3).
      - apply HQ; [exact (E_trans _ _ _ E03 E')|done|]. destruct Hr as [_ Hdt]. split; [done|]. intros Hd. split; [by apply Hdt|done]. }
    assert (Hk3 : known σ3 p f kw kw' a) by exact (known_E _ _ _ _ _ _ _ E03 Hk).
    assert (Hoa3 : ordargs σ3 p kw kw') by exact (ordargs_E _ _ _ _ _ E03 Hoa).
    assert (Ea : a = call_addr f kw') by apply Hk.
    assert (Ead : det = true -> a = call_addr f kw) by (intros Hd; apply Hk, Hd).
    apply wp_pbind, request_spec; [done|apply Hk3|intros Hd; by apply Hk3|by eapply known_info|]. intros σ4 r4 E4 HI4 H4.
    destruct r4 as [[[]|e]|]; cbn [mcont]; [| |done].
    2: { apply Hend; [done|done|]. split; [done|]. intros Hd. cbn in H4. congruence. }
    assert (Hp4 : det = true -> sq = true -> pending σ4 (loc p) (call_addr f kw)).
    { intros Hd Hs. rewrite <- (Ead Hd). cbn in H4. specialize (H4 Hs). unfold pending. destruct (decide (a ∈ reqs (σ4 (loc p)))); [by left|].
      right. unfold in_res in *. destruct (ress (σ4 (loc p)) !! a); [eauto|]. exfalso. apply n0, H4. by intros []. }
    assert (HpE : forall σ', E σ4 σ' -> det = true -> sq = true -> pending σ' (loc p) (call_addr f kw)).
    { intros σ' He Hd Hs. eapply pending_E; [done|exact He|auto]. }
    apply wp_pbind. apply (check_guards_spec n p _ f kw kw' _ Hc); [done|done|exact (ordargs_E _ _ _ _ _ E4 Hoa3)|].
    intros σ5 r5 E5 HI5 [Hne Hg]. assert (E35 : E σ3 σ5) by exact (E_trans _ _ _ E4 E5).
    destruct r5 as [[ok|e]|]; cbn [mcont]; [|done|].
    2: { apply Hend; [done|done|]. split; [done|]. intros Hd. split; [|done]. intros _. cbn [PureExecSpec.eval].
         by rewrite (proj1 (Hg Hd) eq_refl). }
    apply wp_pbind. destruct ok; cbn [massert wp pret pfail mcont].
    2: { apply Hend; [done|done|]. split; [done|]. intros Hd. split; [done|]. intros x [= <-]. split; [|auto].
         destruct (proj2 (Hg Hd) _ eq_refl) as [m Hm]. exists (S m). cbn [PureExecSpec.eval]. by rewrite Hm. }
    assert (Hoa5 : ordargs σ5 p kw kw') by exact (ordargs_E _ _ _ _ _ E35 Hoa3).
    apply wp_pbind, unpack_in_spec; [done|]. intros σ6 r6 E6 HI6 Hok6 H6.
    assert (E36 : E σ3 σ6) by exact (E_trans _ _ _ E35 E6). assert (E46 : E σ4 σ6) by exact (E_trans _ _ _ E5 E6).
    destruct r6 as [[m|e]|]; cbn [mcont]; [| |done].
    2: { apply Hend; [done|done|]. split; [done|]. intros Hd. destruct Hok6 as [m Hm]; [|done].
         eapply args_stored_E; [exact E35|]. destruct Hk3 as (_ & _ & Hk3). by apply (Hk3 Hd). }
    assert (Em : det = true -> m = sort_keys kw).
    { intros Hd. destruct (Hoa Hd) as (Hkw & Hsm & _). eapply unpacked_sorted; [exact HI6|done|done|exact H6]. }
    apply wp_pbind. apply (run_prog_spec n p _ (body f m) Hc HB_or); [done| |].
    { intros Hd. apply (HB_of Hd). rewrite (Em Hd). apply ordinary_args_sort. auto. }
    intros σ7 r7 E7 HI7 [Hrv Hev]. assert (E37 : E σ3 σ7) by exact (E_trans _ _ _ E36 E7). assert (E47 : E σ4 σ7) by exact (E_trans _ _ _ E46 E7).
    assert (Hev' : det = true -> forall x, r7 = Some x -> evaluates f kw x).
    { intros Hd x Hx. destruct (proj2 (Hev Hd) x Hx) as [m1 Hm1]. destruct (proj2 (Hg Hd) _ eq_refl) as [m2 Hm2].
      exists (S (max m1 m2)). cbn [PureExecSpec.eval]. rewrite (Em Hd) in Hm1.
      rewrite (accepts_mono _ _ (eval m2) (eval (max m1 m2)) (guards_of f) kw true); [|intros g gk gr Hgr; eapply eval_mono; [|exact Hgr]; lia|done].
      eapply denote_mono; [|exact Hm1]. intros g gk gr Hgr. eapply eval_mono; [|exact Hgr]. lia. }
    destruct r7 as [[x|e]|]; cbn [mcont].
    2: { apply Hend; [done|done|]. split; [done|]. intros Hd. split; [done|]. intros y [= <-]. auto. }
    2: { apply Hend; [done|done|]. split; [done|]. intros Hd. split; [|done]. intros _. cbn [PureExecSpec.eval].
         destruct (accepts (eval n) (guards_of f) kw) as [okn|] eqn:En; [|done]. destruct (proj2 (Hg Hd) _ eq_refl) as [m2 Hm2].
         assert (okn = true) as ->.
         { assert (X1 : extends (eval n) (eval (max n m2))) by (intros g gk gr Hgr; eapply eval_mono; [|exact Hgr]; lia).
           assert (X2 : extends (eval m2) (eval (max n m2))) by (intros g gk gr Hgr; eapply eval_mono; [|exact Hgr]; lia).
           pose proof (accepts_mono _ _ _ _ _ _ _ X1 En) as A1. pose proof (accepts_mono _ _ _ _ _ _ _ X2 Hm2) as A2. congruence. }
         rewrite <- (Em Hd). by apply Hev. }
    assert (Hx : exists v, x = AVal v).
    { destruct det eqn:Hd.
      - destruct (Hev' eq_refl _ eq_refl) as [m1 Hm1]. destruct (eval_ordinary _ _ _ _ HB m1 f kw _ (Ho eq_refl) Hm1 x eq_refl) as (v & -> & _). eauto.
      - apply (Hrv (HB f m) x eq_refl). }
    destruct Hx as [v ->].
    apply wp_pbind, mk_addr_spec; [done|]. intros σ8 E8 HI8 H8. cbn [mcont addr_of_arg]. assert (E48 : E σ4 σ8) by exact (E_trans _ _ _ E47 E8).
    specialize (H8 v eq_refl).
    acc_step. intros σ9' R9 E9' HI9'. split; [done|]. intros σ9 u9 E9 HI9 _. unfold mcont. assert (E49 : E σ4 σ9) by exact (E_trans _ _ _ E48 E9).
    pose proof (stored_E _ _ _ _ _ E9 H8) as H9.
    apply wp_pbind, wp_mtry. apply wp_pbind.
    assert (Hset : forall σa, E σ9 σa -> Inv σa -> wp (set_result ses p a (text_of v)) σa (tcont (mcont (fun o =>
       pbind (acc (ESetP p (pcc ses p))) (fun _ => pbind (mres o) (fun _ => pbind (drop_request ses p a) (fun _ => pret (AVal v)))))
       (tcont (mcont (fun out => pbind (acc (EHist (loc p) (HOutput a i))) (fun _ => mres out)) Q))))).
    { intros σa Ea1 HIa. apply (set_result_spec p a (text_of v) v); [done|exact (stored_E _ _ _ _ _ Ea1 H9)| |].
      { intros Hd. split; [done|]. exists f, kw. split_and!; auto. }
      intros σb rb Eb HIb Hb. assert (E4b : E σ4 σb) by exact (E_trans _ _ _ E49 (E_trans _ _ _ Ea1 Eb)).
      destruct rb as [rb|]; cbn [tcont mcont]; [|done].
      acc_step. intros σc Rc Ec HIc. split; [done|]. intros σc' uc _ _ ->. unfold mcont.
      assert (E4c : E σ4 σc) by exact (E_trans _ _ _ E4b Ec). assert (E3c : E σ3 σc) by exact (E_trans _ _ _ E4 E4c).
      apply wp_pbind. unfold mres. cbn [wp mcont]. destruct rb as [[]|e]; cbn [mcont].
      - unfold drop_request. acc_step. intros σd Rd Ed HId. split; [exact (in_res_E _ _ _ _ (E_trans _ _ _ Ec Ed) Hb)|].
        intros σe ue Ee HIe He. unfold mcont. cbn [wp pret].
        assert (E4e : E σ4 σe) by exact (E_trans _ _ _ E4c Ee). apply Hend; [exact (E_trans _ _ _ E4 E4e)|done|]. split.
        + intros y [= <-]. split; [eauto|]. rewrite <- Ea. exact (in_res_E _ _ _ _ (E_trans _ _ _ Ec Ee) Hb).
        + intros Hd. split; [done|]. intros y [= <-]. auto.
      - apply Hend; [done|done|]. split; [done|]. intros Hd. cbn in Hb. congruence. }
    destruct rd.
    - apply wp_acc. intros σa Ra Ea1 HIa. split; [done|]. intros σa' ua Ea2 HIa' ->. cbn [mcont]. by apply Hset.
    - cbn [wp pret mcont]. apply Hset; [apply E_refl|done].
  Qed.

  Lemma execute_spec n p : call_ok n p (execute n p).
  Proof.
    induction n as [|n IH]; intros f kw kw' σ Q HI Hoa HQ.
    - cbn. apply HQ; [apply E_refl|done|]. split; [done|]. intros Hd. split; [done|done].
    - rewrite execute_unfold. assert (Ho : det = true -> ordinary_args kw) by (intros Hd; by apply Hoa).
      eapply address_spec; [done|exact Hoa| |].
      { intros e Hd. apply HQ; [apply E_refl|done|]. split; [done|]. congruence. }
      intros σ1 a E1 HI1 Hk. acc_step. intros σ2 R2 E2 HI2. split; [done|]. intros σ2' x _ _ ->. unfold mcont.
      assert (E02 : E σ σ2) by exact (E_trans _ _ _ E1 E2). pose proof (known_E _ _ _ _ _ _ _ E2 Hk) as Hk2.
      apply wp_pbind, ready_spec; [done|by eapply known_info|]. intros σ3 r3 E3 HI3 H3.
      assert (E03 : E σ σ3) by exact (E_trans _ _ _ E02 E3). pose proof (known_E _ _ _ _ _ _ _ E3 Hk2) as Hk3.
      destruct r3 as [[rd|e]|]; cbn [mcont]; [| |done].
      2: { apply HQ; [done|done|]. split; [done|]. intros Hd. cbn in H3. congruence. }
      assert (HQ3 : forall σ' r, E σ3 σ' -> Inv σ' -> exec_post (S n) p f kw kw' σ' r -> Q σ' r).
      { intros σ' r E' HI' Hr. apply HQ; [exact (E_trans _ _ _ E03 E')|done|done]. }
      destruct (rd && _) eqn:Eb.
      + destruct rd; [|done]. eapply get_ready_spec; [done|exact Ho|exact Hk3|exact H3|exact HQ3].
      + eapply run_body_spec; [exact IH|done|exact (ordargs_E _ _ _ _ _ E03 Hoa)|exact Hk3|exact HQ3].
  Qed.

  (** ** Operations *)
  Lemma insert_head {X} (x : string * X) l : StronglySorted kle (x :: l) -> insert_key x.1 x.2 l = x :: l.
  Proof.
    intros H. apply StronglySorted_inv in H as [_ H]. destruct l as [|[k' x'] l]; [by destruct x|]. cbn [insert_key]. apply List.Forall_inv in H.
    unfold kle in H. cbn in H. rewrite H. by destruct x.
  Qed.
  Lemma sort_idem {X} (l : list (string * X)) : sort_keys (sort_keys l) = sort_keys l.
  Proof.
    assert (Hs : forall m : list (string * X), StronglySorted kle m -> sort_keys m = m); [|apply Hs, sort_sorted].
    intros m. induction m as [|[k x] m IH]; intros H; [done|]. change (sort_keys ((k, x) :: m)) with (insert_key k x (sort_keys m)).
    rewrite IH by (by apply StronglySorted_inv in H as [? _]). by apply (insert_head (k, x)).
  Qed.
  Lemma forallb_sort (q : string * arg D -> bool) (l : kwargs) : forallb q (sort_keys l) = forallb q l.
  Proof. apply forallb_perm, sort_perm. Qed.
  Lemma call_addr_result f kw s : sorted_kwargs kw = Ok s -> result_addr data_prefix hash_of f kw = Ok (call_addr f kw).
  Proof.
    intros Hs. unfold PureExecSpec.call_addr, PureAddr.get_address. rewrite Hs. cbn. apply sorted_kwargs_ok in Hs as Es. subst s.
    unfold result_addr. rewrite Hs, sorted_as_args. cbn. unfold call_signature. by rewrite pack_as_args, <- pack_sort, sort_idem.
  Qed.
  Lemma call_addr_sorted f kw : call_addr f (sort_keys kw) = call_addr f kw.
  Proof.
    unfold PureExecSpec.call_addr, PureAddr.get_address, sorted_kwargs. rewrite forallb_sort. destruct (forallb _ kw); [|done]. cbn. by rewrite sort_idem.
  Qed.
  Lemma call_addr_packed f kw s : sorted_kwargs kw = Ok s -> call_addr f (as_args (pack (sort_keys kw))) = call_addr f kw.
  Proof.
    intros Hs. pose proof (call_addr_result f _ _ (sorted_as_args (pack (sort_keys kw)))) as H. 
    unfold PureExecSpec.call_addr at 2. unfold PureAddr.get_address. rewrite Hs. cbn. apply sorted_kwargs_ok in Hs as ->. rewrite H. done.
  Qed.
  Lemma same_packed (l : kwargs) : plain l -> same_args data_prefix hash_of l (as_args (pack l)).
  Proof.
    induction l as [|[k x] l IH]; intros Hp; [constructor|]. destruct (Hp k x) as [v ->]; [by left|]. cbn. apply SameAddr. apply IH.
    intros k' x' Hin. apply (Hp k' x'). by right.
  Qed.
  Lemma eval_sorted n f kw : ordinary_args kw -> eval n f (sort_keys kw) = eval n f kw.
  Proof. intros [Hn _]. apply eval_perm; [by rewrite sort_perm|by rewrite sort_perm]. Qed.
  Lemma evaluates_sorted f kw r : ordinary_args kw -> evaluates f (sort_keys kw) r <-> evaluates f kw r.
  Proof. intros Ho. split; intros [n H]; exists n; [rewrite <- (eval_sorted n f kw Ho)|rewrite (eval_sorted n f kw Ho)]; done. Qed.
  Lemma exec_post_sorted n p f kw kw' kw'' σ r : (det = true -> ordinary_args kw) -> call_addr f kw' = call_addr f kw'' ->
    exec_post n p f (sort_keys kw) kw' σ r -> exec_post n p f kw kw'' σ r.
  Proof.
    intros Ho Ec [H1 H2]. split; [by rewrite <- Ec|]. intros Hd. specialize (Ho Hd). destruct (H2 Hd) as [Hn Hs]. rewrite (eval_sorted _ _ _ Ho) in Hn.
    split; [done|]. intros x Hx. destruct (Hs x Hx) as [He Hp]. split; [by apply (evaluates_sorted f kw x Ho)|]. by rewrite call_addr_sorted in Hp.
  Qed.

  Notation get_address := (PureExec.get_address data_prefix hash_of ses).
  Lemma get_address_spec p f kw kw' σ (Q : K (addr * kwargs)) : Inv σ -> ordargs σ p kw kw' ->
    (forall σ' r, E σ σ' -> Inv σ' -> match r with
       | Some (Ok ac) => ac.2 = as_args (pack (sort_keys kw')) /\ known σ' p f kw kw' ac.1 /\ call_addr f ac.2 = ac.1
       | Some (Err _) => det = false | None => False end -> Q σ' r) -> wp (get_address p f kw') σ Q.
  Proof.
    intros HI Hoa HQ. unfold PureExec.get_address.
    destruct (sorted_kwargs_cases kw') as [Es|[e Es]].
    - eapply address_spec; [done|exact Hoa|intros e Hd; apply HQ; [apply E_refl|done|done]|].
      intros σ1 a E1 HI1 Hk. cbn. apply HQ; [done|done|]. cbn. split_and!; [done|done|]. destruct Hk as (-> & _). by eapply call_addr_packed.
    - rewrite Es. cbn. apply HQ; [apply E_refl|done|]. cbn. destruct det eqn:Hd; [|done]. exfalso. destruct (Hoa Hd) as (Ho & Hs & _).
      rewrite (acceptable_sorted kw') in Es; [done|]. eapply same_args_acceptable; [done|by apply ordinary_acceptable].
  Qed.

  Definition swarm_post p f kw kw' σ (r : option (res addr)) : Prop :=
    match r with Some (Ok a) => a = call_addr f kw' /\ (det = true -> a = call_addr f kw) /\ (sq = true -> (a ∈ reqs (σ (loc p)) <-> ~ in_res σ (loc p) a))
    | Some (Err _) => det = false | None => False end.
  Lemma swarm_spec p f kw kw' σ (Q : K addr) : Inv σ -> ordargs σ p kw kw' ->
    (forall σ' r, E σ σ' -> Inv σ' -> swarm_post p f kw kw' σ' r -> Q σ' r) -> wp (swarm data_prefix hash_of ses p f kw') σ Q.
  Proof.
    intros HI Hoa HQ. unfold swarm. apply wp_pbind. apply (get_address_spec p f kw kw'); [done|done|]. intros σ1 r1 E1 HI1 H1.
    destruct r1 as [[[a args]|e]|]; cbn [mcont]; [|by apply HQ|done]. cbn in H1. destruct H1 as (-> & Hk & _). cbn [fst snd].
    apply wp_pbind, request_spec; [done|apply Hk|intros Hd; by apply Hk|eapply known_info; [exact Hk|intros Hd; by apply Hoa]|].
    intros σ2 r2 E2 HI2 H2. destruct r2 as [[[]|e]|]; cbn [mcont wp pret]; [| |done].
    - apply HQ; [exact (E_trans _ _ _ E1 E2)|done|]. cbn. split_and!; [apply Hk|intros Hd; apply Hk, Hd|exact H2].
    - apply HQ; [exact (E_trans _ _ _ E1 E2)|done|done].
  Qed.

  Definition as_call (r : option (res addr)) (x : option (res (arg D))) : Prop :=
    match r, x with Some (Ok _), Some (Ok _) | None, None => True | Some (Err e), Some (Err e') => e = e' | _, _ => False end.
  Definition run_post n p f kw kw' σ (r : option (res addr)) : Prop :=
    match r with Some (Ok a) => a = call_addr f kw' /\ in_res σ (loc p) a | _ => True end /\
    (det = true -> exists x, as_call r x /\ exec_post n p f kw kw' σ x).
  Lemma ordargs_packed σ p kw kw' : (det = true -> args_stored σ p (as_args (pack (sort_keys kw')))) -> ordargs σ p kw kw' ->
    ordargs σ p (sort_keys kw) (as_args (pack (sort_keys kw'))).
  Proof.
    intros Hst Hoa Hd. destruct (Hoa Hd) as (Ho & Hs & _). split_and!; [by apply ordinary_args_sort| |auto].
    rewrite (same_sorted _ _ Hs). apply same_packed, ordinary_plain, ordinary_args_sort, Ho.
  Qed.
  Lemma run_fn_spec n p f kw kw' σ (Q : K addr) : Inv σ -> ordargs σ p kw kw' ->
    (forall σ' r, E σ σ' -> Inv σ' -> run_post n p f kw kw' σ' r -> Q σ' r) -> wp (run_fn data_prefix hash_of body guards_of ses n p f kw') σ Q.
  Proof.
    intros HI Hoa HQ. unfold run_fn. apply wp_pbind. apply (get_address_spec p f kw kw'); [done|done|]. intros σ1 r1 E1 HI1 H1.
    destruct r1 as [[[a args]|e]|]; cbn [mcont]; [| |done].
    2: { apply HQ; [done|done|]. split; [done|]. cbn in H1. congruence. }
    cbn in H1. destruct H1 as (-> & Hk & Hca). cbn [fst snd].
    apply wp_pbind. apply (execute_spec n p f (sort_keys kw)); [done| |].
    { apply ordargs_packed; [intros Hd; by apply Hk|]. exact (ordargs_E _ _ _ _ _ E1 Hoa). }
    intros σ2 r2 E2 HI2 H2. apply (exec_post_sorted _ _ _ _ _ kw') in H2; [|intros Hd; by apply Hoa|rewrite Hca; apply Hk].
    assert (E02 : E σ σ2) by exact (E_trans _ _ _ E1 E2). destruct r2 as [[x|e]|]; cbn [mcont wp pret]; apply HQ; try done.
    - split; [|intros Hd; exists (Some (Ok x)); split; done]. destruct Hk as (-> & _). split; [done|]. destruct H2 as [H2 _]. by eapply H2.
    - split; [done|]. intros Hd. by exists (Some (Err e)).
    - split; [done|]. intros Hd. by exists None.
  Qed.

  (** lists *)
  Definition elem_info σ p f kw (ac : addr * kwargs) : Prop :=
    ac.1 = call_addr f kw /\ ac.2 = sort_keys kw /\ call_stored σ (loc p) ac.1 /\
    (det = true -> ordinary_args kw /\ ordinary_call_stored σ (loc p) ac.1).
  Lemma elem_info_E σ σ' p f kw ac : E σ σ' -> elem_info σ p f kw ac -> elem_info σ' p f kw ac.
  Proof.
    intros He (H1 & H2 & H3 & H4). split_and!; [done|done|by eapply call_stored_E|]. intros Hd. destruct (H4 Hd). split; [done|by eapply ordinary_call_stored_E].
  Qed.
  Lemma addresses_spec p f (l : list kwargs) : forall σ (Q : K (list (addr * kwargs))), Inv σ -> (det = true -> Forall ordinary_args l) ->
    (forall σ' r, E σ σ' -> Inv σ' -> match r with Some (Ok m) => Forall2 (elem_info σ' p f) l m | Some (Err _) => det = false | None => False end -> Q σ' r) ->
    wp (addresses data_prefix hash_of ses p f l) σ Q.
  Proof.
    induction l as [|kw l IH]; intros σ Q HI Ho HQ; cbn [addresses].
    - cbn. apply HQ; [apply E_refl|done|constructor].
    - apply wp_pbind. unfold mres at 1. cbn [wp mcont].
      assert (Hokw : det = true -> ordinary_args kw) by (intros Hd; specialize (Ho Hd); by apply List.Forall_inv in Ho).
      destruct (sorted_kwargs_cases kw) as [Es|[e Es]]; rewrite Es.
      2: { apply HQ; [apply E_refl|done|]. destruct det eqn:Hd; [|done]. exfalso. rewrite (acceptable_sorted kw) in Es; [done|]. by apply ordinary_acceptable, Hokw. }
      apply wp_pbind, result_address_spec; [done|]. intros σ1 r1 E1 HI1 -> H1 H1v. rewrite (call_addr_result f kw _ Es) in *. cbn [mcont].
      specialize (H1 _ eq_refl). apply wp_pbind, IH; [done|intros Hd; specialize (Ho Hd); by apply List.Forall_inv_tail in Ho|]. intros σ2 r2 E2 HI2 H2.
      destruct r2 as [[m|e]|]; cbn [mcont wp pret]; [|by apply HQ; [exact (E_trans _ _ _ E1 E2)|..]|done].
      apply HQ; [exact (E_trans _ _ _ E1 E2)|done|]. constructor; [|done]. apply (elem_info_E σ1); [done|]. split_and!; [done|done|by eexists _, _|].
      intros Hd. split; [auto|]. exists f, kw. split_and!; [auto|done|by eexists _, _|]. intros k v Hin. eapply H1v; [done|exact Hin].
  Qed.
  Lemma elem_addr_info σ p f kw ac : elem_info σ p f kw ac -> addr_info σ p ac.1 (Some ac.2).
  Proof.
    intros (H1 & H2 & H3 & H4) Hd. destruct (H4 Hd) as [Ho _]. split; [by exists f, kw|]. rewrite H2. intros k b Hin. rewrite sort_perm in Hin.
    destruct (ordinary_plain kw Ho _ _ Hin) as [v E0]. done.
  Qed.
  Lemma request_all_spec p f (m : list (addr * kwargs)) : forall σ (Q : K unit), Inv σ -> (forall ac, ac ∈ m -> exists kw, elem_info σ p f kw ac) ->
    (forall σ' r, E σ σ' -> Inv σ' -> match r with Some (Ok _) => sq = true -> forall ac, ac ∈ m -> pending σ' (loc p) ac.1
       | Some (Err _) => det = false | None => False end -> Q σ' r) -> wp (request_all data_prefix hash_of ses p m) σ Q.
  Proof.
    induction m as [|[a kw] m IH]; intros σ Q HI Hm HQ; cbn [request_all].
    - cbn. apply HQ; [apply E_refl|done|]. intros _ ac Hin. by apply elem_of_nil in Hin.
    - destruct (Hm (a, kw)) as [kw0 Hi]; [by left|].
      apply wp_pbind, request_spec; [done|apply Hi|intros Hd; by apply Hi|exact (elem_addr_info _ _ _ _ _ Hi)|]. intros σ1 r1 E1 HI1 H1.
      destruct r1 as [[[]|e]|]; cbn [mcont]; [|by apply HQ|done].
      apply IH; [done| |].
      { intros ac Hin. destruct (Hm ac) as [kw1 Hi1]; [by right|]. exists kw1. by eapply elem_info_E. }
      intros σ2 r2 E2 HI2 H2. apply HQ; [exact (E_trans _ _ _ E1 E2)|done|]. destruct r2 as [[[]|e]|]; [|done|done].
      intros Hs ac Hin. apply elem_of_cons in Hin as [->|Hin]; [|by apply H2]. cbn [fst]. eapply pending_E; [done|exact E2|].
      cbn in H1. specialize (H1 Hs). unfold pending. destruct (decide (a ∈ reqs (σ1 (loc p)))); [by left|].
      right. unfold in_res in *. destruct (ress (σ1 (loc p)) !! a); [eauto|]. exfalso. apply n, H1. by intros [].
  Qed.
  Lemma execute_all_spec n p f (m : list (addr * kwargs)) : forall σ (Q : K unit), Inv σ -> (forall ac, ac ∈ m -> exists kw, elem_info σ p f kw ac) ->
    (forall σ' r, E σ σ' -> Inv σ' -> match r with Some (Ok _) => forall ac, ac ∈ m -> in_res σ' (loc p) ac.1 | _ => True end ->
       (det = true -> forall e, r = Some (Err e) -> exists ac, ac ∈ m /\ evaluates f ac.2 (Err e)) -> Q σ' r) ->
    wp (execute_all data_prefix hash_of body guards_of ses n p f m) σ Q.
  Proof.
    induction m as [|[a kw] m IH]; intros σ Q HI Hm HQ; cbn [execute_all].
    - cbn. apply HQ; [apply E_refl|done| |done]. intros ac Hin. by apply elem_of_nil in Hin.
    - destruct (Hm (a, kw)) as [kw0 Hi]; [by left|]. destruct Hi as (Ha & Hkw & Hst & Hd0). cbn [fst snd] in *.
      apply wp_pbind. apply (execute_spec n p f kw kw); [done|apply ordargs_refl; intros Hd; rewrite Hkw; apply ordinary_args_sort, Hd0, Hd|].
      intros σ1 r1 E1 HI1 [H1 H1d]. destruct r1 as [[x|e]|]; cbn [mcont].
      2: { apply HQ; [done|done|done|]. intros Hd e' [= <-]. exists (a, kw). split; [by left|]. cbn. by apply (H1d Hd). }
      2: { by apply HQ. }
      apply IH; [done| |].
      { intros ac Hin. destruct (Hm ac) as [kw1 Hi1]; [by right|]. exists kw1. by eapply elem_info_E. }
      intros σ2 r2 E2 HI2 H2 H2d. apply HQ; [exact (E_trans _ _ _ E1 E2)|done| |].
      + destruct r2 as [[[]|e]|]; [|done|done]. intros ac Hin. apply elem_of_cons in Hin as [->|Hin]; [|by apply H2]. cbn [fst].
        destruct (H1 x eq_refl) as [_ Hr]. rewrite Hkw, call_addr_sorted, <- Ha in Hr. exact (in_res_E _ _ _ _ E2 Hr).
      + intros Hd e Hr. destruct (H2d Hd e Hr) as (ac & Hin & He). exists ac. split; [by right|done].
  Qed.
  Definition permutes (s : @shuffle D) : Prop := forall l, s l ≡ₚ l.
  Lemma swarm_list_spec s1 p f (l : list kwargs) σ (Q : K (list (addr * kwargs))) : permutes s1 -> Inv σ -> (det = true -> Forall ordinary_args l) ->
    (forall σ' r, E σ σ' -> Inv σ' -> match r with
       | Some (Ok m) => Forall2 (elem_info σ' p f) l m /\ (sq = true -> forall ac, ac ∈ m -> pending σ' (loc p) ac.1)
       | Some (Err _) => det = false | None => False end -> Q σ' r) -> wp (swarm_list data_prefix hash_of ses s1 p f l) σ Q.
  Proof.
    intros Hs1 HI Ho HQ. unfold swarm_list. apply wp_pbind, addresses_spec; [done|done|]. intros σ1 r1 E1 HI1 H1.
    destruct r1 as [[m|e]|]; cbn [mcont]; [|by apply HQ|done]. apply wp_pbind. apply (request_all_spec p f); [done| |].
    { intros ac Hin. rewrite (Hs1 m) in Hin. apply elem_of_list_lookup in Hin as [i Hi]. destruct (Forall2_lookup_r _ _ _ _ _ H1 Hi) as (kw & _ & H). eauto. }
    intros σ2 r2 E2 HI2 H2. destruct r2 as [[[]|e]|]; cbn [mcont wp pret]; [| |done].
    - apply HQ; [exact (E_trans _ _ _ E1 E2)|done|]. split.
      + eapply Forall2_impl; [exact H1|]. intros. by eapply elem_info_E.
      + intros Hs ac Hin. apply (H2 Hs). by rewrite (Hs1 m).
    - apply HQ; [exact (E_trans _ _ _ E1 E2)|done|done].
  Qed.
  Lemma run_list_spec s1 s2 n p f (l : list kwargs) σ (Q : K (list (addr * kwargs))) : permutes s1 -> permutes s2 -> Inv σ ->
    (det = true -> Forall ordinary_args l) ->
    (forall σ' r, E σ σ' -> Inv σ' -> match r with
       | Some (Ok m) => Forall2 (elem_info σ' p f) l m /\ forall ac, ac ∈ m -> in_res σ' (loc p) ac.1
       | _ => True end -> (det = true -> forall e, r = Some (Err e) -> exists kw, kw ∈ l /\ evaluates f kw (Err e)) -> Q σ' r) ->
    wp (run_list data_prefix hash_of body guards_of ses s1 s2 n p f l) σ Q.
  Proof.
    intros Hs1 Hs2 HI Ho HQ. unfold run_list. apply wp_pbind, swarm_list_spec; [done|done|done|]. intros σ1 r1 E1 HI1 H1.
    destruct r1 as [[m|e]|]; cbn [mcont]; [|apply HQ; [done|done|done|congruence]|done]. destruct H1 as [H1 _].
    apply wp_pbind. apply (execute_all_spec n p f); [done| |].
    { intros ac Hin. rewrite (Hs2 m) in Hin. apply elem_of_list_lookup in Hin as [i Hi]. destruct (Forall2_lookup_r _ _ _ _ _ H1 Hi) as (kw & _ & H). eauto. }
    intros σ2 r2 E2 HI2 H2 H2d. assert (E02 : E σ σ2) by exact (E_trans _ _ _ E1 E2). destruct r2 as [[[]|e]|]; cbn [mcont wp pret]; apply HQ; try done.
    - split.
      + eapply Forall2_impl; [exact H1|]. intros kw0 ac0 Hi0. exact (elem_info_E _ _ _ _ _ _ E2 Hi0).
      + intros ac Hin. apply H2. by rewrite (Hs2 m).
    - intros Hd e' [= <-]. destruct (H2d Hd e eq_refl) as (ac & Hin & He). rewrite (Hs2 m) in Hin. apply elem_of_list_lookup in Hin as [i Hi].
      destruct (Forall2_lookup_r _ _ _ _ _ H1 Hi) as (kw & Hkw & _ & E2' & _ & Ho2). exists kw. split; [by eapply elem_of_list_lookup_2|].
      rewrite E2' in He. apply (evaluates_sorted f kw _ (proj1 (Ho2 Hd))). done.
  Qed.

  (** workers *)
  Definition worker_post n σ0 p a σ (r : option (res unit)) : Prop :=
    (det = true -> r = None -> exists f kw, ordinary_args kw /\ a = call_addr f kw /\ eval n f kw = None) /\
    (det = true -> forall e, r = Some (Err e) -> exists f kw, ordinary_args kw /\ a = call_addr f kw /\ evaluates f kw (Err e)) /\
    (det = true -> sq = true -> r = Some (Ok tt) -> a ∈ reqs (σ0 (loc p)) -> in_res σ (loc p) a \/
       exists f kw m, ordinary_args kw /\ a = call_addr f kw /\ accepts (eval m) (guards_of f) kw = Some false).
  Lemma accepts_sorted n gs kw : ordinary_args kw -> accepts (eval n) gs (sort_keys kw) = accepts (eval n) gs kw.
  Proof.
    intros Ho. induction gs as [|g gs IH]; cbn [PureExecSpec.accepts]; [done|]. rewrite IH. destruct g as [g|b]; [by rewrite eval_sorted|by rewrite sort_idem].
  Qed.
  Lemma worker_spec n p a σ (Q : K unit) : Inv σ ->
    (forall σ' r, E σ σ' -> Inv σ' -> worker_post n σ p a σ' r -> Q σ' r) -> wp (worker data_prefix hash_of body guards_of ses n p a) σ Q.
  Proof.
    intros HI HQ. unfold worker. acc_step. intros σ1 R1 E1 HI1. split; [done|]. intros σ1' h _ _ [-> ->]. unfold mcont.
    case_bool_decide as Hreq.
    2: { cbn. apply HQ; [done|done|]. split; [done|]. split; [done|]. intros _ Hs _ Hr. unfold Rely in R1. rewrite Hs in R1. by subst σ1. }
    assert (Hcs : call_stored σ1 (loc p) a) by (by apply (proj1 (proj2 (proj2 HI1)))).
    assert (Hocs : det = true -> ordinary_call_stored σ1 (loc p) a) by (intros Hd; by apply (proj1 (proj2 (proj2 (proj2 HI1)) Hd))).
    apply wp_pbind, ready_spec; [done| |].
    { intros Hd. split; [|by apply Hocs]. destruct (Hocs Hd) as (f & kw & Ho & Ha & _). by exists f, kw. }
    intros σ2 r2 E2 HI2 H2. assert (E02 : E σ σ2) by exact (E_trans _ _ _ E1 E2).
    destruct r2 as [[[]|e]|]; cbn [mcont]; [cbn; apply HQ; [done|done|split; [done|split; [done|intros _ _ _ _; by left]]]| |apply HQ; [done|done|]; split; [done|split; [|done]]; intros Hd; cbn in H2; congruence|done].
    (* what is known of the stored call *)
    destruct Hcs as (f0 & pk & Hst). change (stored_as σ1 (loc p) a f0 pk) in Hst.
    assert (Hkw : exists kw, det = true -> ordinary_args kw /\ a = call_addr f0 kw /\ pk = pack (sort_keys kw) /\ args_stored σ1 p (as_args pk)).
    { destruct det eqn:Hd; [|by exists []]. destruct (Hocs eq_refl) as (f & kw & Ho & Ha & Hc & Hv). exists kw. intros _.
      destruct (ordinary_packed _ _ _ _ _ _ _ Ho Ha Hst) as [-> Epk]. split_and!; [done|done|by rewrite pack_sort|].
      eapply ordinary_args_stored; [exact (Hocs eq_refl)|exact Hst]. }
    destruct Hkw as [kw Hkw].
    assert (Hoa : forall σ', E σ1 σ' -> ordargs σ' p (sort_keys kw) (as_args pk)).
    { intros σ' He Hd. destruct (Hkw Hd) as (Ho & _ & -> & Has). split_and!; [by apply ordinary_args_sort| |by eapply args_stored_E].
      apply same_packed, ordinary_plain, ordinary_args_sort, Ho. }
    unfold addr_can_be_executed. apply wp_pbind. apply wp_pbind, load_function_spec; [done|]. intros σ3 r3 E3 HI3 H3 Hn3.
    assert (E13 : E σ1 σ3) by exact (E_trans _ _ _ E2 E3). rewrite (H3 f0 pk (stored_as_E _ _ _ _ _ _ E2 Hst)). cbn [mcont].
    apply wp_pbind, load_arguments_spec; [done|]. intros σ4 r4 E4 HI4 H4 Hn4. assert (E14 : E σ1 σ4) by exact (E_trans _ _ _ E13 E4).
    rewrite (H4 f0 pk (stored_as_E _ _ _ _ _ _ E13 Hst)). cbn [mcont].
    apply wp_pbind, unpack_in_spec; [done|]. intros σ5 r5 E5 HI5 Hok5 H5. assert (E15 : E σ1 σ5) by exact (E_trans _ _ _ E14 E5).
    assert (E05 : E σ σ5) by exact (E_trans _ _ _ E1 E15).
    destruct r5 as [[m|e]|]; cbn [mcont]; [| |done].
    2: { apply HQ; [done|done|]. split; [done|]. split; [|done]. intros Hd. destruct Hok5 as [m Hm]; [|done]. eapply args_stored_E; [exact E14|]. by apply Hkw. }
    assert (Em : det = true -> m = sort_keys kw).
    { intros Hd. destruct (Hkw Hd) as (Ho & _ & -> & _). eapply unpacked_sorted; [exact HI5|exact Ho|apply same_args_refl|exact H5]. }
    apply (check_guards_spec n p _ f0 m m _ (execute_spec n p)); [done|done| |].
    { apply ordargs_refl. intros Hd. rewrite (Em Hd). apply ordinary_args_sort. by apply Hkw. }
    intros σ6 r6 E6 HI6 [Hne Hgp]. assert (E16 : E σ1 σ6) by exact (E_trans _ _ _ E15 E6). assert (E06 : E σ σ6) by exact (E_trans _ _ _ E1 E16).
    destruct r6 as [[[]|e]|]; cbn [mcont]; [| |done|].
    3: { apply HQ; [done|done|]. split; [|done]. intros Hd _. destruct (Hkw Hd) as (Ho & Ha & _). exists f0, kw. split; [done|]. split; [done|].
         destruct n as [|n']; [done|]. destruct (eval (S n') f0 kw) as [v|] eqn:Ev; [|done]. exfalso.
         pose proof (proj1 (Hgp Hd) eq_refl) as Hac. rewrite (Em Hd), (accepts_sorted _ _ _ Ho) in Hac.
         cbn [PureExecSpec.eval] in Ev. destruct (accepts (eval n') (guards_of f0) kw) as [b|] eqn:Eb; [|done].
         rewrite (accepts_mono _ _ _ _ _ _ _ (eval_step_mono data_prefix hash_of body guards_of n') Eb) in Hac. done. }
    2: { cbn. apply HQ; [done|done|]. split; [done|]. split; [done|]. intros Hd _ _ _. right. destruct (Hkw Hd) as (Ho & Ha & _).
         destruct (proj2 (Hgp Hd) _ eq_refl) as [n' Hn']. rewrite (Em Hd), (accepts_sorted _ _ _ Ho) in Hn'. exists f0, kw, n'. done. }
    unfold addr_execute. apply wp_pbind. apply wp_pbind, load_function_spec; [done|]. intros σ7 r7 E7 HI7 H7 Hn7.
    assert (E17 : E σ1 σ7) by exact (E_trans _ _ _ E16 E7). rewrite (H7 f0 pk (stored_as_E _ _ _ _ _ _ E16 Hst)). cbn [mcont].
    apply wp_pbind, load_arguments_spec; [done|]. intros σ8 r8 E8 HI8 H8 Hn8. assert (E18 : E σ1 σ8) by exact (E_trans _ _ _ E17 E8).
    rewrite (H8 f0 pk (stored_as_E _ _ _ _ _ _ E17 Hst)). cbn [mcont].
    apply (execute_spec n p f0 (sort_keys kw)); [done|by apply Hoa|]. intros σ9 r9 E9 HI9 [H9r H9].
    assert (E09 : E σ σ9) by exact (E_trans _ _ _ E1 (E_trans _ _ _ E18 E9)).
    destruct r9 as [[x|e]|]; cbn [mcont wp pret]; apply HQ; try done.
    { split; [done|]. split; [done|]. intros Hd _ _ _. left. destruct (H9r x eq_refl) as [_ Hr]. destruct (Hkw Hd) as (Ho & Ha & Epk & _).
      rewrite Epk in Hr. rewrite (call_addr_packed f0 kw _ (acceptable_sorted kw (ordinary_acceptable kw Ho))) in Hr. by rewrite Ha. }
    2: { split; [|done]. intros Hd _. destruct (Hkw Hd) as (Ho & Ha & _). exists f0, kw. split; [done|]. split; [done|].
         rewrite <- (eval_sorted n f0 kw Ho). by apply (H9 Hd). }
    split; [done|]. split; [|done]. intros Hd e' [= <-]. destruct (Hkw Hd) as (Ho & Ha & _). exists f0, kw. split_and!; [done|done|]. apply (evaluates_sorted f0 kw _ Ho). by apply (H9 Hd).
  Qed.
End P.
