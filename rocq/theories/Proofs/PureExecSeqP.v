From Verif.Lib Require Import Py.
From Verif.Model Require Import PureAddr PureExec.
From Verif.Spec Require Import PureAddrSpec PureExecSpec.
From Verif.Proofs Require Import PureAddrP PureExecP PureExecSysP.
From Coq Require Import QArith.
From stdpp Require Import gmap sorting.
Local Open Scope nat_scope.

(** * Running a tree alone *)
Section Run.
  Context {D : Type}.
  Notation state := (@state D).
  Notation event := (@event D).
  Implicit Types (σ : state) (μ : local).
  Lemma run_tbind {X Y} (t : tree X) (f : X -> tree (D := D) Y) : forall σ μ,
    run (tbind t f) σ μ = let '(σ1, μ1, x) := run t σ μ in run (f x) σ1 μ1.
  Proof.
    induction t as [x|e k IH]; intros σ μ; cbn; [done|]. destruct (perform e σ μ) as [[σ1 μ1] a]. apply IH.
  Qed.
  Lemma run_pbind {X Y} (m : M X) (f : X -> @M D Y) σ μ :
    run (pbind m f) σ μ = let '(σ1, μ1, r) := run m σ μ in
      match r with Some (Ok x) => run (f x) σ1 μ1 | Some (Err e) => (σ1, μ1, Some (Err e)) | None => (σ1, μ1, None) end.
  Proof. unfold pbind. rewrite run_tbind. destruct (run m σ μ) as [[σ1 μ1] [[x|e]|]]; done. Qed.
  Lemma run_mtry {X} (m : @M D X) σ μ :
    run (mtry m) σ μ = let '(σ1, μ1, r) := run m σ μ in (σ1, μ1, match r with Some x => Some (Ok x) | None => None end).
  Proof. unfold mtry. rewrite run_tbind. destruct (run m σ μ) as [[σ1 μ1] [x|]]; done. Qed.
  Lemma run_acc (e : event) σ μ : run (acc e) σ μ = let '(σ1, μ1, a) := perform e σ μ in (σ1, μ1, Some (Ok a)).
  Proof. done. Qed.

  (** accesses a tree may make *)
  Fixpoint evs (P : event -> Prop) {X} (t : tree X) : Prop :=
    match t with Done _ => True | Step e k => P e /\ forall x, evs P (k x) end.
  Lemma evs_tbind P {X Y} (t : tree X) (f : X -> tree Y) : evs P t -> (forall x, evs P (f x)) -> evs P (tbind t f).
  Proof. intros Ht Hf. induction t as [x|e k IH]; cbn in *; [done|]. destruct Ht as [He Hk]. split; [done|]. intros x. by apply IH. Qed.
  Lemma evs_pbind P {X Y} (m : M X) (f : X -> M Y) : evs P m -> (forall x, evs P (f x)) -> evs P (pbind m f).
  Proof. intros Hm Hf. apply evs_tbind; [done|]. intros [[x|e]|]; cbn; auto. Qed.
  Lemma evs_mtry P {X} (m : M X) : evs P m -> evs P (mtry m).
  Proof. intros Hm. apply evs_tbind; [done|]. intros [x|]; done. Qed.
  Lemma evs_acc (P : event -> Prop) e : P e -> evs P (acc e).
  Proof. done. Qed.
  Lemma evs_mono (P P' : event -> Prop) {X} (t : tree X) : (forall e, P e -> P' e) -> evs P t -> evs P' t.
  Proof. intros HP. induction t as [x|e k IH]; cbn; [done|]. intros [He Hk]. split; [auto|]. intros x. by apply IH. Qed.
  (** a relation on (state, local) kept by the accesses is kept by the run *)
  Lemma evs_run (P : event -> Prop) (R : state -> local -> state -> local -> Prop) {X} (t : tree X) :
    (forall σ μ, R σ μ σ μ) -> (forall σ μ σ1 μ1 σ2 μ2, R σ μ σ1 μ1 -> R σ1 μ1 σ2 μ2 -> R σ μ σ2 μ2) ->
    (forall e σ μ σ1 μ1 a, P e -> perform e σ μ = (σ1, μ1, a) -> R σ μ σ1 μ1) ->
    evs P t -> forall σ μ σ' μ' x, run t σ μ = (σ', μ', x) -> R σ μ σ' μ'.
  Proof.
    intros Hr Ht Hp. induction t as [x0|e k IH]; cbn; intros He σ μ σ' μ' x H.
    - by injection H as <- <- _.
    - destruct He as [He Hk]. destruct (perform e σ μ) as [[σ1 μ1] a] eqn:Ep. eapply Ht; [by eapply Hp|]. by eapply IH.
  Qed.
End Run.

Section Seq.
  Context {D : Type} (data_prefix : D -> string) (hash_of : value D -> string).
  Notation kwargs := (list (string * arg D)).
  Notation text_of := (text_of data_prefix hash_of).
  Notation pack := (pack data_prefix hash_of).
  Notation state := (@state D).
  Notation event := (@event D).
  Notation call_addr := (call_addr data_prefix hash_of).
  Implicit Types (σ : state) (μ : local) (kw : kwargs) (f : fn_state).

  (** ** which accesses the parts of a call make *)
  Definition val_ev (e : event) : Prop := match e with EHasVal _ _ | EGetVal _ _ | EWriteVal _ _ _ => True | _ => False end.
  (** no access to requests other than that of a at l *)
  Definition req_ev (l : nat) (a : addr) (e : event) : Prop :=
    match e with EWriteReq l' a' | EDelReq l' a' => l' = l /\ a' = a | _ => True end.
  Definition setp_free (e : event) : Prop := match e with ESetP _ _ => False | _ => True end.
  (** neither requests nor probabilities nor history are touched *)
  Definition quiet_ev (e : event) : Prop := match e with EWriteReq _ _ | EDelReq _ _ | ESetP _ _ | EHist _ _ => False | _ => True end.

  Section Ses.
  Context (ses : session).
  Notation loc := (loc ses).
  Ltac ev := repeat (match goal with
    | |- forall _, _ => intro
    | |- evs _ (pbind _ _) => apply evs_pbind
    | |- evs _ (mtry _) => apply evs_mtry
    | |- evs _ (acc _) => first [exact (conj I (fun _ => I)) | apply evs_acc; done]
    | |- evs _ (mres _) => exact I
    | |- evs _ (pret _) => exact I
    | |- evs _ (pfail _) => exact I
    | |- _ => done end).
  Lemma put_evs p b v : evs val_ev (put (D := D) ses p b v).
  Proof. unfold put. ev. destruct x; ev. Qed.
  Lemma mk_addr_evs p x : evs val_ev (mk_addr data_prefix hash_of ses p x).
  Proof. destruct x; cbn [mk_addr]; ev. apply put_evs. Qed.
  Lemma find_other_evs p b qs : evs val_ev (find_other (D := D) ses p b qs).
  Proof. induction qs as [|q qs IH]; cbn [find_other]; ev. destruct x; [|done]. ev. apply put_evs. Qed.
  Lemma resolve_evs p b : evs val_ev (resolve (D := D) ses p b).
  Proof. unfold resolve. ev. destruct x; [done|]. apply find_other_evs. Qed.
  Lemma pack_in_evs p l : evs val_ev (pack_in data_prefix hash_of ses p l).
  Proof. induction l as [|[k x] l IH]; cbn [pack_in]; ev; apply mk_addr_evs. Qed.
  Lemma unpack_in_evs p l : evs val_ev (unpack_in (D := D) ses p l).
  Proof. induction l as [|[k x] l IH]; cbn [unpack_in]; [done|]. destruct x; ev; apply resolve_evs. Qed.
  Lemma result_address_evs p f l : evs val_ev (result_address data_prefix hash_of ses p f l).
  Proof. unfold result_address. ev; first [apply mk_addr_evs|apply pack_in_evs]. Qed.
  Lemma load_function_evs p a : evs val_ev (load_function (D := D) ses p a).
  Proof. unfold load_function. ev; [apply resolve_evs|]. destruct x; try done. ev; [apply resolve_evs|]. destruct x; done. Qed.
  Lemma load_arguments_evs p a : evs val_ev (load_arguments (D := D) ses p a).
  Proof. unfold load_arguments. ev; [apply resolve_evs|]. destruct x; try done. ev; [apply resolve_evs|]. destruct x; done. Qed.
  Lemma sync_evs p a c : evs val_ev (sync (D := D) ses p a c).
  Proof. destruct c; cbn [sync]; [apply unpack_in_evs|]. ev; [apply load_function_evs|apply load_arguments_evs|apply unpack_in_evs]. Qed.
  Lemma val_quiet {X} (t : tree (D := D) X) : evs val_ev t -> evs quiet_ev t.
  Proof. apply evs_mono. by intros []. Qed.
  Lemma set_result_evs p a b : evs quiet_ev (set_result (D := D) ses p a b).
  Proof. unfold set_result. ev. destruct x; [|done]. ev. destruct x as [q|]; [|done]. destruct (Qle_bool q 0); [done|]. ev.
    destruct (Qle_bool q x); [done|]. ev. unfold massert. destruct (bool_decide _); done. Qed.
  Lemma ready_elsewhere_evs p a c qs : evs quiet_ev (ready_elsewhere data_prefix hash_of ses p a c qs).
  Proof.
    induction qs as [|q qs IH]; cbn [ready_elsewhere]; ev. destruct x; [|done]. ev. destruct x; [|done]. ev. destruct x; [|done]. ev.
    - apply val_quiet, mk_addr_evs.
    - apply set_result_evs.
    - apply val_quiet, sync_evs.
  Qed.
  Lemma ready_evs cur p a c : evs quiet_ev (ready data_prefix hash_of ses cur p a c).
  Proof. unfold ready. ev. destruct x; [done|]. apply ready_elsewhere_evs. Qed.
  Lemma quiet_req {X} l a (t : tree (D := D) X) : evs quiet_ev t -> evs (req_ev l a) t.
  Proof. apply evs_mono. by intros []. Qed.
  Lemma request_evs p a c : evs (req_ev (loc p) a) (request data_prefix hash_of ses p a c).
  Proof.
    unfold request. ev; [apply quiet_req, ready_evs|]. destruct x; [unfold drop_request; ev|]. ev. destruct x; ev.
  Qed.
  End Ses.

  (** ** what such runs keep *)
  Definition same_but_vals σ σ' : Prop := forall l, ress (σ' l) = ress (σ l) /\ reqs (σ' l) = reqs (σ l) /\ hist (σ' l) = hist (σ l).
  Lemma val_run {X} (t : tree (D := D) X) σ μ σ' μ' x : evs val_ev t -> run t σ μ = (σ', μ', x) -> same_but_vals σ σ' /\ μ' = μ.
  Proof.
    intros He Hr. eapply (evs_run val_ev (fun σ μ σ' μ' => same_but_vals σ σ' /\ μ' = μ)); [| | |exact He|exact Hr].
    - intros. split; [|done]. intros l. done.
    - intros s1 m1 s2 m2 s3 m3 [A ->] [B ->]. split; [|done]. intros l. destruct (A l) as (?&?&?), (B l) as (?&?&?). split_and!; congruence.
    - intros e s m s1 m1 a Hv Hp. destruct e; cbn in Hv; try done; cbn in Hp; injection Hp as <- <- _; split; try done.
      intros l0. unfold upd. destruct (decide (l0 = l)) as [->|]; done.
  Qed.
  Lemma req_run {X} l a (t : tree (D := D) X) σ μ σ' μ' x : evs (req_ev l a) t -> run t σ μ = (σ', μ', x) ->
    forall l' a', (l', a') <> (l, a) -> a' ∈ reqs (σ' l') <-> a' ∈ reqs (σ l').
  Proof.
    intros He Hr. eapply (evs_run (req_ev l a) (fun σ μ σ' μ' => forall l' a', (l', a') <> (l, a) -> a' ∈ reqs (σ' l') <-> a' ∈ reqs (σ l'))); [| | |exact He|exact Hr].
    - done.
    - intros s1 m1 s2 m2 s3 m3 A B l' a' Hne. rewrite (B l' a' Hne). by apply A.
    - intros e s m s1 m1 y Hv Hp l' a' Hne. destruct e; cbn in Hv, Hp; injection Hp as <- _ _; try done; unfold upd;
        (destruct (decide (l' = l0)) as [->|]; [|done]); try done; cbn.
      + destruct Hv as [-> ->]. set_solver.
      + destruct Hv as [-> ->]. set_solver.
  Qed.
  Lemma quiet_run {X} (t : tree (D := D) X) σ μ σ' μ' x : evs quiet_ev t -> run t σ μ = (σ', μ', x) ->
    (forall l, reqs (σ' l) = reqs (σ l) /\ hist (σ' l) = hist (σ l)) /\ lp μ' = lp μ.
  Proof.
    intros He Hr. eapply (evs_run quiet_ev (fun σ μ σ' μ' => (forall l, reqs (σ' l) = reqs (σ l) /\ hist (σ' l) = hist (σ l)) /\ lp μ' = lp μ)); [| | |exact He|exact Hr].
    - done.
    - intros s1 m1 s2 m2 s3 m3 [A A'] [B B']. split; [|congruence]. intros l. destruct (A l), (B l). split; congruence.
    - intros e s m s1 m1 y Hv Hp. destruct e; cbn in Hv, Hp; try done; injection Hp as <- <- _; (split; [|done]); try done;
        intros l0; unfold upd; (destruct (decide (l0 = l)) as [->|]; done).
  Qed.

  (** ** Calls *)
  Hypothesis CF : collision_free data_prefix hash_of.
  Section Calls.
  Context (body : fn_state -> kwargs -> prog (D := D)) (guards_of : fn_state -> list (guard_fn (D := D))).
  Notation Inv det := (Inv data_prefix hash_of body guards_of det).
  Notation wp det sq := (wp data_prefix hash_of body guards_of det sq).
  Lemma Inv_sound σ : Inv false σ <-> stores_sound data_prefix hash_of σ.
  Proof. unfold stores_sound. split; [intros (A & B & C & _)|intros (A & B & C)]; split_and!; done. Qed.
  Lemma Inv_ordinary σ : Inv true σ <-> stores_ordinary data_prefix hash_of body guards_of σ.
  Proof.
    unfold stores_ordinary, stores_sound. split; [intros (A & B & C & E0); destruct (E0 eq_refl)|intros ((A & B & C) & E0 & E1)]; split_and!; try done.
  Qed.

  Context (ses : session).
  Notation loc := (loc ses).
  Notation execute := (execute data_prefix hash_of body guards_of ses).
  Lemma wp_here {X} det (t : @M D X) (Q : state -> option (res X) -> Prop) σ μ σ' μ' r : Inv det σ -> run t σ μ = (σ', μ', r) ->
    wp det true t σ Q -> Q σ' r /\ Inv det σ' /\ grew σ σ' /\ requests_kept σ σ' /\ results_kept σ σ'.
  Proof.
    intros HI Hr Hw. destruct (wp_run data_prefix hash_of body guards_of CF det true t σ μ Q σ' μ' r Hw HI Hr) as (A & B & C & E0 & E1).
    split_and!; [done|done|done|done|auto].
  Qed.

  Lemma run_address p f kw σ μ s : Inv false σ -> sorted_kwargs kw = Ok s ->
    exists σ1, Inv false σ1 /\ grew σ σ1 /\ same_but_vals σ σ1 /\ call_stored data_prefix hash_of σ1 (loc p) (call_addr f kw) /\
      forall X (g : list (string * addr) -> addr -> @M D X),
        run (pbind (mres (sorted_kwargs kw)) (fun s => pbind (pack_in data_prefix hash_of ses p s) (fun packed =>
          pbind (result_address data_prefix hash_of ses p f (as_args packed)) (fun a => g packed a)))) σ μ
        = run (g (pack (sort_keys kw)) (call_addr f kw)) σ1 μ.
  Proof.
    intros HI Hs. pose proof (sorted_kwargs_ok _ _ Hs) as Es. subst s.
    destruct (run (pack_in data_prefix hash_of ses p (sort_keys kw)) σ μ) as [[σ1 μ1] r1] eqn:E1.
    destruct (val_run _ _ _ _ _ _ (pack_in_evs ses p (sort_keys kw)) E1) as [S1 ->].
    destruct (wp_here false _ (fun _ r => r = Some (Ok (pack (sort_keys kw)))) _ _ _ _ _ HI E1) as (-> & HI1 & G1 & _).
    { apply pack_in_spec; [done|done|]. intros; done. }
    destruct (run (result_address data_prefix hash_of ses p f (as_args (pack (sort_keys kw)))) σ1 μ) as [[σ2 μ2] r2] eqn:E2.
    destruct (val_run _ _ _ _ _ _ (result_address_evs ses p f _) E2) as [S2 ->].
    destruct (wp_here false _ (fun σ' r => r = Some (result_addr data_prefix hash_of f (as_args (pack (sort_keys kw)))) /\
       forall a, result_addr data_prefix hash_of f (as_args (pack (sort_keys kw))) = Ok a -> call_stored data_prefix hash_of σ' (loc p) a) _ _ _ _ _ HI1 E2) as ((-> & Hst) & HI2 & G2 & _).
    { apply result_address_spec; [done|done|]. intros σ' r _ _ -> Ha _. split; [done|]. intros a Ea. eexists _, _. exact (Ha a Ea). }
    assert (Ea : result_addr data_prefix hash_of f (as_args (pack (sort_keys kw))) = Ok (call_addr f kw)).
    { rewrite <- (call_addr_packed data_prefix hash_of f kw _ Hs). eapply call_addr_result. apply sorted_as_args. }
    exists σ2. split_and!; [done|by eapply grew_trans| |by apply Hst|].
    - intros l. destruct (S1 l) as (?&?&?), (S2 l) as (?&?&?). split_and!; congruence.
    - intros X g. rewrite run_pbind, Hs. cbn [run mres]. rewrite run_pbind, E1. rewrite run_pbind, E2. rewrite Ea. done.
  Qed.

  Lemma ready_stored cur p a c σ μ : is_Some (ress (σ (loc p)) !! a) ->
    run (ready data_prefix hash_of ses cur p a c) σ μ = (σ, μ, Some (Ok true)).
  Proof. intros H. unfold ready. rewrite run_pbind, run_acc. cbn. by rewrite bool_decide_true. Qed.
  Lemma get_ready_run p a b v σ μ : ress (σ (loc p)) !! a = Some b -> vals (σ (loc p)) !! b = Some v ->
    run (get_ready ses p a) σ μ = (σ, μ, Some (Ok (AVal v))).
  Proof. intros H1 H2. unfold get_ready. rewrite run_pbind, run_acc. cbn. rewrite H1. cbn. rewrite H2. done. Qed.

  (** a call whose result is stored, when no re-execution is chosen *)
  Definition draw (μ : local) : Q := rnd μ (nrnd μ).
  Lemma stored_call n p f kw s b v σ μ : Inv false σ -> sorted_kwargs kw = Ok s ->
    ress (σ (loc p)) !! call_addr f kw = Some b -> vals (σ (loc p)) !! b = Some v ->
    p_zero (pcc ses p) = true \/ below (draw μ) (pcc ses p) = false ->
    exists σ' μ', run (execute (S n) p f kw) σ μ = (σ', μ', Some (Ok (AVal v))) /\ same_but_vals σ σ' /\ lp μ' = lp μ /\
      (forall body' guards' n', run (PureExec.execute data_prefix hash_of body' guards' ses (S n') p f kw) σ μ = (σ', μ', Some (Ok (AVal v)))).
  Proof.
    intros HI Hs Hb Hv Hz. destruct (run_address p f kw σ μ s HI Hs) as (σ1 & HI1 & G1 & S1 & _ & Hrun).
    set (μ1 := Local (lp μ) (rnd μ) (S (nrnd μ)) (rid μ) (nrid μ)).
    assert (Hall : forall body' guards' n', run (PureExec.execute data_prefix hash_of body' guards' ses (S n') p f kw) σ μ = (σ1, μ1, Some (Ok (AVal v)))).
    { intros body' guards' n'. rewrite execute_unfold, Hrun, run_pbind, run_acc. cbn [perform].
      destruct (S1 (loc p)) as (Er & _ & _).
      rewrite run_pbind, ready_stored by (rewrite Er, Hb; eauto).
      assert (true && (p_zero (pcc ses p) || negb (below (rnd μ (nrnd μ)) (pcc ses p))) = true) as ->.
      { unfold draw in Hz. destruct Hz as [->| ->]; [done|]. by rewrite orb_true_r. }
      apply (get_ready_run _ _ b v); [by rewrite Er|]. by apply G1. }
    exists σ1, μ1. split_and!; [apply Hall|done|done|exact Hall].
  Qed.
  
  (** ** Histories *)
  Lemma wp_run_n {X} det sq (t : tree X) : forall m σ μ (Q : state -> X -> Prop) σ' μ' t', wp det sq t σ Q -> Inv det σ -> run_n m t σ μ = (σ', μ', t') ->
    Inv det σ' /\ grew σ σ' /\ requests_kept σ σ' /\ (sq = true -> results_kept σ σ').
  Proof.
    induction t as [x0|e k IH]; intros m σ μ Q σ' μ' t' Hw HI Hr.
    - assert (σ' = σ) as -> by (destruct m; cbn in Hr; by injection Hr as <- _ _). split_and!; [done|apply grew_refl|intros ???; by left|by intros _ ???].
    - destruct m as [|m]; cbn in Hr.
      + injection Hr as <- _ _. split_and!; [done|apply grew_refl|intros ???; by left|by intros _ ???].
      + destruct (perform e σ μ) as [[σ1 μ1] ax] eqn:Ep. destruct (Hw σ (Rely_refl sq σ) HI) as [Hp Hk].
        destruct (perform_ok _ _ _ _ CF _ _ _ _ _ _ _ _ HI Hp Ep) as (HG & HI1 & Hpost).
        destruct (IH ax m σ1 μ1 Q σ' μ' t' (Hk σ1 ax HG HI1 Hpost) HI1 Hr) as (HI' & Hg & Hq & Hs).
        split_and!; [done|..].
        * eapply grew_trans; [apply HG|done].
        * intros l a Ha. destruct HG as (HG1 & HG2 & _). destruct (HG2 l a Ha) as [H|H]; [by apply Hq|]. right. by apply Hg.
        * intros Hsq l a b Hb. apply (Hs Hsq). by apply (proj2 (proj2 HG) Hsq).
  Qed.
  Definition functions_ok (det : bool) : Prop :=
    if det then ordinary_functions data_prefix hash_of body guards_of else forall f kw, returns_values (body f kw).
  Lemma history_ok (det : bool) (ok : op (D := D) -> Prop) σ σ' : functions_ok det -> (det = true -> forall o, ok o -> op_ordinary o) -> Inv det σ ->
    history data_prefix hash_of body guards_of ok σ σ' -> Inv det σ' /\ grew σ σ' /\ requests_kept σ σ' /\ results_kept σ σ'.
  Proof.
    intros HB Hok HI H. induction H as [σ|σ σ1 σ2 j μ m μ' t H IH Hsh Ho Hr].
    - split_and!; [done|apply grew_refl|intros ???; by left|by intros ???].
    - destruct (IH HI) as (HI1 & G1 & Q1 & K1).
      destruct (wp_run_n det true _ m σ1 μ _ σ2 μ' t (op_spec data_prefix hash_of body guards_of CF det true HB j σ1 HI1 Hsh (fun Hd => Hok Hd _ Ho)) HI1 Hr)
        as (HI2 & G2 & Q2 & K2). specialize (K2 eq_refl). split_and!; [done|by eapply grew_trans| |intros ???; auto].
      intros l a Ha. destruct (Q1 l a Ha) as [H0|H0]; [by apply Q2|]. right. by apply G2.
  Qed.

  (** ** Facts about every run alone: stored results stay, probabilities are restored *)
  Definition seq_ok {X} (t : tree (D := D) X) : Prop := forall σ μ σ' μ' x, run t σ μ = (σ', μ', x) ->
    results_kept σ σ' /\ rnd μ' = rnd μ /\ ((forall q, lp μ q = pcc ses q) -> forall q, lp μ' q = pcc ses q) /\
    forall l, hist (σ l) `prefix_of` hist (σ' l).
  Lemma seq_tbind {X Y} (t : tree X) (g : X -> tree Y) : seq_ok t -> (forall x, seq_ok (g x)) -> seq_ok (tbind t g).
  Proof.
    intros Ht Hg σ μ σ' μ' x H. rewrite run_tbind in H. destruct (run t σ μ) as [[σ1 μ1] y] eqn:E1.
    destruct (Ht _ _ _ _ _ E1) as (A1 & A2 & A3 & A4), (Hg y _ _ _ _ _ H) as (B1 & B2 & B3 & B4). split_and!.
    - intros ???. auto.
    - congruence.
    - auto.
    - intros l. etrans; [apply A4|apply B4].
  Qed.
  Lemma seq_done {X} (x : X) : seq_ok (Done x).
  Proof. intros σ μ σ' μ' y H. cbn in H. injection H as <- <- _. split_and!; try done. by intros ???. Qed.
  Lemma seq_pbind {X Y} (m : M X) (g : X -> M Y) : seq_ok m -> (forall x, seq_ok (g x)) -> seq_ok (pbind m g).
  Proof. intros Hm Hg. apply seq_tbind; [done|]. intros [[x|e]|]; [apply Hg|apply seq_done|apply seq_done]. Qed.
  Lemma seq_mtry {X} (m : M X) : seq_ok m -> seq_ok (mtry m).
  Proof. intros Hm. apply seq_tbind; [done|]. intros [x|]; apply seq_done. Qed.
  Lemma seq_evs {X} (t : tree X) : evs (fun e => match e with EWriteRes _ _ _ | ESetP _ _ => False | _ => True end) t -> seq_ok t.
  Proof.
    intros He σ μ σ' μ' x Hr.
    enough (Hk : results_kept σ σ' /\ rnd μ' = rnd μ /\ lp μ' = lp μ /\ forall l, hist (σ l) `prefix_of` hist (σ' l)).
    { destruct Hk as (A & B & C & E0). split_and!; [done|done| |done]. by rewrite C. }
    eapply (evs_run _ (fun σ μ σ' μ' => results_kept σ σ' /\ rnd μ' = rnd μ /\ lp μ' = lp μ /\ forall l, hist (σ l) `prefix_of` hist (σ' l))); [| | |exact He|exact Hr].
    - intros. split_and!; try done. by intros ???.
    - intros s1 m1 s2 m2 s3 m3 (A & A' & A'' & A3) (B & B' & B'' & B3). split_and!; [intros ???; auto|congruence|congruence|]. intros l. etrans; [apply A3|apply B3].
    - intros e s m s1 m1 y Hv Hp. destruct e; cbn in Hv, Hp; try done; injection Hp as <- <- _; split_and!; try done;
        first [intros l' a' b' H; unfold upd; (destruct (decide (l' = l)) as [->|]; done)
              |intros l'; unfold upd; (destruct (decide (l' = l)) as [->|]; try done; cbn; by apply prefix_app_r)|by intros ???].
  Qed.
  Lemma seq_acc e : match e with EWriteRes _ _ _ | ESetP _ _ => False | _ => True end -> seq_ok (acc e).
  Proof. intros H. apply seq_evs, evs_acc, H. Qed.
  Lemma seq_val {X} (t : tree X) : evs val_ev t -> seq_ok t.
  Proof. intros H. apply seq_evs. eapply evs_mono; [|exact H]. by intros []. Qed.

  Lemma set_result_run p a b σ μ σ' μ' r : run (set_result ses p a b) σ μ = (σ', μ', r) ->
    results_kept σ σ' /\ rnd μ' = rnd μ /\ lp μ' = lp μ /\ (forall l, hist (σ' l) = hist (σ l)) /\
    (forall b0, ress (σ (loc p)) !! a = Some b0 -> lp μ p = Some 1%Q -> (forall n, rnd μ n < 1)%Q -> r = Some (Ok tt) -> b = b0).
  Proof.
    intros Hr. split; [|pose proof (quiet_run _ _ _ _ _ _ (set_result_evs ses p a b) Hr) as [Q1 Q2]; split; [|split; [done|split; [intros l; apply Q1|]]]].
    - unfold set_result in Hr. rewrite run_pbind, run_acc in Hr. cbn [perform] in Hr. case_bool_decide as Hin.
      + assert (Hs : seq_ok (pbind (acc (EGetP p)) (fun pc => match pc with None => pret tt | Some q => if Qle_bool q 0 then pret tt else
          pbind (acc ERand) (fun x => if Qle_bool q x then pret tt else pbind (acc (EGetRes (loc p) a)) (fun old => massert (bool_decide (old = Some b)))) end))).
        { apply seq_evs. cbn. split; [done|]. intros [q|]; [|done]. destruct (Qle_bool q 0); [done|]. cbn. split; [done|]. intros x. destruct (Qle_bool q x); [done|].
          cbn. split; [done|]. intros old. unfold massert. destruct (bool_decide _); done. }
        by destruct (Hs _ _ _ _ _ Hr) as (? & _).
      + cbn in Hr. injection Hr as <- _ _. intros l' a' b' H. unfold upd. destruct (decide (l' = loc p)) as [->|]; [|done]. cbn.
        destruct (decide (a' = a)) as [->|]; [|by rewrite lookup_insert_ne]. exfalso. apply Hin. eauto.
    - unfold set_result in Hr. rewrite run_pbind, run_acc in Hr. cbn [perform] in Hr. destruct (bool_decide _); [|cbn in Hr; by injection Hr as _ <- _].
      rewrite run_pbind, run_acc in Hr. cbn [perform] in Hr. destruct (lp μ p) as [q|]; [|cbn in Hr; by injection Hr as _ <- _].
      destruct (Qle_bool q 0); [cbn in Hr; by injection Hr as _ <- _|]. rewrite run_pbind, run_acc in Hr. cbn [perform] in Hr.
      destruct (Qle_bool q (rnd μ (nrnd μ))); [cbn in Hr; by injection Hr as _ <- _|]. rewrite run_pbind, run_acc in Hr. cbn [perform] in Hr.
      unfold massert in Hr. destruct (bool_decide _); cbn in Hr; by injection Hr as _ <- _.
    - intros b0 Hb Hp Hlt ->. unfold set_result in Hr. rewrite run_pbind, run_acc in Hr. cbn [perform] in Hr. rewrite bool_decide_true in Hr by (rewrite Hb; eauto).
      rewrite run_pbind, run_acc in Hr. cbn [perform] in Hr. rewrite Hp in Hr.
      assert (Qle_bool 1 0 = false) as E0 by done. rewrite E0 in Hr. rewrite run_pbind, run_acc in Hr. cbn [perform] in Hr.
      assert (Qle_bool 1 (rnd μ (nrnd μ)) = false) as E1.
      { destruct (Qle_bool 1 (rnd μ (nrnd μ))) eqn:Eq; [|done]. apply Qle_bool_iff in Eq. exfalso. exact (Qlt_not_le _ _ (Hlt _) Eq). }
      rewrite E1 in Hr. rewrite run_pbind, run_acc in Hr. cbn [perform] in Hr. rewrite Hb in Hr. unfold massert in Hr.
      case_bool_decide as Hbb; cbn in Hr; [by injection Hbb as ->|done].
  Qed.
  Lemma seq_set_result p a b : seq_ok (set_result ses p a b).
  Proof. intros σ μ σ' μ' x Hr. destruct (set_result_run _ _ _ _ _ _ _ _ Hr) as (A & B & C & E0 & _). split_and!; [done|done|by rewrite C|]. intros l. by rewrite E0. Qed.
  Ltac sq := repeat (match goal with
    | |- forall _, _ => intro
    | |- seq_ok (pbind _ _) => apply seq_pbind
    | |- seq_ok (mtry _) => apply seq_mtry
    | |- seq_ok (acc ?e) => exact (seq_acc e I)
    | |- seq_ok (mres _) => apply seq_done
    | |- seq_ok (pret _) => apply seq_done
    | |- seq_ok (pfail _) => apply seq_done
    | |- seq_ok (set_result _ _ _ _) => apply seq_set_result
    | |- seq_ok (mk_addr _ _ _ _ _) => apply seq_val, mk_addr_evs
    | |- seq_ok (sync _ _ _ _) => apply seq_val, sync_evs
    | |- seq_ok (pack_in _ _ _ _ _) => apply seq_val, pack_in_evs
    | |- seq_ok (unpack_in _ _ _) => apply seq_val, unpack_in_evs
    | |- seq_ok (result_address _ _ _ _ _ _) => apply seq_val, result_address_evs
    | |- seq_ok (if ?b then _ else _) => destruct b
    | |- seq_ok (match ?b with Some _ => _ | None => _ end) => destruct b end).
  Lemma seq_ready cur p a c : seq_ok (ready data_prefix hash_of ses cur p a c).
  Proof. unfold ready. sq. induction (others ses cur) as [|q qs IH]; cbn [ready_elsewhere]; sq. done. Qed.
  Lemma seq_request p a c : seq_ok (request data_prefix hash_of ses p a c).
  Proof. unfold request, drop_request. sq. apply seq_ready. Qed.
  Lemma seq_swarm_with p f kw : seq_ok (swarm_with data_prefix hash_of ses p f kw).
  Proof. unfold swarm_with. sq. apply seq_request. Qed.
  Lemma seq_run_prog c p (b : prog (D := D)) : (forall f kw, seq_ok (c f kw)) -> seq_ok (run_prog data_prefix hash_of ses c p b).
  Proof. intros Hc. induction b as [x|e|f kw k IH|f kw k IH|k IH]; cbn [run_prog]; sq; auto using seq_swarm_with. Qed.
  Lemma seq_check_guards c p gs kw : (forall f kw, seq_ok (c f kw)) -> seq_ok (check_guards data_prefix hash_of ses c p gs kw).
  Proof.
    intros Hc. induction gs as [|g gs IH]; cbn [check_guards]; [sq|]. apply seq_pbind.
    - apply seq_mtry. destruct g; [apply Hc|by apply seq_run_prog].
    - intros [x|e]; [done|sq].
  Qed.
  Lemma seq_get_ready p a : seq_ok (get_ready (D := D) ses p a).
  Proof. unfold get_ready. sq. Qed.
  Lemma run_setp {X} p (rd : bool) (k : M X) σ μ : exists μ1,
    run (pbind (if rd then acc (ESetP p (Some 1%Q)) else pret tt) (fun _ => k)) σ μ = run k σ μ1 /\ rnd μ1 = rnd μ /\
    (forall q, q <> p -> lp μ1 q = lp μ q) /\ (rd = true -> lp μ1 p = Some 1%Q).
  Proof.
    destruct rd.
    - eexists. split; [rewrite run_pbind; cbn [run acc perform]; reflexivity|]. cbn. split_and!; [done| |].
      + intros q Hq. by rewrite decide_False.
      + intros _. by rewrite decide_True.
    - exists μ. split_and!; try done.
  Qed.
  Lemma seq_store {X} p a b (rd : bool) (k : res unit -> M X) : (forall o, seq_ok (k o)) ->
    seq_ok (pbind (mtry (pbind (if rd then acc (ESetP p (Some 1%Q)) else pret tt) (fun _ => set_result ses p a b))) (fun o => pbind (acc (ESetP p (pcc ses p))) (fun _ => k o))).
  Proof.
    intros Hk σ μ σ' μ' x Hr. rewrite run_pbind, run_mtry in Hr.
    destruct (run_setp p rd (set_result ses p a b) σ μ) as (μ1 & E1 & R1 & L1 & _). rewrite E1 in Hr.
    destruct (run (set_result ses p a b) σ μ1) as [[σ2 μ2] [r2|]] eqn:E2.
    2: { exfalso. clear -E2. unfold set_result in E2. rewrite run_pbind, run_acc in E2. cbn [perform] in E2. destruct (bool_decide _); [|done].
         rewrite run_pbind, run_acc in E2. cbn [perform] in E2. destruct (lp μ1 p) as [q|]; [|done].
         destruct (Qle_bool q 0); [done|]. rewrite run_pbind, run_acc in E2. cbn [perform] in E2.
         destruct (Qle_bool q (rnd μ1 (nrnd μ1))); [done|]. rewrite run_pbind, run_acc in E2. cbn [perform] in E2.
         unfold massert in E2. destruct (bool_decide _); done. }
    destruct (set_result_run _ _ _ _ _ _ _ _ E2) as (K2 & R2 & L2 & H2 & _).
    cbv beta iota zeta in Hr. rewrite run_pbind, run_acc in Hr. cbn [perform] in Hr. destruct (Hk r2 _ _ _ _ _ Hr) as (K3 & R3 & L3 & H3). cbn in R3. split_and!.
    - intros ???. auto.
    - congruence.
    - intros Hlp. apply L3. intros q. cbn. destruct (decide (q = p)) as [->|Hq]; [done|]. by rewrite L2, L1.
    - intros l. rewrite <- H2. apply H3.
  Qed.
  Lemma seq_run_body n p f kw pk a rd : (forall f kw, seq_ok (execute n p f kw)) -> seq_ok (run_body data_prefix hash_of body guards_of ses n p f kw pk a rd).
  Proof.
    intros Hc. unfold run_body. apply seq_pbind; [by apply seq_acc|]. intros i. apply seq_pbind; [by apply seq_acc|]. intros _.
    apply seq_pbind; [|intros out; sq]. apply seq_mtry. apply seq_pbind; [apply seq_request|]. intros _.
    apply seq_pbind; [by apply seq_check_guards|]. intros g. apply seq_pbind; [unfold massert; sq|]. intros _.
    apply seq_pbind; [sq|]. intros u. apply seq_pbind; [by apply seq_run_prog|]. intros x. apply seq_pbind; [sq|]. intros b.
    apply seq_pbind; [sq|]. intros _. apply seq_store. intros o. unfold drop_request. sq.
  Qed.
  Lemma seq_execute n p f kw : seq_ok (execute n p f kw).
  Proof.
    revert f kw. induction n as [|n IH]; intros f kw; [apply seq_done|]. rewrite execute_unfold. sq.
    - apply seq_ready.
    - apply seq_get_ready.
    - by apply seq_run_body.
  Qed.

  (** ** running the body *)
  Lemma mk_addr_run p x σ μ : exists σ', run (mk_addr data_prefix hash_of ses p x) σ μ = (σ', μ, Some (Ok (addr_of_arg data_prefix hash_of x))) /\ same_but_vals σ σ'.
  Proof.
    destruct (run (mk_addr data_prefix hash_of ses p x) σ μ) as [[σ' μ'] r] eqn:Er. destruct (val_run _ _ _ _ _ _ (mk_addr_evs ses p x) Er) as [S ->].
    exists σ'. split; [|done]. do 2 f_equal.
    destruct x as [v|b|b]; cbn [mk_addr] in Er; [|by injection Er as _ <-..]. rewrite run_pbind in Er. unfold put in Er. rewrite run_pbind, run_acc in Er. cbn [perform] in Er.
    destruct (bool_decide _); cbn in Er; by injection Er as _ <-.
  Qed.
  Lemma run_body_run n p f kw pk a rd σ μ σ' μ' x : run (run_body data_prefix hash_of body guards_of ses n p f kw pk a rd) σ μ = (σ', μ', Some (Ok x)) ->
    a ∉ reqs (σ' (loc p)) /\
    (rd = true -> (forall n, rnd μ n < 1)%Q -> forall b0, ress (σ (loc p)) !! a = Some b0 -> addr_of_arg data_prefix hash_of x = b0).
  Proof.
    unfold run_body. rewrite run_pbind, run_acc. cbn [perform]. rewrite run_pbind, run_acc. cbn [perform].
    set (σ0 := upd (loc p) (add_hist _ _) σ). set (μ0 := Local _ _ _ _ _). rewrite run_pbind, run_mtry.
    match goal with |- context [run ?t σ0 μ0] => destruct (run t σ0 μ0) as [[σ9 μ9] r9] eqn:E9 end.
    destruct r9 as [[y|e]|]; [| |done]; rewrite ?run_pbind, ?run_acc; cbn [perform run mres]; intros H; [|by injection H as _ _ Hx].
    assert (y = x) as ->. { clear -H. by injection H. }
    assert (Eσ : reqs (σ' (loc p)) = reqs (σ9 (loc p))). { clear -H. injection H as <- _. unfold upd. rewrite decide_True by done. done. } clear H.
    assert (K0 : results_kept σ σ0). { intros l' a' b' H. unfold σ0, upd. destruct (decide (l' = loc p)) as [->|]; done. }
    rewrite run_pbind in E9. destruct (run (request _ _ _ _ _ _) σ0 μ0) as [[σ1 μ1] [[[]|e]|]] eqn:E1; [|done|done].
    destruct (seq_request p a _ _ _ _ _ _ E1) as (K1 & R1 & _ & _).
    rewrite run_pbind in E9. destruct (run (check_guards _ _ _ _ _ _ _) σ1 μ1) as [[σ2 μ2] [[g|e]|]] eqn:E2; [|done|done].
    destruct (seq_check_guards _ p _ _ (seq_execute n p) _ _ _ _ _ E2) as (K2 & R2 & _ & _).
    rewrite run_pbind in E9. destruct g; cbn [massert run pret pfail] in E9; [|done].
    rewrite run_pbind in E9. destruct (run (unpack_in _ _ _) σ2 μ2) as [[σ3 μ3] [[u|e]|]] eqn:E3; [|done|done].
    destruct (seq_val _ (unpack_in_evs ses p _) _ _ _ _ _ E3) as (K3 & R3 & _ & _).
    rewrite run_pbind in E9. destruct (run (run_prog _ _ _ _ _ _) σ3 μ3) as [[σ4 μ4] [[z|e]|]] eqn:E4; [|done|done].
    destruct (seq_run_prog _ p _ (seq_execute n p) _ _ _ _ _ E4) as (K4 & R4 & _ & _).
    rewrite run_pbind in E9. destruct (mk_addr_run p z σ4 μ4) as (σ5 & E5 & S5). rewrite E5 in E9.
    rewrite run_pbind, run_acc in E9. cbn [perform] in E9.
    set (σ6 := upd (loc p) (add_hist _ _) σ5) in E9.
    rewrite run_pbind, run_mtry in E9.
    destruct (run_setp p rd (set_result ses p a (addr_of_arg data_prefix hash_of z)) σ6 μ4) as (μ7 & E7 & R7 & _ & L7). rewrite E7 in E9.
    destruct (run (set_result ses p a (addr_of_arg data_prefix hash_of z)) σ6 μ7) as [[σ8 μ8] [r8|]] eqn:E8; [|done].
    rewrite run_pbind, run_acc in E9. cbn [perform] in E9. rewrite run_pbind in E9. cbn [run mres] in E9.
    destruct r8 as [[]|e]; [|done]. rewrite run_pbind in E9. unfold drop_request in E9. cbn [perform run acc pret] in E9.
    assert (Ez : z = x). { clear -E9. by injection E9. }
    split.
    - rewrite Eσ. clear -E9. injection E9 as <- _ _. unfold upd. rewrite decide_True by done. cbn. set_solver.
    - intros Hrd Hlt b0 Hb0. rewrite <- Ez. destruct (set_result_run _ _ _ _ _ _ _ _ E8) as (_ & _ & _ & _ & Hch). apply (Hch b0); [| |  |done].
      + unfold σ6, upd. rewrite decide_True by done. cbn. rewrite (proj1 (S5 (loc p))). apply K4, K3, K2, K1, K0, Hb0.
      + by apply L7.
      + intros i. rewrite R7, R4, R3, R2, R1. apply Hlt.
  Qed.

  (** no portal has the result *)
  Lemma ready_none cur p a c σ μ : (forall q, q = p \/ q ∈ others ses cur -> ress (σ (loc q)) !! a = None) ->
    run (ready data_prefix hash_of ses cur p a c) σ μ = (σ, μ, Some (Ok false)).
  Proof.
    intros H. unfold ready. rewrite run_pbind, run_acc. cbn [perform]. rewrite bool_decide_false by (rewrite (H p (or_introl eq_refl)); by intros []).
    assert (Ho : forall q, q ∈ others ses cur -> ress (σ (loc q)) !! a = None) by auto. clear H.
    induction (others ses cur) as [|q qs IH]; cbn [ready_elsewhere]; [done|]. rewrite run_pbind, run_acc. cbn [perform].
    rewrite bool_decide_false; [apply IH; intros; apply Ho; by right|]. rewrite Ho by (by left). by intros [].
  Qed.

  Lemma executed_call_no_request n p f kw s σ μ σ' μ' x : Inv false σ -> sorted_kwargs kw = Ok s ->
    (forall q, q = p \/ q < length (places ses) -> ress (σ (loc q)) !! call_addr f kw = None) ->
    run (execute (S n) p f kw) σ μ = (σ', μ', Some (Ok x)) -> call_addr f kw ∉ reqs (σ' (loc p)).
  Proof.
    intros HI Hs Hno Hr. destruct (run_address p f kw σ μ s HI Hs) as (σ1 & HI1 & G1 & S1 & _ & Hrun).
    rewrite execute_unfold, Hrun, run_pbind, run_acc in Hr. cbn [perform] in Hr. rewrite run_pbind, ready_none in Hr.
    - cbn [andb] in Hr. by destruct (run_body_run _ _ _ _ _ _ _ _ _ _ _ _ Hr) as [? _].
    - intros q Hq. rewrite (proj1 (S1 (loc q))). apply Hno. destruct Hq as [->|Hq]; [by left|]. right.
      unfold others in Hq. apply elem_of_list_filter in Hq as [_ Hq]. apply elem_of_seq in Hq. lia.
  Qed.

  (** a call whose result is stored, when re-execution is chosen *)
  Lemma checked_call n p f kw s b v σ μ σ' μ' r : Inv false σ -> sorted_kwargs kw = Ok s ->
    ress (σ (loc p)) !! call_addr f kw = Some b -> vals (σ (loc p)) !! b = Some v ->
    (forall i, 0 <= rnd μ i /\ rnd μ i < 1)%Q -> below (draw μ) (pcc ses p) = true ->
    run (execute (S n) p f kw) σ μ = (σ', μ', r) ->
    ress (σ' (loc p)) !! call_addr f kw = Some b /\
    (exists i, (hist (σ (loc p)) ++ [HAttempt (call_addr f kw) i]) `prefix_of` hist (σ' (loc p))) /\
    (forall x, r = Some (Ok x) -> addr_of_arg data_prefix hash_of x = b) /\
    ((forall q, lp μ q = pcc ses q) -> forall q, lp μ' q = pcc ses q).
  Proof.
    intros HI Hs Hb Hv Hrnd Hbel Hr. destruct (seq_execute _ _ _ _ _ _ _ _ _ Hr) as (K & _ & L & _). split; [by apply K|].
    destruct (run_address p f kw σ μ s HI Hs) as (σ1 & HI1 & G1 & S1 & _ & Hrun). destruct (S1 (loc p)) as (Er & _ & Eh).
    rewrite execute_unfold, Hrun, run_pbind, run_acc in Hr. cbn [perform] in Hr. rewrite run_pbind, ready_stored in Hr by (rewrite Er, Hb; eauto).
    unfold draw in Hbel. rewrite Hbel in Hr.
    assert (p_zero (pcc ses p) = false) as Ez.
    { unfold below, p_zero in *. destruct (pcc ses p) as [q|]; [|done]. destruct (Qeq_bool q 0) eqn:Eq; [|done]. apply Qeq_bool_iff in Eq.
      apply negb_true_iff in Hbel. destruct (Qle_bool q (rnd μ (nrnd μ))) eqn:El; [done|]. exfalso.
      assert (Hle : (q <= rnd μ (nrnd μ))%Q) by (rewrite Eq; apply Hrnd). apply Qle_bool_iff in Hle. congruence. }
    rewrite Ez in Hr. cbn [andb orb negb] in Hr. split_and!; [| |exact L].
    - unfold run_body in Hr. rewrite run_pbind, run_acc in Hr. cbn [perform] in Hr. rewrite run_pbind, run_acc in Hr. cbn [perform] in Hr.
      set (σ2 := upd (loc p) (add_hist _ _) σ1) in Hr. eexists.
      match type of Hr with run ?t _ _ = _ => assert (Ht : seq_ok t) end.
      { apply seq_pbind; [|intros out; sq]. apply seq_mtry. apply seq_pbind; [apply seq_request|]. intros _.
        apply seq_pbind; [apply seq_check_guards, seq_execute|]. intros g. apply seq_pbind; [unfold massert; sq|]. intros _.
        apply seq_pbind; [sq|]. intros u. apply seq_pbind; [apply seq_run_prog, seq_execute|]. intros x. apply seq_pbind; [sq|]. intros b0.
        apply seq_pbind; [sq|]. intros _. apply (seq_store p _ b0 true). intros o. unfold drop_request. sq. }
      destruct (Ht _ _ _ _ _ Hr) as (_ & _ & _ & Hh). specialize (Hh (loc p)). unfold σ2, upd in Hh. rewrite decide_True in Hh by done. cbn in Hh.
      rewrite Eh in Hh. exact Hh.
    - intros x ->. destruct (run_body_run _ _ _ _ _ _ _ _ _ _ _ _ Hr) as [_ Hx]. apply Hx; [done|intros i; apply Hrnd|]. by rewrite Er.
  Qed.
  End Calls.
End Seq.
