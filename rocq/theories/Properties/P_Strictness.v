(** What is_strictly_autonomous, is_loosely_autonomous, is_autonomous and is_pure answer.  C106. *)
From Coq Require Import String Sorted.
From stdpp Require Import gmap.
From Verif Require Import Lib.Py Model.PyAst Model.Normalizer Model.NamesAnalyzer Model.CallGraph Model.Registry Model.AutonomyChecks.
From Verif.Spec Require Import RegistrySpec RegistryExactSpec.
From Verif.Proofs Require Import RegistryP RegistryInvP RegistryOpsP RegistryCompleteP RegistryRunP RegistryUseP RegistryFrameP RegistryPureP RegistryRestoreP RegistryClaimsP RegistryExactP.
From Verif.Properties Require Import P_Registry P_RegistryExamples P_RegistryExact.
Local Open Scope nat_scope.

Section Strict.
  Variable normalise : bool -> string -> res string.
  Variable names_of : string -> res ana.
  Variable name_of : string -> res string.
  Variable builtins : gset string.
  Variable ord : nat -> gset string -> list string.
  Variable default_island : nat -> string.
  Notation step := (step normalise names_of name_of builtins ord default_island).
  Notation run := (run normalise names_of name_of builtins ord default_island).
  Notation prepare := (prepare normalise names_of builtins ord).
  Notation reachable := (reachable normalise names_of name_of builtins ord default_island).
  Notation plainly_reachable := (plainly_reachable normalise names_of name_of builtins ord default_island).
  Notation honest_op := (honest_op name_of).
  Notation regular := (regular normalise names_of name_of builtins ord default_island).
  Hypothesis sens : sensible normalise names_of name_of ord.

  (** C106.  A function that was just defined is called strictly autonomous exactly if it was decorated so. *)
  Theorem C106_new_definition : forall s k code isl strictly gs p s', reachable s ->
    step (Decorate k code isl strictly gs p) s = (s', Ok tt) ->
    (forall src name, normalise true code = Ok src -> name_of src = Ok name -> reg s (p, island_or_default default_island isl p) name = None) ->
    exists o, heap s' !! List.length (heap s) = Some o
      /\ (is_strictly_autonomous o = true <-> k = Aut /\ strictly = true) /\ is_loosely_autonomous o = negb (is_strictly_autonomous o) /\ (is_pure o = true <-> k = Pure).
  Proof.
    intros s k code isl strictly gs p s' Hs Hrun Hnew. pose proof (reachable_inv _ _ _ _ _ _ sens s Hs) as Hi. cbn [Registry.step] in Hrun. apply bnd_ok in Hrun as (s1 & i & Hrun & Hr). injection Hr as ->.
    destruct (new_fn_effect normalise names_of name_of builtins False default_island s k code isl strictly gs p s' _ Hi Hrun) as (_ & _ & _ & -> & src & name & me & j & o & H1 & H2 & _ & Hme & Ho & Hk & _ & _ & _ & _ & Hko & _ & _ & Hraw & _).
    destruct (Hraw (Hnew _ _ H1 H2)) as [-> ->]. eexists. split; [exact Ho|]. destruct k, strictly; cbn; (split; [split; [try done; intros _; done|intros [? ?]; done]|]; split; [done|split; done]).
  Qed.

  (** C106.  Once the first call has gone ahead, the function is called strictly autonomous exactly if it uses, directly or through
      others, no other function of its island; ... *)
  Theorem C106_after_first_call : forall s f me s' r, plainly_reachable s -> not_used s f me -> prepare f s = (s', Ok r) ->
    exists me', heap s' !! f = Some me' /\ (is_strictly_autonomous me' = true <-> forall n, rtc (refers names_of s (home me)) (o_name me) n -> n = o_name me).
  Proof.
    intros s f me s' r Hs Hnu Hrun.
    destruct (proj1 (C103_first_call_iff normalise names_of name_of builtins ord default_island sens s f me Hs Hnu) (ex_intro _ s' (ex_intro _ r Hrun))) as (Hrd & _ & _).
    destruct Hnu as (Hm & Hsrc & Hf & Hr & Hu). pose proof (plainly_inv _ _ _ _ _ _ sens s Hs) as Hi. destruct sens as [H1 H2 H3].
    destruct (reg s (home me) (o_name me)) as [j|] eqn:Hj; [|done]. destruct (inv_enrolled _ _ _ _ _ _ _ Hi _ _ _ Hj) as (o & Ho & _ & _ & Hnm & _). specialize (Hu j o eq_refl Ho).
    pose proof (inv_enrolled _ _ _ _ _ _ _ Hi) as Hen. pose proof (inv_wf _ _ _ _ _ _ _ Hi) as Hwf.
    unfold Registry.prepare, bnd at 1 in Hrun. destruct (complete normalise names_of builtins ord f s) as [s1 [[]|e]] eqn:Ec; [|done].
    assert (s' = s1) as ->. { revert Hrun. match goal with |- ?m s1 = _ -> _ => assert (Hq : reader m) by rd end. apply Hq. }
    assert (Hiff : forall a, names_of (o_src me) = Ok a -> o_src o = o_src me -> required_names builtins (o_name me) a = ∅ <-> forall n, rtc (refers names_of s (home me)) (o_name me) n -> n = o_name me).
    { intros a Ha Hsame. destruct (Hrd a Ha) as (R1 & R2 & R3). split; [apply R3|]. intros Halone. apply set_eq. intros m. split; [|set_solver]. intros Hin. exfalso.
      assert (m = o_name me) as ->; [|unfold required_names in Hin; set_solver].
      apply Halone, rtc_once. split; [|by apply R1]. exists (o_src me). split; [unfold source_of, definition_of; rewrite Hj, Ho; cbn; by rewrite Hsame|]. exists a. split; [done|]. unfold required_names in Hin. set_solver. }
    assert (Hok : obj_ok True s me) by exact (inv_obj _ _ _ _ _ _ _ Hi f me ltac:(done) Hm). destruct Hok as (_ & HA0 & HP & HA). destruct (o_kind me) eqn:Ek.
    - destruct (HA I eq_refl) as [Hb|(j' & o' & Hj' & Ho' & Hk' & Hs' & _)]; [exfalso; by rewrite Hb in Hsrc|].
      assert (j' = j) as -> by congruence. assert (o' = o) as -> by congruence.
      rewrite (complete_unfold normalise names_of builtins ord _ _ _ Hm), Ek in Ec.
      pose proof (complete_aut_run normalise names_of name_of builtins ord H1 H2 s f me s1 (Ok tt) Hen Hwf Hm Ec) as Hc.
      inversion Hc as [Hc1|_ Hc1|j1 o1 _ Hj1 Ho1 Hc1|j1 o1 _ _ Hj1 Ho1 _ Hc1|j1 o1 _ _ Hj1 Ho1 _ Hc1|j1 o1 a1 b _ Hj1 Ho1 _ _ Ha1 Hq Hmiss Hb1 Hb2|j1 o1 a D _ Hj1 Ho1 _ _ Ha Hreq Hstr HD]; try congruence.
      eexists. cbn [heap]. split; [apply list_lookup_insert; rewrite insert_length; by eapply lookup_lt_Some|].
      rewrite <- (Hiff a Ha Hs'). unfold is_strictly_autonomous, is_autonomous. cbn. rewrite Ek. cbn. by rewrite bool_decide_eq_true.
    - destruct (HP eq_refl) as (j' & o' & Hj' & Ho' & Hs' & Hg' & Hk' & _). assert (j' = j) as -> by congruence. assert (o' = o) as -> by congruence.
      assert (Hun : unfinished s f me j o) by (by split).
      destruct (complete_first normalise names_of name_of builtins ord H1 H2 s f me j o s1 Hen Hwf Hun Ec) as (a & D & es & Ha & _ & _ & _ & _ & _ & _ & ->).
      destruct (finished_look s f j me o D (bool_decide (required_names builtins (o_name me) a = ∅)) es Hun) as (L1 & _). eexists. split; [exact L1|].
      rewrite <- (Hiff a Ha Hs'). unfold is_strictly_autonomous, is_autonomous. cbn. rewrite Ek. cbn. by rewrite bool_decide_eq_true.
  Qed.
  (** C106.  ... and this answer is final, as are all others about the object. *)
  Theorem C106_answers_final : forall s f s1 r h, plainly_reachable s -> prepare f s = (s1, Ok r) -> Forall honest_op h -> regular h s1 ->
    exists o o', heap s1 !! f = Some o /\ heap (run h s1) !! f = Some o' /\ is_strictly_autonomous o' = is_strictly_autonomous o
      /\ is_loosely_autonomous o' = is_loosely_autonomous o /\ is_autonomous o' = is_autonomous o /\ is_pure o' = is_pure o.
  Proof.
    intros s f s1 r h Hs Hrun Hh Hr. pose proof (plainly_inv _ _ _ _ _ _ sens s Hs) as Hi. destruct sens as [H1 H2 H3].
    pose proof (proj1 (keeps_prepare normalise names_of name_of builtins True ord H1 H2 H3 f s s1 _ Hi Hrun)) as Hi1.
    destruct (run_ok normalise names_of name_of builtins True ord default_island H1 H2 H3 h s1 Hi1 Hh ltac:(done)) as [Hi2 [Hev _]].
    unfold Registry.prepare, bnd at 1 in Hrun. destruct (complete normalise names_of builtins ord f s) as [s2 [[]|e]] eqn:Ec; [|done].
    assert (s1 = s2) as ->. { revert Hrun. match goal with |- ?m s2 = _ -> _ => assert (Hq : reader m) by rd end. apply Hq. }
    destruct (heap s2 !! f) as [me|] eqn:Hm; [|unfold bnd, get in Hrun; by rewrite Hm in Hrun].
    assert (Hf : o_full me = true).
    { destruct (heap s !! f) as [me0|] eqn:Hm0; [|by rewrite (complete_missing _ _ _ _ _ _ Hm0) in Ec].
      eapply (complete_full normalise names_of name_of builtins ord H1 H2 s f me0 s2 me); [by eapply inv_enrolled|by eapply inv_wf|done..]. }
    destruct (Hev f me Hm) as (me2 & Hm2 & _ & Hk2 & _). destruct (Hk2 Hf) as (_ & _ & _ & _ & _ & E2). rewrite (E2 I) in Hm2. exists me, me. done.
  Qed.
  (** C106.  Whatever happens, an autonomous function stays an autonomous and a pure one a pure function. *)
  Theorem C106_kind_final : forall s f o h, reachable s -> heap s !! f = Some o -> Forall honest_op h ->
    exists o', heap (run h s) !! f = Some o' /\ is_pure o' = is_pure o /\ is_autonomous o' = true.
  Proof.
    intros s f o h Hs Ho Hh. pose proof (reachable_inv _ _ _ _ _ _ sens s Hs) as Hi. destruct sens as [H1 H2 H3].
    destruct (run_ok normalise names_of name_of builtins False ord default_island H1 H2 H3 h s Hi Hh ltac:(done)) as [_ [Hev _]].
    destruct (Hev f o Ho) as (o' & Ho' & (Hk & _) & _). exists o'. split; [done|]. unfold is_pure, is_autonomous. rewrite Hk. by destruct (o_kind o').
  Qed.
End Strict.
Print Assumptions C106_new_definition.
Print Assumptions C106_after_first_call.
Print Assumptions C106_answers_final.
Print Assumptions C106_kind_final.

(** ** Concrete cases *)
Definition strictness (i : nat) (s : st) : option bool := is_strictly_autonomous <$> heap s !! i.
(** a function that uses h and one that uses nobody, after their first calls *)
Example C106_ex : let s := RUN [pure "def f(): return h()" None; autonomous "def h(): return 1"; Call 0; Call 1] in strictness 0 s = Some false /\ strictness 1 s = Some true.
Proof. by vm_compute. Qed.
Example C106_ex_hyp : forall s1 r, CALL 0 (RUN [pure "def f(): return h()" None; autonomous "def h(): return 1"]) = (s1, Ok r) ->
  exists me', heap s1 !! 0 = Some me' /\ (is_strictly_autonomous me' = true <-> forall n, rtc (refers nms (RUN [pure "def f(): return h()" None; autonomous "def h(): return 1"]) (0, "Samos"%string)) "f"%string n -> n = "f"%string).
Proof.
  intros s1 r E. refine (C106_after_first_call norm nms nmo ∅ ordr dflt world_sensible _ 0 (FnObj Pure 0 "def f(): return h()" "f" "Samos" false false None None None None)%string s1 r _ _ E); [plain|].
  apply ex_not_used; by vm_compute.
Qed.
(** what the answers are worth otherwise: before the first call a function that uses nobody is called loosely autonomous; after a call that
    came too early a function that uses another one is called strictly autonomous; two objects of one function may answer differently *)
Theorem C106_limits :
  strictness 0 (RUN [autonomous "def h(): return 1"]) = Some false
  /\ strictness 0 (RUN [pure "def f(): return h()" None; Call 0]) = Some true
  /\ (let s := RUN [autonomous "def h(): return 1"; autonomous "def h(): return 1"; Call 1] in strictness 0 s = Some false /\ strictness 1 s = Some true).
Proof. by vm_compute. Qed.
