(** Exactly when a definition is accepted, when a first use goes ahead, and that it goes ahead for good.  C102-C104. *)
From Coq Require Import String Sorted.
From stdpp Require Import gmap.
From Verif Require Import Lib.Py Model.PyAst Model.Normalizer Model.NamesAnalyzer Model.CallGraph Model.Registry.
From Verif.Spec Require Import RegistrySpec RegistryExactSpec.
From Verif.Proofs Require Import RegistryP RegistryInvP RegistryOpsP RegistryCompleteP RegistryRunP RegistryUseP RegistryFrameP RegistryPureP RegistryRestoreP RegistryClaimsP RegistryExactP.
From Verif.Properties Require Import P_Registry P_RegistryExamples.
Local Open Scope nat_scope.

Section Exact.
  Variable normalise : bool -> string -> res string.
  Variable names_of : string -> res ana.
  Variable name_of : string -> res string.
  Variable builtins : gset string.
  Variable ord : nat -> gset string -> list string.
  Variable default_island : nat -> string.
  Notation step := (step normalise names_of name_of builtins ord default_island).
  Notation run := (run normalise names_of name_of builtins ord default_island).
  Notation get_state := (get_state normalise names_of builtins ord).
  Notation prepare := (prepare normalise names_of builtins ord).
  Notation reachable := (reachable normalise names_of name_of builtins ord default_island).
  Notation plainly_reachable := (plainly_reachable normalise names_of name_of builtins ord default_island).
  Notation honest_op := (honest_op name_of).
  Notation regular := (regular normalise names_of name_of builtins ord default_island).
  Hypothesis sens : sensible normalise names_of name_of ord.

  (** C102.  In every session: a definition is accepted exactly if its text normalises to a source with a function name, its guards are
      acceptable, and either the name is new in the island and the source is self-contained, or the name has this very definition
      already and the registered object can be copied. *)
  Theorem C102_definition_accepted_iff : forall s k code isl strictly gs p, reachable s ->
    snd (step (Decorate k code isl strictly gs p) s) = Ok tt <-> accepted normalise names_of name_of default_island s k code isl strictly gs p.
  Proof.
    intros s k code isl strictly gs p Hs. pose proof (reachable_inv _ _ _ _ _ _ sens s Hs) as Hi.
    rewrite <- (new_fn_exact normalise names_of name_of builtins False default_island s k code isl strictly gs p Hi). cbn [Registry.step]. unfold bnd.
    destruct (new_fn normalise names_of name_of default_island k code isl strictly gs p s) as [s2 [i|e]] eqn:E; cbn.
    - split; [|done]. intros _. destruct (new_fn_effect normalise names_of name_of builtins False default_island s k code isl strictly gs p s2 _ Hi E) as (_ & _ & _ & -> & _). by eexists.
    - split; [done|]. by intros (? & ?).
  Qed.

  (** C103.  The first call of a function goes ahead exactly if every outside name it needs is registered in its island, nothing is needed
      if it is strictly autonomous, it reaches nobody but itself if it needs nothing, its guards are registered, and no other
      augmented source was left with it. *)
  Theorem C103_first_call_iff : forall s f me, plainly_reachable s -> not_used s f me ->
    (exists s' r, prepare f s = (s', Ok r)) <->
    ready names_of builtins s me /\ (forall g, g ∈ guards_of me -> reg s (home me) g <> None) /\ no_other_blocks names_of s me.
  Proof.
    intros s f me Hs (Hm & Hsrc & Hf & Hr & Hu). pose proof (plainly_inv _ _ _ _ _ _ sens s Hs) as Hi. destruct sens as [H1 H2 H3].
    destruct (reg s (home me) (o_name me)) as [j|] eqn:Hj; [|done]. destruct (inv_enrolled _ _ _ _ _ _ _ Hi _ _ _ Hj) as (o & Ho & _ & _ & Hnm & _). specialize (Hu j o eq_refl Ho).
    assert (Hok : obj_ok True s me) by exact (inv_obj _ _ _ _ _ _ _ Hi f me ltac:(done) Hm). destruct Hok as (_ & HA0 & HP & HA). destruct (o_kind me) eqn:Ek.
    - destruct (HA0 eq_refl) as [Hg0 Ha0]. destruct (HA I eq_refl) as [Hb|(j' & o' & Hj' & Ho' & Hk' & Hs' & _)].
      { exfalso. by rewrite Hb in Hsrc. }
      assert (j' = j) as -> by congruence. assert (o' = o) as -> by congruence.
      rewrite (call_aut_exact normalise names_of name_of builtins ord H1 H2 s f me j o (inv_enrolled _ _ _ _ _ _ _ Hi) (inv_wf _ _ _ _ _ _ _ Hi) Hm Ek Hf Hj Ho Hs' Hu).
      split; [|by intros [? _]]. intros Hrd. split; [done|]. split; [unfold guards_of; rewrite Hg0; intros g Hg; inversion Hg|].
      intros j2 o2 es Hj2 Ho2 Hes. assert (j2 = j) as -> by congruence. assert (o2 = o) as -> by congruence. exfalso.
      assert (Hok : obj_ok True s o) by exact (inv_obj _ _ _ _ _ _ _ Hi j o ltac:(done) Ho). destruct Hok as (_ & HA1 & _). destruct (HA1 Hk') as [_ ?]. congruence.
    - destruct (HP eq_refl) as (j' & o' & Hj' & Ho' & Hs' & Hg' & Hk' & _). assert (j' = j) as -> by congruence. assert (o' = o) as -> by congruence.
      apply (call_pure_exact normalise names_of name_of builtins ord H1 H2 s f me j o); [by eapply inv_enrolled|by eapply inv_wf|]. by split.
  Qed.

  (** C103.  The first time a pure function is pickled (its address computed), the same condition decides. *)
  Theorem C103_first_pickle_iff : forall s f me, plainly_reachable s -> not_used s f me -> o_kind me = Pure ->
    (exists s' x, get_state f s = (s', Ok x)) <->
    ready names_of builtins s me /\ (forall g, g ∈ guards_of me -> reg s (home me) g <> None) /\ no_other_blocks names_of s me.
  Proof.
    intros s f me Hs (Hm & Hsrc & Hf & Hr & Hu) Ek. pose proof (plainly_inv _ _ _ _ _ _ sens s Hs) as Hi. destruct sens as [H1 H2 H3].
    assert (Hok : obj_ok True s me) by exact (inv_obj _ _ _ _ _ _ _ Hi f me ltac:(done) Hm). destruct Hok as (_ & _ & HP & _). destruct (HP Ek) as (j & o & Hj & Ho & Hs' & Hg' & Hk' & _).
    apply (get_state_exact normalise names_of name_of builtins ord H1 H2 s f me j o); [by eapply inv_enrolled|by eapply inv_wf|]. split; try done. by eapply Hu.
  Qed.

  (** C104.  Once a call through an object has gone ahead, every later call through it goes ahead, with the same code and the same
      functions bound to the same names, and changes nothing - whatever is defined, called, pickled or unpickled in between. *)
  Theorem C104_callable_for_good : forall s f s1 code env h, plainly_reachable s -> prepare f s = (s1, Ok (code, env)) ->
    Forall honest_op h -> regular h s1 -> prepare f (run h s1) = (run h s1, Ok (code, env)).
  Proof.
    intros s f s1 code env h Hs Hrun Hh Hr. pose proof (plainly_inv _ _ _ _ _ _ sens s Hs) as Hi. destruct sens as [H1 H2 H3].
    pose proof (proj1 (keeps_prepare normalise names_of name_of builtins True ord H1 H2 H3 f s s1 _ Hi Hrun)) as Hi1.
    destruct (run_ok normalise names_of name_of builtins True ord default_island H1 H2 H3 h s1 Hi1 Hh ltac:(done)) as [Hi2 Hev].
    by apply (prepare_stable normalise names_of name_of builtins True ord H1 H2 s f s1 code env).
  Qed.

  (** C104.  The first call of a pure function goes ahead exactly if its address can be computed. *)
  Theorem C104_call_iff_pickle : forall s f me, plainly_reachable s -> not_used s f me -> o_kind me = Pure ->
    (exists s' r, prepare f s = (s', Ok r)) <-> (exists s' x, get_state f s = (s', Ok x)).
  Proof. intros s f me Hs Hu Hk. rewrite C103_first_call_iff, C103_first_pickle_iff; done. Qed.
End Exact.
Print Assumptions C102_definition_accepted_iff.
Print Assumptions C103_first_call_iff.
Print Assumptions C103_first_pickle_iff.
Print Assumptions C104_callable_for_good.
Print Assumptions C104_call_iff_pickle.

(** ** Concrete cases *)
(** C102: a new definition; a guard that is not a registered function; guards on an island nobody has used yet *)
Example C102_ex_new : accepted norm nms nmo dflt (RUN [strict "def g(): return None"]) Pure "def p(): return 1" None false (Some [GFn 0; GName "g"]) 0.
Proof. apply (C102_definition_accepted_iff norm nms nmo ∅ ordr dflt world_sensible); [apply plain_reachable; plain|by vm_compute]. Qed.
Example C102_ex_no_guard : ~ accepted norm nms nmo dflt (RUN [autonomous "def g(): return None"]) Pure "def p(): return 1" None false (Some [GName "k"%string]) 0.
Proof. intros H. apply (C102_definition_accepted_iff norm nms nmo ∅ ordr dflt world_sensible) in H; [by vm_compute in H|apply plain_reachable; plain]. Qed.
Example C102_ex_loose_guard : ~ accepted norm nms nmo dflt (RUN [autonomous "def g(): return None"]) Pure "def p(): return 1" None false (Some [GFn 0]) 0.
Proof. intros H. apply (C102_definition_accepted_iff norm nms nmo ∅ ordr dflt world_sensible) in H; [by vm_compute in H|apply plain_reachable; plain]. Qed.
Example C102_ex_no_island : ~ accepted norm nms nmo dflt (RUN []) Pure "def p(): return 1" (Some "Delos"%string) false (Some []) 0
  /\ accepted norm nms nmo dflt (RUN []) Pure "def p(): return 1" (Some "Delos"%string) false None 0.
Proof.
  split; [intros H|]; [apply (C102_definition_accepted_iff norm nms nmo ∅ ordr dflt world_sensible) in H; [by vm_compute in H|]|apply (C102_definition_accepted_iff norm nms nmo ∅ ordr dflt world_sensible); [|by vm_compute]];
    apply plain_reachable; plain.
Qed.

(** C103: a function that needs h, before and after h is defined *)
Lemma ex_not_used h f src guards : (heap (RUN h) !! f = Some (FnObj Pure 0 src "f" "Samos" false false None None guards None))%string -> src <> ""%string ->
  (reg (RUN h) (0, "Samos") "f" = Some f)%string -> not_used (RUN h) f (FnObj Pure 0 src "f" "Samos" false false None None guards None)%string.
Proof. intros H1 Hn H2. split; [done|]. split; [done|]. split; [done|]. split; [change (reg (RUN h) (0, "Samos"%string) "f" <> None); by rewrite H2|]. intros j o Hj Ho. change (reg (RUN h) (0, "Samos"%string) "f" = Some j) in Hj. rewrite H2 in Hj. injection Hj as <-. rewrite H1 in Ho. by injection Ho as <-. Qed.
Example C103_ex_late : ready nms ∅ (RUN [pure "def f(): return h()" None; autonomous "def h(): return 1"]) (FnObj Pure 0 "def f(): return h()" "f" "Samos" false false None None None None)%string.
Proof.
  apply (C103_first_call_iff norm nms nmo ∅ ordr dflt world_sensible _ 0); [plain|apply ex_not_used; by vm_compute|]. eexists _, _. vm_compute. reflexivity.
Qed.
Example C103_ex_early : ~ ready nms ∅ (RUN [pure "def f(): return h()" None]) (FnObj Pure 0 "def f(): return h()" "f" "Samos" false false None None None None)%string.
Proof.
  intros H. destruct (proj2 (C103_first_call_iff norm nms nmo ∅ ordr dflt world_sensible (RUN [pure "def f(): return h()" None]) 0 (FnObj Pure 0 "def f(): return h()" "f" "Samos" false false None None None None)%string ltac:(plain) ltac:(apply ex_not_used; by vm_compute))) as (s' & r & E).
  - split; [exact H|]. split; [intros g Hg; inversion Hg|]. intros j o es Hj Ho Hes. vm_compute in Hj. injection Hj as <-. vm_compute in Ho. injection Ho as <-. done.
  - vm_compute in E. discriminate.
Qed.
(** C104: the second call, after another definition and another call *)
Example C104_ex : forall s1 r, CALL 0 (RUN [pure "def f(): return h()" None; autonomous "def h(): return 1"]) = (s1, r) ->
  let s2 := run norm nms nmo ∅ ordr dflt [autonomous "def k(): return 0"; Call 2; Pickle 0] s1 in exists code env, r = Ok (code, env) /\ CALL 0 s2 = (s2, r).
Proof.
  intros s1 r E s2. destruct r as [[code env]|e]; [|exfalso; vm_compute in E; discriminate]. exists code, env. split; [reflexivity|].
  refine (C104_callable_for_good norm nms nmo ∅ ordr dflt world_sensible _ 0 s1 code env _ _ E _ _); [plain| |].
  - repeat constructor.
  - split; [exact I|]. split; [exact I|]. split; exact I.
Qed.
