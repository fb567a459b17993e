(** Registration of autonomous and pure functions: what a user may rely on.  C37-C40, C67-C69. *)
From Coq Require Import String Sorted.
From stdpp Require Import gmap.
From Verif Require Import Lib.Py Model.PyAst Model.Normalizer Model.NamesAnalyzer Model.CallGraph Model.Registry.
From Verif.Spec Require Import RegistrySpec.
From Verif.Proofs Require Import RegistryP RegistryInvP RegistryOpsP RegistryCompleteP RegistryRunP RegistryUseP RegistryFrameP RegistryPureP RegistryRestoreP RegistryApartP RegistryClaimsP.
Local Open Scope nat_scope.

(** What is assumed of the parts a session is built from: the normalised source [normalise], the names analysis [names_of],
    the function's name [name_of], the iteration order of sets [ord].  All theorems below hold for all of them that satisfy
    this; [sensible_trees] below shows that the analyzer of NamesAnalyzer.v does. *)
Record sensible (normalise : bool -> string -> res string) (names_of : string -> res ana) (name_of : string -> res string)
    (ord : nat -> gset string -> list string) : Prop := {
  sen_ord : forall t X, ord t X ≡ₚ elements X;
  sen_name : forall src n a, normalise false src = Ok src -> name_of src = Ok n -> names_of src = Ok a -> a_function a = Some n;
  sen_empty : forall n, name_of "" <> Ok n }.

Section Registry.
  Variable normalise : bool -> string -> res string.
  Variable names_of : string -> res ana.
  Variable name_of : string -> res string.
  Variable builtins : gset string.
  Variable ord : nat -> gset string -> list string.
  Variable default_island : nat -> string.
  Notation step := (step normalise names_of name_of builtins ord default_island).
  Notation run := (run normalise names_of name_of builtins ord default_island).
  Notation new_fn := (new_fn normalise names_of name_of default_island).
  Notation get_state := (get_state normalise names_of builtins ord).
  Notation set_state := (set_state normalise names_of name_of builtins ord default_island).
  Notation prepare := (prepare normalise names_of builtins ord).
  Notation reachable := (reachable normalise names_of name_of builtins ord default_island).
  Notation plainly_reachable := (plainly_reachable normalise names_of name_of builtins ord default_island).
  Notation honest_op := (honest_op name_of).
  Notation regular := (regular normalise names_of name_of builtins ord default_island).
  Notation iod := (island_or_default default_island).
  Hypothesis sens : sensible normalise names_of name_of ord.

  Lemma reachable_inv s : reachable s -> invx normalise names_of name_of builtins False None s.
  Proof.
    intros (ps & h & Hh & ->). destruct sens as [H1 H2 H3].
    by apply (run_ok normalise names_of name_of builtins False ord default_island H1 H2 H3); [apply session_ok| |].
  Qed.
  Lemma plainly_inv s : plainly_reachable s -> invx normalise names_of name_of builtins True None s.
  Proof.
    intros (ps & h & Hh & Hr & ->). destruct sens as [H1 H2 H3].
    by apply (run_ok normalise names_of name_of builtins True ord default_island H1 H2 H3); [apply session_ok| |].
  Qed.

  (** C37.  Defining a function leaves every existing function object as it is.  If it raises, no island changes.  If it succeeds,
      the island's entry for the function's name is the requested definition; nothing else changed in any island; and if the
      name was defined before, it had this very definition (kind, decorator, normalised source) and still is the same object. *)
  Theorem C37_definition : forall s k code isl strictly gs p s' r, reachable s -> step (Decorate k code isl strictly gs p) s = (s', r) ->
    (forall i o, heap s !! i = Some o -> heap s' !! i = Some o) /\
    match r with
    | Err _ => forall K n, reg s' K n = reg s K n
    | Ok _ => exists src name, let home := (p, iod isl p) in let d := (k, requested s k strictly (iod isl p) gs, src) in
        normalise true code = Ok src /\ name_of src = Ok name /\ definition_of s' home name = Some d
        /\ (forall K n, (K, n) <> (home, name) -> reg s' K n = reg s K n)
        /\ (forall j, reg s home name = Some j -> definition_of s home name = Some d /\ reg s' home name = Some j)
    end.
  Proof.
    intros s k code isl strictly gs p s' r Hs. cbn [Registry.step]. unfold bnd at 1. destruct (new_fn k code isl strictly gs p s) as [s2 r2] eqn:E. pose proof (reachable_inv s Hs) as Hi.
    destruct (new_fn_effect normalise names_of name_of builtins False default_island s k code isl strictly gs p s2 r2 Hi E) as (_ & _ & Hh & Hr).
    destruct r2 as [i|e]; intros [= <- <-]; (split; [done|]); [|done]. destruct Hr as (_ & src & name & me & j & o & Hn & Hnm & Hreg & _ & Ho & _ & _ & _ & _ & _ & Hk & Hsr & Hd & _ & Hj).
    exists src, name. cbn zeta. assert (Hr' : reg s2 (p, iod isl p) name = Some j) by (by rewrite Hreg, decide_True).
    assert (Hdef : definition_of s2 (p, iod isl p) name = Some (k, requested s k strictly (iod isl p) gs, src)) by (unfold definition_of; rewrite Hr', Ho, Hk, Hd, Hsr; done).
    split; [done|]. split; [done|]. split; [done|]. split.
    - intros K n Hne. rewrite Hreg, decide_False; [done|]. by intros [-> ->].
    - intros j' Hj'. pose proof (Hj j' Hj') as ->. split; [|done]. unfold definition_of. rewrite Hj'.
      destruct (inv_enrolled _ _ _ _ _ _ _ Hi _ _ _ Hj') as (o' & Ho' & _). rewrite Ho'. apply Hh in Ho'. assert (o' = o) as -> by congruence. by rewrite Hk, Hd, Hsr.
  Qed.

  (** C37.  Whatever happens later - definitions, wrapping, calls, pickling, unpickling, with or without exceptions - a registered
      function stays registered under its name, with its kind, source, name, island and guards; only the strictness of an
      autonomous function may change, from loose to strict. *)
  Theorem C37_never_replaced : forall s h K n j, reachable s -> Forall honest_op h -> reg s K n = Some j ->
    reg (run h s) K n = Some j /\ exists o o', heap s !! j = Some o /\ heap (run h s) !! j = Some o' /\ same_identity o o' /\ (o_strict o = true -> o_strict o' = true).
  Proof.
    intros s h K n j Hs Hh Hj. pose proof (reachable_inv s Hs) as Hi. destruct sens as [H1 H2 H3].
    destruct (run_ok normalise names_of name_of builtins False ord default_island H1 H2 H3 h s Hi Hh ltac:(done)) as [_ [He Hr]]. split; [by apply Hr|].
    destruct (inv_enrolled _ _ _ _ _ _ _ Hi _ _ _ Hj) as (o & Ho & _). destruct (He j o Ho) as (o' & Ho' & Hid & _ & Hst). exists o, o'. do 3 (split; [done|]).
    apply Hst. by exists K, n.
  Qed.

  (** C37.  An operation leaves alone every island it does not speak about. *)
  Theorem C37_islands_apart : forall s o s' r K, reachable s -> honest_op o -> ~ speaks_of default_island s o K -> step o s = (s', r) ->
    (forall n, reg s' K n = reg s K n) /\ (forall n, definition_of s' K n = definition_of s K n)
    /\ (forall i f, heap s !! i = Some f -> home f = K -> heap s' !! i = Some f).
  Proof.
    intros s o s' r K Hs Ho Hsp Hrun. pose proof (reachable_inv s Hs) as Hi. destruct sens as [H1 H2 H3].
    destruct (step_apart normalise names_of name_of builtins False ord default_island H1 H2 o s s' r K Hi Ho ltac:(done) Hsp Hrun) as [A1 A2].
    split; [done|]. split; [|done]. intros n. unfold definition_of. rewrite A1. destruct (reg s K n) as [j|] eqn:Ej; [|done].
    destruct (inv_enrolled _ _ _ _ _ _ _ Hi _ _ _ Ej) as (x & Hx & Hhx & _). by rewrite Hx, (A2 _ _ Hx).
  Qed.

  (** C38.  Decorating a source again with the decorator its function has now (and guards that are still acceptable), when the
      registered function is not one completed through another object, succeeds and changes nothing else; the new object
      pickles to the same state as the registered one.
      Missing: the decorator a function has now may differ from the one in the program text, see C38_refuted below. *)
  Theorem C38_redecorate_partial : forall s k code isl strictly gs p name j o, reachable s -> reg s (p, iod isl p) name = Some j -> heap s !! j = Some o ->
    normalise true code = Ok (o_src o) -> o_kind o = k -> decorator o = requested s k strictly (iod isl p) gs ->
    (k = Pure -> forall l g, gs = Some l -> g ∈ l -> guard_fits s (p, iod isl p) g) ->
    (o_full o = true -> is_Some (o_code o) /\ is_Some (o_deps o)) ->
    let new := List.length (heap s) in
    exists s', new_fn k code isl strictly gs p s = (s', Ok new) /\ known s' = known s /\ heap s' = heap s ++ [copied o]
      /\ forall x, snd (get_state new s') = Ok x <-> snd (get_state j s') = Ok x.
  Proof.
    intros s k code isl strictly gs p name j o Hs Hj Ho Hn Hk Hd Hg Hf new. pose proof (reachable_inv s Hs) as Hi. destruct sens as [H1 H2 H3].
    pose proof (redecorate normalise names_of name_of builtins False default_island s k code isl strictly gs p name j o Hi Hj Ho Hn Hk Hd Hg Hf) as E.
    eexists. split; [exact E|]. split; [done|]. split; [done|]. intros x.
    destruct (keeps_new_fn normalise names_of name_of builtins False default_island k code isl strictly gs p _ _ _ Hi E) as [Hi' _].
    assert (Hh : (p, iod isl p) = home o /\ name = o_name o). { destruct (inv_enrolled _ _ _ _ _ _ _ Hi _ _ _ Hj) as (o1 & Ho1 & Hh & Hnm & _). assert (o1 = o) as -> by congruence. done. }
    destruct Hh as [Hh1 Hh2].
    apply (copied_pickles normalise names_of name_of builtins False ord H1 H2 _ j o); [done| | |].
    - by rewrite <- Hh1, <- Hh2.
    - cbn. by rewrite lookup_app_l by (by eapply lookup_lt_Some).
    - apply lookup_snoc.
  Qed.

  (** C39.  The state pickled at the first use of a pure function holds, in the order of their names, one block per guard and one
      per function reached from it through mentions, each with the decorator and source registered at that moment; nothing else.
      Missing: "at the first use" - see C39_refuted below. *)
  Theorem C39_contents_partial : forall s f me s1 x, plainly_reachable s -> unused s f me -> get_state f s = (s1, Ok x) ->
    exists (D : list string) aug strictly, x = PickPure (o_name me) (o_src me) (o_island me) aug strictly (o_guards me)
      /\ NoDup D /\ (forall n, n ∈ D <-> rtc (refers names_of s (home me)) (o_name me) n)
      /\ Forall2 (block s (home me)) (sorted (guards_of me ++ D)) aug.
  Proof.
    intros s f me s1 x Hs (Hm & Hk & Hf & Hun) Hrun. pose proof (plainly_inv s Hs) as Hi. destruct sens as [H1 H2 H3].
    assert (Hok : obj_ok True s me) by (by eapply inv_obj). destruct Hok as (_ & _ & HP & _). destruct (HP Hk) as (j & o & Hj & Ho & Hs' & Hg & Hko & _).
    assert (U : unfinished s f me j o) by (split; try done; by eapply Hun).
    destruct (get_state_first normalise names_of name_of builtins ord H1 H2 s f me j o s1 x (inv_enrolled _ _ _ _ _ _ _ Hi) (inv_wf _ _ _ _ _ _ _ Hi) U Hrun) as (a & D & es & _ & _ & HD & _ & Hbl & -> & _).
    exists (sorted (elements D)), es. eexists. split; [done|]. split; [rewrite sorted_perm; apply NoDup_elements|]. split; [intros n; by rewrite elem_of_sorted, elem_of_elements, HD|done].
  Qed.

  (** C39.  Once pickled, a pure function pickles to the same state ever after, whatever is defined, called or unpickled. *)
  Theorem C39_stable_partial : forall s f s1 x h, plainly_reachable s -> get_state f s = (s1, Ok x) -> (exists me, heap s !! f = Some me /\ o_kind me = Pure) ->
    Forall honest_op h -> regular h s1 -> exists s2, get_state f (run h s1) = (s2, Ok x).
  Proof.
    intros s f s1 x h Hs Hrun (me & Hm & Hk) Hh Hr. pose proof (plainly_inv s Hs) as Hi. destruct sens as [H1 H2 H3].
    destruct (keeps_get_state normalise names_of name_of builtins True ord H1 H2 H3 f s s1 (Ok x) Hi Hrun) as [Hi1 [Hev _]].
    destruct (Hev f me Hm) as (me1 & Hm1 & Hid & _). assert (Hk1 : o_kind me1 = Pure) by (destruct Hid as [<- _]; done).
    assert (Hg : o_full me1 = true /\ get_state f s1 = (s1, Ok x)).
    { unfold Registry.get_state in Hrun. rewrite (bnd_get _ _ _ _ Hm), Hk in Hrun. unfold bnd at 1 in Hrun. destruct (complete normalise names_of builtins ord f s) as [s1' [[]|e]] eqn:Ec; [|done].
      assert (s1' = s1) as ->. { revert Hrun. match goal with |- ?m s1' = _ -> _ => assert (Hrd : reader m) by rd end. intros Hx. by apply Hrd in Hx. }
      pose proof (complete_full normalise names_of name_of builtins ord H1 H2 s f me s1 me1 (inv_enrolled _ _ _ _ _ _ _ Hi) (inv_wf _ _ _ _ _ _ _ Hi) Hm Ec Hm1) as Hf. split; [done|].
      unfold Registry.get_state. rewrite (bnd_get _ _ _ _ Hm1), Hk1. unfold bnd at 1. rewrite (complete_unfold normalise names_of builtins ord _ _ _ Hm1), Hk1, Hf. exact Hrun. }
    destruct Hg as [Hf Hg].
    destruct (run_ok normalise names_of name_of builtins True ord default_island H1 H2 H3 h s1 Hi1 Hh ltac:(done)) as [Hi2 [He2 Hr2]].
    destruct (He2 f me1 Hm1) as (me2 & Hm2 & _ & Hkept & _). destruct (Hkept Hf) as (_ & _ & _ & _ & _ & Hsame). rewrite (Hsame I) in Hm2. clear Hsame Hkept me2.
    assert (Hok : obj_ok True s1 me1) by (by eapply inv_obj). destruct Hok as (_ & _ & HP & _). destruct (HP Hk1) as (j & o & Hj & Ho & _ & _ & _ & Hfo). destruct (Hfo Hf) as [Hfo' _].
    destruct (He2 j o Ho) as (o2 & Ho2 & _ & Hkept & _). destruct (Hkept Hfo') as (_ & _ & _ & _ & _ & Hsame). rewrite (Hsame I) in Ho2. clear Hsame Hkept o2.
    assert (G : forall t, heap t !! f = Some me1 -> reg t (home me1) (o_name me1) = Some j -> heap t !! j = Some o -> get_state f t = (t, match o_aug o with None => Err AssertionError | Some es => Ok (PickPure (o_name me1) (o_src me1) (o_island me1) es (o_strict me1) (o_guards me1)) end)).
    { intros t A B C. unfold Registry.get_state. rewrite (bnd_get _ _ _ _ A), Hk1. unfold bnd at 1. rewrite (complete_unfold normalise names_of builtins ord _ _ _ A), Hk1, Hf. cbn [ret]. unfold ret at 1. rewrite (bnd_get _ _ _ _ A).
      unfold bnd. rewrite (augmented_run _ _ _ _ _ A B C), Hf. by destruct (o_aug o). }
    rewrite (G s1 Hm1 Hj Ho) in Hg. injection Hg as Hg. eexists. rewrite (G (run h s1) Hm2 (Hr2 _ _ _ Hj) Ho2), Hg. done.
  Qed.

  (** C39.  In two sessions - other histories, other portals - in which the function has the same source, island and guards, and in
      which everything it reaches and its guards have the same definitions, the state pickled at the first use is the same.
      (The last hypothesis: no function reached mentions a function that exists in the second session only.) *)
  Theorem C39_same_code_partial : forall s t f g me me' s1 x, plainly_reachable s -> plainly_reachable t -> unused s f me -> unused t g me' ->
    o_src me' = o_src me -> o_name me' = o_name me -> o_island me' = o_island me -> o_guards me' = o_guards me -> o_strict me' = false ->
    (forall j' o', reg t (home me') (o_name me') = Some j' -> heap t !! j' = Some o' -> o_aug o' = None) ->
    (forall n, concerns names_of s me n -> definition_of t (home me') n = definition_of s (home me) n) ->
    (forall n m, rtc (refers names_of s (home me)) (o_name me) n -> refers names_of t (home me') n m -> reg s (home me) m <> None) ->
    get_state f s = (s1, Ok x) -> exists t1, get_state g t = (t1, Ok x).
  Proof.
    intros s t f g me me' s1 x Hs Ht (Hm & Hk & Hf & Hun) (Hm' & Hk' & Hf' & Hun') Esrc En Ei Eg Est Haug Hdef Hcl Hrun.
    pose proof (plainly_inv s Hs) as Hi. pose proof (plainly_inv t Ht) as Hi'. destruct sens as [H1 H2 H3].
    assert (Hok : obj_ok True s me) by (by eapply inv_obj). destruct Hok as (_ & _ & HP & _). destruct (HP Hk) as (j & o & Hj & Ho & Hs' & Hg & Hko & _).
    assert (U : unfinished s f me j o) by (split; try done; by eapply Hun).
    assert (Hok : obj_ok True t me') by (by eapply inv_obj). destruct Hok as (_ & _ & HP' & _). destruct (HP' Hk') as (j' & o' & Hj' & Ho' & Hs'' & Hg' & Hko' & _).
    assert (U' : unfinished t g me' j' o') by (split; try done; by eapply Hun').
    eapply (same_code_same_state normalise names_of name_of builtins ord default_island H1 H2 s f me j o t g me' j' o' s1 x); try done; try (by eapply inv_enrolled); try (by eapply inv_wf). by eapply Haug.
  Qed.

  (** C40.  Restoring, in a session whose island knows none of the functions, succeeds, registers exactly the functions in the state
      with the decorators and sources in it, changes nothing else, and the restored function pickles to the same state.
      Missing: the second to fourth hypotheses - see C40_refuted_* below - and the fresh session being another session. *)
  Theorem C40_restore_partial : forall s f s1 name src isl aug strictly guards t p, plainly_reachable s -> plainly_reachable t ->
    get_state f s = (s1, Ok (PickPure name src isl aug strictly guards)) ->
    (forall a, names_of src = Ok a -> strictly = bool_decide (required_names builtins name a = ∅)) ->
    (forall e, e ∈ aug -> normalise true e.2 = Ok e.2) ->
    (forall i e g, aug !! i = Some e -> g ∈ guards_in e.1 -> g = name \/ exists i' e', i' < i /\ aug !! i' = Some e' /\ name_of e'.2 = Ok g) ->
    (forall n, reg t (p, isl) n = None) ->
    let self := List.length (heap t) in let x := PickPure name src isl aug strictly guards in
    exists t', set_state x p t = (t', Ok self) /\ get_state self t' = (t', Ok x)
      /\ (forall n, reg t' (p, isl) n <> None <-> exists e, e ∈ aug /\ name_of e.2 = Ok n)
      /\ (forall e n, e ∈ aug -> name_of e.2 = Ok n -> exists k, definition_of t' (p, isl) n = Some (k, e.1, e.2))
      /\ (forall k n, k <> (p, isl) -> reg t' k n = reg t k n)
      /\ (forall i o, heap t !! i = Some o -> heap t' !! i = Some o).
  Proof.
    intros s f s1 name src isl aug strictly guards t p Hs Ht Hrun. intros Q1 Q2 Q3 Q4. destruct sens as [H1 H2 H3].
    eapply (restore normalise names_of name_of builtins True ord default_island); try done; by apply plainly_inv.
  Qed.

  (** C69.  A call that goes ahead runs the source registered under the function's name, and every outside name it needs is bound to
      the function registered under that name.
      Missing: sessions in which an AutonomousFn was made from a pure function or a function of another portal, see C69_refuted. *)
  Theorem C69_call_sees_registered_partial : forall s f s1 code env, plainly_reachable s -> prepare f s = (s1, Ok (code, env)) ->
    exists me, heap s1 !! f = Some me /\ code = o_src me /\ source_of s1 (home me) (o_name me) = Some (o_src me)
      /\ forall a m, names_of (o_src me) = Ok a -> m ∈ required_names builtins (o_name me) a -> exists j, reg s1 (home me) m = Some j /\ dict_get m env = Some j.
  Proof.
    intros s f s1 code env Hs Hrun. pose proof (plainly_inv s Hs) as Hi. destruct sens as [H1 H2 H3].
    by eapply (prepare_says normalise names_of name_of builtins True ord default_island H1 H2 H3).
  Qed.

  (** C67.  Calling a function too early - it and its registered twin unused, some function it needs not defined yet - raises
      AssertionError; the only trace is on the object called: its compiled code, and the strictness flag, which becomes true
      exactly if none of the functions it needs is defined yet.
      Missing: that flag is a trace, see C67_refuted below. *)
  Theorem C67_early_call_partial : forall s f me a m, plainly_reachable s -> heap s !! f = Some me -> o_full me = false ->
    (forall j o, reg s (home me) (o_name me) = Some j -> heap s !! j = Some o -> o_full o = false /\ o_src o = o_src me) ->
    reg s (home me) (o_name me) <> None ->
    names_of (o_src me) = Ok a -> m ∈ required_names builtins (o_name me) a -> reg s (home me) m = None ->
    exists s', prepare f s = (s', Err AssertionError) /\ known s' = known s
      /\ (forall i, i <> f -> heap s' !! i = heap s !! i)
      /\ exists b, heap s' !! f = Some (set_place (o_island me) b (set_code (Some (o_src me)) me))
          /\ (b = true <-> o_strict me = true \/ forall m', m' ∈ required_names builtins (o_name me) a -> reg s (home me) m' = None).
  Proof.
    intros s f me a m Hs Hm Hf Hreg Hr Ha Hreq Hno. pose proof (plainly_inv s Hs) as Hi. destruct sens as [H1 H2 H3].
    destruct (reg s (home me) (o_name me)) as [j|] eqn:Ej; [|done]. destruct (inv_enrolled _ _ _ _ _ _ _ Hi _ _ _ Ej) as (o & Ho & _).
    destruct (Hreg _ _ eq_refl Ho) as [Hfo Hso].
    destruct (complete_autonomous normalise names_of builtins ord f s) as [s' r] eqn:E.
    pose proof (complete_aut_run normalise names_of name_of builtins ord H1 H2 s f me s' r (inv_enrolled _ _ _ _ _ _ _ Hi) (inv_wf _ _ _ _ _ _ _ Hi) Hm E) as Hc.
    assert (Hx : exists b, s' = St (<[f := set_place (o_island me) b (set_code (Some (o_src me)) me)]> (heap s)) (known s) /\ r = Err AssertionError
      /\ (b = true <-> o_strict me = true \/ forall m', m' ∈ required_names builtins (o_name me) a -> reg s (home me) m' = None)).
    { destruct Hc as [Hc|_ Hc|j1 o1 _ Hj1 Ho1 Hc|j1 o1 _ _ Hj1 Ho1 _ Hc|j1 o1 _ _ Hj1 Ho1 _ Hc|j1 o1 a1 b _ Hj1 Ho1 _ _ Ha1 Hq Hmiss Hb1 Hb2|j1 o1 a1 D _ Hj1 Ho1 _ _ Ha1 Hc]; try congruence.
      - exists b. split; [done|]. split; [done|]. rewrite Ha in Ha1. injection Ha1 as <-. destruct (o_strict me).
        + split; [by left|]. intros _. by apply Hb1.
        + rewrite (Hb2 eq_refl). split; [by right|]. by intros [?|?].
      - rewrite Ha in Ha1. injection Ha1 as <-. by destruct (Hc m Hreq). }
    destruct Hx as (b & -> & -> & Hb). eexists. split; [|split; [|split]].
    - unfold Registry.prepare, bnd at 1. rewrite (complete_unfold normalise names_of builtins ord _ _ _ Hm). destruct (o_kind me); [by rewrite E|]. rewrite Hf. unfold bnd at 1. by rewrite E.
    - done.
    - intros i Hne. cbn. by rewrite list_lookup_insert_ne.
    - exists b. split; [|done]. cbn. apply list_lookup_insert. by eapply lookup_lt_Some.
  Qed.
  (** C67.  Calling a function that has been used through the same object before changes nothing at all, whatever the outcome. *)
  Theorem C67_used_call_partial : forall s f me s' r, heap s !! f = Some me -> o_full me = true -> prepare f s = (s', r) -> s' = s.
  Proof.
    intros s f me s' r Hm Hf. unfold Registry.prepare, bnd at 1. rewrite (complete_unfold normalise names_of builtins ord _ _ _ Hm).
    assert (E : complete_autonomous normalise names_of builtins ord f s = (s, Ok tt)). { unfold complete_autonomous. rewrite (bnd_get _ _ _ _ Hm), Hf. done. }
    destruct (o_kind me); [rewrite E|rewrite Hf]; match goal with |- ?m s = _ -> _ => assert (Hrd : reader m) by rd end; intros Hx; by apply Hrd in Hx.
  Qed.

  (** C68.  Wrapping a function object in AutonomousFn(...) or PureFn(...) changes no existing object and no existing registration.
      Missing: using the wrapper may break the wrapped function, see C68_refuted below. *)
  Theorem C68_wrapping_partial : forall s k f isl gs p s' r, reachable s -> step (Wrap k f isl gs p) s = (s', r) ->
    (forall i o, heap s !! i = Some o -> heap s' !! i = Some o) /\ (forall K n j, reg s K n = Some j -> reg s' K n = Some j)
    /\ (forall K n, K <> (p, iod isl p) -> reg s' K n = reg s K n).
  Proof.
    intros s k f isl gs p s' r Hs. cbn [Registry.step]. unfold bnd at 1. destruct (wrap_fn normalise names_of default_island k f isl gs p s) as [s2 r2] eqn:E. intros Hr.
    assert (s' = s2) as -> by (by destruct r2; injection Hr). pose proof (reachable_inv s Hs) as Hi.
    destruct (wrap_fn_ok normalise names_of name_of builtins False default_island s k f isl gs p s2 r2 Hi ltac:(done) E) as [[(_ & _ & (B1 & B2 & B3))| ->] Ho]; [|done].
    split; [|done]. intros i o Hio. assert (i < List.length (heap s)) by (by eapply lookup_lt_Some). rewrite B1 by lia. cbn. by rewrite lookup_app_l.
  Qed.
End Registry.
Print Assumptions C37_definition.
Print Assumptions C37_never_replaced.
Print Assumptions C37_islands_apart.
Print Assumptions C38_redecorate_partial.
Print Assumptions C39_contents_partial.
Print Assumptions C39_stable_partial.
Print Assumptions C39_same_code_partial.
Print Assumptions C40_restore_partial.
Print Assumptions C69_call_sees_registered_partial.
Print Assumptions C67_early_call_partial.
Print Assumptions C67_used_call_partial.
Print Assumptions C68_wrapping_partial.
