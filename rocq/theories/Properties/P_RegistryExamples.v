(** Registration: concrete sessions.  They refute the parts of C38, C39, C40, C67, C68 that the code does not deliver, and meet the
    hypotheses of the theorems in P_Registry.v. *)
From Coq Require Import String.
From stdpp Require Import gmap.
From Verif Require Import Lib.Py Model.PyAst Model.NamesAnalyzer Model.Registry.
From Verif.Spec Require Import RegistrySpec.
From Verif.Proofs Require Import NamesFunctionP.
From Verif.Properties Require Import P_Registry.
Local Open Scope nat_scope.

(** The analyzer of NamesAnalyzer.v satisfies what P_Registry.v assumes, whatever the parser, as long as the name of a function is the
    one in its tree and the empty text is not a function. *)
Section Trees.
  Variable parse : string -> option node.
  Definition tree_names (src : string) : res ana := match parse src with Some t => analyze t | None => Err SyntaxError end.
  Definition tree_name (src : string) : res string :=
    match parse src with Some (Node LModule [[Node (LFunctionDef false name) _]]) => Ok name | _ => Err SyntaxError end.
  Theorem sensible_trees : forall normalise ord, (forall src t, parse src = Some t -> wf t = true) -> (forall n fs, parse "" <> Some (Node LModule [[Node (LFunctionDef false n) fs]])) ->
    (forall t X, ord t X ≡ₚ elements X) -> sensible normalise tree_names tree_name ord.
  Proof.
    intros normalise ord Hwf Hno Hord. split; [done| |].
    - intros src n a _. unfold tree_name, tree_names. destruct (parse src) as [t|] eqn:Ep; [|done]. pose proof (Hwf _ _ Ep) as Hw.
      destruct t as [[] fs]; try done. destruct fs as [|[|[lf ff] [|? ?]] [|? ?]]; try (by destruct lf as [|[]| | | | | | | | | | | | | | | | | | | | | | | | | | |]); try done.
      destruct lf as [|[]| | | | | | | | | | | | | | | | | | | | | | | | | | |]; try done. intros [= <-] Ha. by eapply analyze_function.
    - intros n. unfold tree_name. destruct (parse "") as [t|] eqn:Ep; [|done]. destruct t as [[] fs]; try done.
      destruct fs as [|[|[lf ff] [|? ?]] [|? ?]]; try (by destruct lf as [|[]| | | | | | | | | | | | | | | | | | | | | | | | | | |]); try done.
      destruct lf as [|[]| | | | | | | | | | | | | | | | | | | | | | | | | | |]; try done. by destruct (Hno name ff).
  Qed.
End Trees.
Print Assumptions sensible_trees.

(** ** A small world: the functions of the examples, with the names they mention *)
Definition ex (name : string) (refs : list string) : ana := Ana (Some name) ∅ ∅ ∅ ∅ (list_to_set refs) ∅ 0 0 false.
Definition table : list (string * ana) :=
  [ ("def h(): return 1", ex "h" []); ("def f(): return h()", ex "f" ["h"]); ("def p(): return 1", ex "p" []);
    ("def g(): return None", ex "g" []); ("def c(): return k()", ex "c" ["k"]); ("def k(): return 0", ex "k" []); ("def a(): return p()", ex "a" ["p"]);
    ("def f(): return 1", ex "f" []); ("def b(): return f()", ex "b" ["f"]); ("def f(): return 2", ex "f" []) ]%string.
Definition norm (_ : bool) (s : string) : res string := Ok s.
Definition nms (s : string) : res ana := match dict_get s table with Some a => Ok a | None => Err SyntaxError end.
Definition nmo (s : string) : res string := match dict_get s table with Some a => match a_function a with Some f => Ok f | _ => Err SyntaxError end | None => Err SyntaxError end.
Definition ordr (_ : nat) (X : gset string) := elements X.
Definition dflt (_ : nat) : string := "Samos".
Notation STEP := (step norm nms nmo ∅ ordr dflt).
Notation RUN h := (run norm nms nmo ∅ ordr dflt h (session dflt [0])).
Notation STATE i := (get_state norm nms ∅ ordr i).
Notation CALL i := (prepare norm nms ∅ ordr i).
Notation RESTORE x := (set_state norm nms nmo ∅ ordr dflt x 0).
Notation REACHABLE := (reachable norm nms nmo ∅ ordr dflt).
Notation PLAIN := (plainly_reachable norm nms nmo ∅ ordr dflt).
Definition autonomous (src : string) : op := Decorate Aut src None false None 0.
Definition strict (src : string) : op := Decorate Aut src None true None 0.
Definition pure (src : string) (guards : option (list guard_arg)) : op := Decorate Pure src None false guards 0.

Lemma world_sensible : sensible norm nms nmo ordr.
Proof.
  split; [done| |by vm_compute].
  intros src n a _. unfold nmo, nms. destruct (dict_get src table) as [x|]; [|done]. destruct (a_function x) eqn:E; [|done]. by intros [= ->] [= <-].
Qed.
Lemma plain_run h : (forall o, o ∈ h -> match o with Decorate _ _ _ _ _ _ | Call _ | Pickle _ => True | _ => False end) -> PLAIN (RUN h).
Proof.
  intros H. exists [0], h. split; [|split; [|done]].
  - apply Forall_forall. intros o Ho. specialize (H o Ho). by destruct o.
  - generalize (session dflt [0]). induction h as [|o h IH]; intros s; [done|]. cbn. split.
    + specialize (H o ltac:(left)). by destruct o.
    + apply IH. intros o' Ho'. apply H. by right.
Qed.
Ltac plain := apply plain_run; intros o Ho; repeat (apply elem_of_cons in Ho as [->|Ho]; [exact I|]); by inversion Ho.
Lemma plain_reachable s : PLAIN s -> REACHABLE s.
Proof. intros (ps & h & H1 & _ & H2). by exists ps, h. Qed.

(** C37: defining another function under the name raises; the same definition again succeeds; other islands are apart *)
Example C37_ex_other : (STEP (pure "def f(): return 1" None) (RUN [pure "def f(): return h()" None])).2 = Err AssertionError.
Proof. by vm_compute. Qed.
Example C37_ex_same : (STEP (pure "def f(): return h()" None) (RUN [pure "def f(): return h()" None])).2 = Ok tt.
Proof. by vm_compute. Qed.
Example C37_ex_kind : (STEP (autonomous "def f(): return h()") (RUN [pure "def f(): return h()" None])).2 = Err AssertionError.
Proof. by vm_compute. Qed.
Example C37_ex_island : (STEP (Decorate Pure "def f(): return 1" (Some "Delos"%string) false None 0) (RUN [pure "def f(): return h()" None])).2 = Ok tt.
Proof. by vm_compute. Qed.
Example C37_ex_reachable : REACHABLE (RUN [pure "def f(): return h()" None; autonomous "def h(): return 1"; Call 0]).
Proof. apply plain_reachable. plain. Qed.

(** C38 refuted: (1) an autonomous function that needs nothing cannot be decorated again after its first call; (2) of two objects for one
    pure function, the second cannot be called once the first has been; (3) of two objects for one autonomous function, the
    first cannot be called once the second has been; (4) two objects for one pure function can pickle to different states, hence give
    different addresses. *)
Theorem C38_refuted :
  (exists src, (STEP (autonomous src) (RUN [autonomous src])).2 = Ok tt /\ (STEP (autonomous src) (RUN [autonomous src; Call 0])).2 = Err AssertionError)
  /\ (exists src, (CALL 1 (RUN [pure src None; pure src None])).2 <> Err AttributeError /\ (CALL 1 (RUN [pure src None; pure src None; Call 0])).2 = Err AttributeError)
  /\ (exists src, (CALL 0 (RUN [autonomous src; autonomous src])).2 <> Err AttributeError /\ (CALL 0 (RUN [autonomous src; autonomous src; Call 1])).2 = Err AttributeError)
  /\ (exists src x y, let s := RUN [pure src None; pure src None; Pickle 1] in (STATE 0 s).2 = Ok x /\ (STATE 1 s).2 = Ok y /\ x <> y).
Proof.
  split; [|split; [|split]].
  - exists "def h(): return 1"%string. by vm_compute.
  - exists "def p(): return 1"%string. by vm_compute.
  - exists "def h(): return 1"%string. by vm_compute.
  - exists "def p(): return 1"%string, (PickPure "p" "def p(): return 1" "Samos" [(DPure "Samos" None, "def p(): return 1")] false None)%string,
      (PickPure "p" "def p(): return 1" "Samos" [(DPure "Samos" None, "def p(): return 1")] true None)%string. by vm_compute.
Qed.
Print Assumptions C38_refuted.
(** the hypotheses of C38_redecorate_partial: a pure function, decorated again before and after its first use *)
Example C38_ex : exists s', new_fn norm nms nmo dflt Pure "def p(): return 1" None false None 0 (RUN [pure "def p(): return 1" None; Call 0]) = (s', Ok 1)
  /\ forall x, (STATE 1 s').2 = Ok x <-> (STATE 0 s').2 = Ok x.
Proof.
  destruct (C38_redecorate_partial norm nms nmo ∅ ordr dflt world_sensible (RUN [pure "def p(): return 1" None; Call 0]) Pure "def p(): return 1" None false None 0 "p" 0
    (FnObj Pure 0 "def p(): return 1" "p" "Samos" true true (Some "def p(): return 1") (Some ["p"]) None (Some [(DPure "Samos" None, "def p(): return 1")]))%string) as (s' & E & _ & _ & H).
  - apply plain_reachable. plain.
  - by vm_compute.
  - by vm_compute.
  - done.
  - done.
  - done.
  - done.
  - intros _. split; by eexists.
  - exists s'. split; [exact E|exact H].
Qed.

(** C39 refuted: (1) the state of a pure function depends on whether its helper was called before; (2) a state taken before a helper of a
    helper is defined lacks its code, for good. *)
Theorem C39_refuted :
  (exists h f x y, (STATE 1 (RUN [autonomous h; pure f None])).2 = Ok x /\ (STATE 1 (RUN [autonomous h; pure f None; Call 0])).2 = Ok y /\ x <> y)
  /\ (exists b f h x y, (STATE 1 (RUN [autonomous f; pure b None; autonomous h])).2 = Ok x /\ (STATE 1 (RUN [autonomous f; pure b None; Pickle 1; autonomous h])).2 = Ok y /\ x <> y).
Proof.
  split.
  - exists "def h(): return 1"%string, "def f(): return h()"%string.
    exists (PickPure "f" "def f(): return h()" "Samos" [(DPure "Samos" None, "def f(): return h()"); (DAut false "Samos", "def h(): return 1")] false None)%string,
      (PickPure "f" "def f(): return h()" "Samos" [(DPure "Samos" None, "def f(): return h()"); (DAut true "Samos", "def h(): return 1")] false None)%string. by vm_compute.
  - exists "def b(): return f()"%string, "def f(): return h()"%string, "def h(): return 1"%string.
    exists (PickPure "b" "def b(): return f()" "Samos" [(DPure "Samos" None, "def b(): return f()"); (DAut false "Samos", "def f(): return h()"); (DAut false "Samos", "def h(): return 1")] false None)%string,
      (PickPure "b" "def b(): return f()" "Samos" [(DPure "Samos" None, "def b(): return f()"); (DAut false "Samos", "def f(): return h()")] false None)%string. by vm_compute.
Qed.
Print Assumptions C39_refuted.
Definition session1 : st := RUN [autonomous "def f(): return h()"; pure "def b(): return f()" None; autonomous "def h(): return 1"].
Definition session2 : st := RUN [autonomous "def h(): return 1"; pure "def p(): return 1" None; Call 1; pure "def b(): return f()" None; autonomous "def f(): return h()"].
Definition b_object : fnobj := FnObj Pure 0 "def b(): return f()" "b" "Samos" false false None None None None.
Example C39_ex_unused : PLAIN session1 /\ unused session1 1 b_object.
Proof.
  split; [plain|]. split; [by vm_compute|]. split; [done|]. split; [done|]. intros j o Hj. assert (j = 1) as ->; [by vm_compute in Hj; injection Hj|].
  intros Ho. vm_compute in Ho. by injection Ho as <-.
Qed.
(** the same function, defined in another order among other functions, pickles to the same state *)
Example C39_ex_same : exists x, (STATE 1 session1).2 = Ok x /\ (STATE 2 session2).2 = Ok x.
Proof.
  exists (PickPure "b" "def b(): return f()" "Samos" [(DPure "Samos" None, "def b(): return f()"); (DAut false "Samos", "def f(): return h()"); (DAut false "Samos", "def h(): return 1")] false None)%string.
  by vm_compute.
Qed.

(** C40 refuted: a state taken in one session cannot be restored in a fresh one, or does not work there, or changes:
    (1) a guard whose name sorts after the function's; (2) a helper that is a pure function with a guard of its own;
    (3) a guard given by name that uses a helper: restored, but without the helper; (4) the state of an object completed through
    another one: restored, it pickles to another state. *)
Theorem C40_refuted_guard_after : exists g f x, (STATE 1 (RUN [strict g; pure f (Some [GFn 0])])).2 = Ok x /\ (RESTORE x (RUN [])).2 = Err AssertionError.
Proof.
  exists "def g(): return None"%string, "def f(): return 1"%string.
  exists (PickPure "f" "def f(): return 1" "Samos" [(DPure "Samos" (Some ["g"]), "def f(): return 1"); (DAut true "Samos", "def g(): return None")] true (Some ["g"]))%string. by vm_compute.
Qed.
Theorem C40_refuted_guarded_helper : exists g p a x, (STATE 2 (RUN [strict g; pure p (Some [GFn 0]); pure a None])).2 = Ok x /\ (RESTORE x (RUN [])).2 = Err AssertionError.
Proof.
  exists "def g(): return None"%string, "def p(): return 1"%string, "def a(): return p()"%string.
  exists (PickPure "a" "def a(): return p()" "Samos" [(DPure "Samos" None, "def a(): return p()"); (DPure "Samos" (Some ["g"]), "def p(): return 1")] false None)%string. by vm_compute.
Qed.
Theorem C40_refuted_guard_helper : exists c k f x t, (STATE 2 (RUN [autonomous c; autonomous k; pure f (Some [GName "c"])])).2 = Ok x
  /\ (CALL 0 (RUN [autonomous c; autonomous k; pure f (Some [GName "c"])])).2 <> Err AssertionError
  /\ RESTORE x (RUN []) = (t, Ok 0) /\ reg t (0, "Samos"%string) "c" = Some 1 /\ (CALL 1 t).2 = Err AssertionError.
Proof.
  exists "def c(): return k()"%string, "def k(): return 0"%string, "def f(): return 1"%string.
  exists (PickPure "f" "def f(): return 1" "Samos" [(DAut false "Samos", "def c(): return k()"); (DPure "Samos" (Some ["c"]), "def f(): return 1")] true (Some ["c"]))%string.
  exists (fst (RESTORE (PickPure "f" "def f(): return 1" "Samos" [(DAut false "Samos", "def c(): return k()"); (DPure "Samos" (Some ["c"]), "def f(): return 1")] true (Some ["c"])) (RUN [])))%string.
  by vm_compute.
Qed.
Theorem C40_refuted_other_state : exists p x t y, (STATE 0 (RUN [pure p None; pure p None; Pickle 1])).2 = Ok x /\ RESTORE x (RUN []) = (t, Ok 0) /\ (STATE 0 t).2 = Ok y /\ x <> y.
Proof.
  exists "def p(): return 1"%string, (PickPure "p" "def p(): return 1" "Samos" [(DPure "Samos" None, "def p(): return 1")] false None)%string.
  exists (fst (RESTORE (PickPure "p" "def p(): return 1" "Samos" [(DPure "Samos" None, "def p(): return 1")] false None) (RUN [])))%string.
  exists (PickPure "p" "def p(): return 1" "Samos" [(DPure "Samos" None, "def p(): return 1")] true None)%string. by vm_compute.
Qed.
Print Assumptions C40_refuted_guard_after.
Print Assumptions C40_refuted_guarded_helper.
Print Assumptions C40_refuted_guard_helper.
Print Assumptions C40_refuted_other_state.
(** the hypotheses of C40_restore_partial: a pure function with a helper and a guard, restored in a session with other functions *)
Example C40_ex : exists x s1 t', STATE 3 (RUN [strict "def g(): return None"; autonomous "def h(): return 1"; pure "def p(): return 1" None; pure "def k(): return 0" (Some [GFn 0])]) = (s1, Ok x)
  /\ RESTORE x (RUN [Decorate Pure "def f(): return 1" (Some "Delos"%string) false None 0]) = (t', Ok 1) /\ STATE 1 t' = (t', Ok x).
Proof.
  set (x := (PickPure "k" "def k(): return 0" "Samos" [(DAut true "Samos", "def g(): return None"); (DPure "Samos" (Some ["g"]), "def k(): return 0")] true (Some ["g"]))%string).
  set (s := RUN [strict "def g(): return None"; autonomous "def h(): return 1"; pure "def p(): return 1" None; pure "def k(): return 0" (Some [GFn 0])]).
  set (t := RUN [Decorate Pure "def f(): return 1" (Some "Delos"%string) false None 0]).
  assert (E : STATE 3 s = (fst (STATE 3 s), Ok x)) by (by vm_compute).
  destruct (C40_restore_partial norm nms nmo ∅ ordr dflt world_sensible s 3 (fst (STATE 3 s)) "k" "def k(): return 0" "Samos"
    [(DAut true "Samos", "def g(): return None"); (DPure "Samos" (Some ["g"]), "def k(): return 0")]%string true (Some ["g"%string]) t 0) as (t' & A & B & _).
  - plain.
  - plain.
  - exact E.
  - intros a Ha. vm_compute in Ha. injection Ha as <-. symmetry. apply bool_decide_eq_true_2. eapply bool_decide_eq_true_1. by vm_compute.
  - done.
  - intros i e g Hi Hg. destruct i as [|[|i]]; [|injection Hi as <-|done].
    + injection Hi as <-. by inversion Hg.
    + cbn in Hg. apply elem_of_list_singleton in Hg as ->. right. exists 0, (DAut true "Samos", "def g(): return None")%string. split; [lia|]. split; [reflexivity|]. cbn [snd]. clear. reflexivity.
  - intros n. assert (Ek : dict_get (0, "Samos"%string) (known t) = Some []) by (vm_compute; reflexivity). unfold reg. rewrite Ek. reflexivity.
  - exists x, (fst (STATE 3 s)), t'. split; [exact E|]. split; [exact A|exact B].
Qed.

(** C67 refuted: a call made before a helper is defined makes the function unusable for good, even once the helper is defined *)
Theorem C67_refuted : exists f h, (exists r, (CALL 0 (RUN [pure f None; autonomous h])).2 = Ok r) /\ (CALL 0 (RUN [pure f None; Call 0; autonomous h])).2 = Err AssertionError.
Proof. exists "def f(): return h()"%string, "def h(): return 1"%string. split; [|by vm_compute]. exists ("def f(): return h()", [("f", 0); ("self", 0); ("h", 1)])%string. by vm_compute. Qed.
Print Assumptions C67_refuted.
(** the hypotheses of C67_early_call_partial *)
Example C67_ex : exists s', CALL 0 (RUN [pure "def f(): return h()" None]) = (s', Err AssertionError)
  /\ heap s' !! 0 = Some (FnObj Pure 0 "def f(): return h()" "f" "Samos" true false (Some "def f(): return h()") None None None)%string.
Proof.
  set (s := RUN [pure "def f(): return h()" None]). set (me := (FnObj Pure 0 "def f(): return h()" "f" "Samos" false false None None None None)%string).
  destruct (C67_early_call_partial norm nms nmo ∅ ordr dflt world_sensible s 0 me (ex "f" ["h"]) "h") as (s' & A & _ & _ & b & B & C).
  - plain.
  - by vm_compute.
  - done.
  - intros j o Hj. assert (j = 0) as ->; [by vm_compute in Hj; injection Hj|]. intros Ho. vm_compute in Ho. injection Ho as <-. split; reflexivity.
  - vm_compute; discriminate.
  - vm_compute; reflexivity.
  - eapply bool_decide_eq_true_1. vm_compute; reflexivity.
  - vm_compute; reflexivity.
  - exists s'. split; [exact A|]. rewrite B. assert (b = true) as ->; [|done]. apply C. right. intros m Hm.
    assert (Hq : required_names ∅ (o_name me) (ex "f" ["h"]) = {["h"%string]}) by (eapply bool_decide_eq_true_1; by vm_compute).
    rewrite Hq in Hm. apply elem_of_singleton in Hm as ->. by vm_compute.
Qed.

(** C68 refuted: using an AutonomousFn made from a pure function makes that pure function unusable *)
Theorem C68_refuted : exists p, (exists r, (CALL 0 (RUN [pure p None; Wrap Aut 0 None None 0])).2 = Ok r) /\ (CALL 0 (RUN [pure p None; Wrap Aut 0 None None 0; Call 1])).2 = Err AttributeError
  /\ (STATE 0 (RUN [pure p None; Wrap Aut 0 None None 0; Call 1])).2 = Err AssertionError.
Proof. exists "def p(): return 1"%string. split; [|by vm_compute]. exists ("def p(): return 1", [("p", 0); ("self", 0)])%string. by vm_compute. Qed.
Print Assumptions C68_refuted.

(** C69: a call that goes ahead *)
Example C69_ex : PLAIN session1 /\ (CALL 1 session1).2 = Ok ("def b(): return f()", [("b", 1); ("self", 1); ("f", 0); ("h", 2)])%string.
Proof. split; [plain|by vm_compute]. Qed.
(** C69 refuted: an AutonomousFn made, in another portal, from a function already used keeps its own code, although that portal's island
    has another function under the name *)
Theorem C69_refuted : exists f f' env, f <> f' /\
  let s := RUN [autonomous f; Call 0; Decorate Aut f' None false None 1; Call 1; Wrap Aut 0 None None 1] in
  (CALL 2 s).2 = Ok (f, env) /\ (exists me, heap s !! 2 = Some me /\ source_of s (home me) (o_name me) = Some f').
Proof.
  exists "def f(): return 1"%string, "def f(): return 2"%string, [("f", 1); ("self", 2)]%string. split; [done|]. cbn zeta. split; [by vm_compute|].
  exists (FnObj Aut 1 "def f(): return 1" "f" "Samos" true true (Some "def f(): return 1") (Some ["f"]) None None)%string. by vm_compute.
Qed.
Print Assumptions C69_refuted.
