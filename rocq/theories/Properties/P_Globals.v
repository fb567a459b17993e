(** C133: calls share no variables. *)
From Coq Require Import String.
From stdpp Require Import gmap.
From Verif Require Import Lib.Py Model.PyAst Model.Normalizer Model.NamesAnalyzer Spec.Scoping Proofs.PyAstP Properties.P_Normalizer Properties.P_NamesAnalyzer
  Model.Globals Spec.GlobalsSpec Proofs.GlobalsP.
Local Open Scope nat_scope.
Local Open Scope string_scope.

(** After any script: the globals of the library are what they were, and those of the script are what the script itself assigned.
    This holds for all functions, whatever global names they assign or delete. *)
Theorem C133_globals_untouched : forall (builtins : gmap string val) (fs : gmap string fn) (n : nat) (ops : list step) (m m' : memory),
  2 <= length (dicts m) -> script builtins fs n m ops = Some m' ->
  dict_at m' 0 = dict_at m 0 /\ dict_at m' 1 = assigned ops (dict_at m 1).
Proof.
  intros * Hl E. apply script_dicts in E; [|done]. destruct E as (E0 & E1 & _). split; [|done]. unfold dict_at. by rewrite E0.
Qed.
Print Assumptions C133_globals_untouched.

(** One call: no dictionary that existed before is changed - not even those of the calls that are under way. *)
Theorem C133_calls_in_progress_untouched : forall (builtins : gmap string val) (fs : gmap string fn) (n : nat) (m m' : memory) (f : string) (arg : Z) (o : outcome) (l : nat),
  exec builtins fs n m f arg = Some (m', o) -> l < length (dicts m) -> dicts m' !! l = dicts m !! l.
Proof. intros * E Hl. apply exec_keeps in E as [_ K]. by apply K. Qed.
Print Assumptions C133_calls_in_progress_untouched.

(** The answer (and whether there is one) depends on the globals of the library and on attributes of lasting objects, and on no other variable. *)
Theorem C133_what_an_answer_depends_on : forall (builtins : gmap string val) (fs : gmap string fn) (n : nat) (m1 m2 : memory) (f : string) (arg : Z),
  0 < length (dicts m1) -> 0 < length (dicts m2) -> dict_at m1 0 = dict_at m2 0 -> attrs m1 = attrs m2 ->
  answer (exec builtins fs n m1 f arg) = answer (exec builtins fs n m2 f arg).
Proof.
  intros * L1 L2 E0 Ea. assert (S : similar m1 m2).
  { split; [|done]. unfold dict_at in E0. destruct (dicts m1) as [|d1 r1], (dicts m2) as [|d2 r2]; simpl in *; try lia. by subst. }
  pose proof (exec_alike builtins fs n m1 m2 f arg S) as H. unfold agree in H.
  destruct (exec _ _ _ m1 _ _) as [[? ?]|], (exec _ _ _ m2 _ _) as [[? ?]|]; try done. simpl. destruct H as [-> _]. done.
Qed.
Print Assumptions C133_what_an_answer_depends_on.

(** So a call gives the same answer after any two scripts - if no function sets attributes of objects that outlive the call. *)
Theorem C133_same_answer_after_any_history_partial : forall (builtins : gmap string val) (fs : gmap string fn) (n1 n2 n : nat) (ops1 ops2 : list step) (m m1 m2 : memory) (f : string) (arg : Z),
  all_sealed fs -> 2 <= length (dicts m) -> script builtins fs n1 m ops1 = Some m1 -> script builtins fs n2 m ops2 = Some m2 ->
  answer (exec builtins fs n m1 f arg) = answer (exec builtins fs n m2 f arg).
Proof.
  intros * Hs Hl E1 E2. pose proof (script_attrs _ _ Hs _ _ _ _ E1) as A1. pose proof (script_attrs _ _ Hs _ _ _ _ E2) as A2.
  apply script_dicts in E1 as (D1 & _ & L1); [|done]. apply script_dicts in E2 as (D2 & _ & L2); [|done].
  apply C133_what_an_answer_depends_on; [lia|lia| |congruence]. unfold dict_at. by rewrite D1, D2.
Qed.
Print Assumptions C133_same_answer_after_any_history_partial.

(** Functions that assign no globals, use no attributes and look up only their helpers, themselves and built-ins give decorated
    the answers they give undecorated, in a script in which the helpers have their own names (and a call ends decorated exactly
    if it ends undecorated). *)
Theorem C133_same_as_undecorated : forall (builtins : gmap string val) (fs : gmap string fn) (m : memory), 2 <= length (dicts m) ->
  (forall f F arg, fs !! f = Some F -> modest (plain_name (dict_at m 1) (dict_at m 0) f (deps F)) (code F arg)) ->
  forall (n : nat) (f : string) (arg : Z), answer (exec builtins fs n m f arg) = answer (python builtins fs n m f arg).
Proof.
  intros builtins fs m Hl Hm n f arg. pose proof (exec_python builtins fs n _ _ Hm m m f arg eq_refl ltac:(lia) eq_refl) as H.
  destruct (exec _ _ _ _ _ _) as [[? ?]|], (python _ _ _ _ _ _) as [[? ?]|]; try done. by destruct H as [-> _].
Qed.
Print Assumptions C133_same_as_undecorated.

(** The full claim is false: the function object itself, self, is open to autonomous functions and outlives the call.
    def f():
        self.n = getattr(self, "n", 0) + 1
        return self.n *)
Definition counting : body := Load "self" (fun s => GetAttr s "n" (fun o => Load "self" (fun s => SetAttr s "n" (default 0 o + 1)%Z
  (Load "self" (fun s => GetAttr s "n" (fun o => Return (default 0%Z o))))))).
Definition selfn : node := Node (LAttribute "n") [[sload "self"]].
Definition counting_source : node := sfun "f" []
  [Node (LOther "Assign") [[selfn]; [Node (LOther "BinOp") [[scall (sload "getattr") [sload "self"; Node (LStr "n") []; sconst]]; [sconst]]]]; sret selfn] [] [].
Definition empty_memory : memory := Memory [∅; ∅] ∅.
Theorem C133_self_refuted :
  (exists s, analyze (Node LModule [[counting_source]]) = Ok s /\ begin_check s = Ok tt /\ complete_check {["getattr"]} true ∅ "f" s = Ok true) /\
  let fs : gmap string fn := {["f" := Fn ["f"] (fun _ => counting)]} in
  exists m1, script ∅ fs 1 empty_memory [CallFn "f" 0] = Some m1 /\
    answer (exec ∅ fs 1 empty_memory "f" 0) = Some (Done 1) /\ answer (exec ∅ fs 1 m1 "f" 0) = Some (Done 2).
Proof.
  split.
  - destruct (runs (fun s => begins s && completes {["getattr"]} true ∅ "f" true s) counting_source) as (s & Hs & H); [bq|].
    apply andb_true_iff in H as [H1 H2]. exists s. split; [done|]. split; [by apply begins_ok|by apply completes_ok].
  - eexists. split; [vm_compute; reflexivity|]. split; vm_compute; reflexivity.
Qed.
Print Assumptions C133_self_refuted.

(** A function with helpers that meets the hypotheses of C133_same_as_undecorated, and calls with answers.
    def g(x): return h(x - 1) if x > 0 else abs     def h(x): return g(x - 1) if x > 0 else 7 *)
Definition ping (other : string) (x : Z) : body := if (x <=? 0)%Z then Return 7 else Load other (fun h => Call h (x - 1) (fun o => match o with Done z => Return (z + 1) | Failed e => Raise e end)).
Definition pingpong : gmap string fn := <["g" := Fn ["g"; "h"] (ping "h")]> {["h" := Fn ["g"; "h"] (ping "g")]}.
Definition two_functions : memory := Memory [{["sys" := VObj "sys"]}; <["g" := VFn "g"]> {["h" := VFn "h"]}] ∅.
Example C133_hypotheses_met : 2 <= length (dicts two_functions) /\ all_sealed pingpong /\
  (forall f F arg, pingpong !! f = Some F -> modest (plain_name (dict_at two_functions 1) (dict_at two_functions 0) f (deps F)) (code F arg)) /\
  answer (exec ∅ pingpong 9 two_functions "g" 5) = Some (Done 12) /\ answer (python ∅ pingpong 9 two_functions "g" 5) = Some (Done 12).
Proof.
  assert (C : forall f F, pingpong !! f = Some F -> F = Fn ["g"; "h"] (ping "h") \/ F = Fn ["g"; "h"] (ping "g")).
  { intros f F H. unfold pingpong in H. apply lookup_insert_Some in H as [[_ <-]|[_ H]]; [by left|]. apply lookup_singleton_Some in H as [_ <-]. by right. }
  split; [simpl; lia|]. split; [|split].
  - intros f F arg H. destruct (C f F H) as [->| ->]; simpl; unfold ping; destruct (arg <=? 0)%Z; constructor; intros v; constructor; intros [z|e]; constructor.
  - intros f F arg H. destruct (C f F H) as [->| ->]; simpl; unfold ping; destruct (arg <=? 0)%Z; constructor;
      [left; split; [bq|left; set_solver]|intros v; constructor; intros [z|e]; constructor|left; split; [bq|left; set_solver]|intros v; constructor; intros [z|e]; constructor].
  - split; vm_compute; reflexivity.
Qed.
Print Assumptions C133_hypotheses_met.

(** With global assignments decorated and undecorated functions differ: the recursive call does not see the assignment.
    def f(x):
        global acc
        if x == 0: return acc
        acc = x
        return f(x=0) *)
Definition remembering (x : Z) : body := if (x =? 0)%Z then Load "acc" (fun v => match v with VNum z => Return z | _ => Return 0 end)
  else Store "acc" (VNum x) (Load "f" (fun f => Call f 0 (fun o => match o with Done z => Return z | Failed e => Raise e end))).
Example C133_differs_from_python : let fs : gmap string fn := {["f" := Fn [] remembering]} in let m := Memory [∅; {["f" := VFn "f"]}] ∅ in
  answer (exec ∅ fs 3 m "f" 5) = Some (Failed "NameError") /\ answer (python ∅ fs 3 m "f" 5) = Some (Done 5) /\
  (exists m', exec ∅ fs 3 m "f" 5 = Some (m', Failed "NameError") /\ dict_at m' 1 = dict_at m 1 /\ dict_at m' 2 !! "acc" = Some (VNum 5)).
Proof. split; [vm_compute; reflexivity|]. split; [vm_compute; reflexivity|]. eexists. split; [vm_compute; reflexivity|]. split; vm_compute; reflexivity. Qed.
Print Assumptions C133_differs_from_python.
