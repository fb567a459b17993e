(** C134: different values with the same address text. Nothing is assumed of [text_of] here. *)
From stdpp Require Import gmap.
From Verif Require Import Lib.Py Model.Collisions Spec.CollisionsSpec Proofs.CollisionsP.
Local Open Scope nat_scope.

(** If all comparisons are made, a call that answers gives the answer of its own function for its own argument, whatever coincides. *)
Theorem C134_checked_calls_are_right_partial : forall A V F (eqA : EqDecision A) (eqV : EqDecision V) (eqF : EqDecision F)
  (text_of : item A V F -> A) (run_body : F -> V -> V) (ops : list (step A V F)) (d : draws) (f : F) (v r : V), checked ops -> compares d ->
  snd (call text_of run_body d f v (run text_of run_body empty ops)) = Ok r -> r = run_body f v.
Proof.
  intros * C Cd E. pose proof (call_checked text_of run_body d f v _ Cd (run_truthful text_of run_body ops _ C (empty_truthful text_of run_body))) as H.
  destruct (call _ _ _ _ _ _) as [w' [r'|e]]; [|done]. simpl in E. injection E as ->. apply H.
Qed.
Print Assumptions C134_checked_calls_are_right_partial.

(** From then on its result address gives that answer in all processes - even if they make no comparisons. *)
Theorem C134_answers_stay_right_partial : forall A V F (eqA : EqDecision A) (eqV : EqDecision V) (eqF : EqDecision F)
  (text_of : item A V F -> A) (run_body : F -> V -> V) (ops later : list (step A V F)) (d : draws) (f : F) (v r : V) (w : world A V F), checked ops -> compares d ->
  call text_of run_body d f v (run text_of run_body empty ops) = (w, Ok r) ->
  get (text_of_call text_of f v) (run text_of run_body w later) = Ok (run_body f v).
Proof.
  intros * C Cd E. pose proof (call_checked text_of run_body d f v _ Cd (run_truthful text_of run_body ops _ C (empty_truthful text_of run_body))) as H.
  rewrite E in H. destruct H as (_ & -> & Hg & _). destruct (run_grows text_of run_body later w) as [G1 G2]. unfold get in *.
  destruct (records w (text_of_call text_of f v)) as [k|] eqn:Ek; [|done]. rewrite (G2 _ _ Ek). unfold load in *. destruct (values w k) as [i|] eqn:Ei; [|done]. by rewrite (G1 _ _ Ei).
Qed.
Print Assumptions C134_answers_stay_right_partial.

(** A background worker that finds the request of a call executes that call and no other. *)
Theorem C134_workers_execute_the_right_call_partial : forall A V F (eqA : EqDecision A) (eqV : EqDecision V) (eqF : EqDecision F)
  (text_of : item A V F -> A) (run_body : F -> V -> V) (ops later : list (step A V F)) (d d' : draws) (f : F) (v : V) (k : A) (w : world A V F), checked ops -> compares d ->
  address text_of d f v (run text_of run_body empty ops) = (w, Ok k) ->
  work text_of run_body d' k (run text_of run_body w later) = call text_of run_body d' f v (run text_of run_body w later).
Proof.
  intros * C Cd E. pose proof (address_checked text_of run_body d f v _ Cd (run_truthful text_of run_body ops _ C (empty_truthful text_of run_body))) as H.
  rewrite E in H. destruct H as (_ & -> & H1 & H2 & H3). destruct (run_grows text_of run_body later w) as [G _]. unfold work. by rewrite (G _ _ H1), (G _ _ H2), (G _ _ H3).
Qed.
Print Assumptions C134_workers_execute_the_right_call_partial.

(** A value that was stored is what its address gives, for good. *)
Theorem C134_stored_values_are_right_partial : forall A V F (eqA : EqDecision A) (eqV : EqDecision V) (eqF : EqDecision F)
  (text_of : item A V F -> A) (run_body : F -> V -> V) (w w' : world A V F) (later : list (step A V F)) (v : V) (t : A),
  store text_of true (Data v) w = (w', Ok t) -> t = text_of (Data v) /\ load t (run text_of run_body w' later) = Ok v.
Proof.
  intros * E. pose proof (store_checked text_of (Data v) w) as H. rewrite E in H. destruct H as (-> & H & _). split; [done|].
  destruct (run_grows text_of run_body later w') as [G _]. unfold load. by rewrite (G _ _ H).
Qed.
Print Assumptions C134_stored_values_are_right_partial.

(** Refused calls: exactly those for which the argument, the function, the call or the answer has the text of something else
    that is stored, or of another of these four; the error is an AssertionError. *)
Theorem C134_refused_exactly : forall A V F (eqA : EqDecision A) (eqV : EqDecision V) (eqF : EqDecision F)
  (text_of : item A V F -> A) (run_body : F -> V -> V) (ops : list (step A V F)) (d : draws) (f : F) (v : V), checked ops -> compares d ->
  let w := run text_of run_body empty ops in
  (clash text_of w [Data v; Func f; Signature (text_of (Func f)) (text_of (Data v)); Data (run_body f v)] ->
   snd (call text_of run_body d f v w) = Err AssertionError) /\
  (~ clash text_of w [Data v; Func f; Signature (text_of (Func f)) (text_of (Data v)); Data (run_body f v)] ->
   snd (call text_of run_body d f v w) = Ok (run_body f v)).
Proof.
  intros * C Cd w. pose proof (run_truthful text_of run_body ops _ C (empty_truthful text_of run_body)) as T. fold w in T.
  pose proof (call_checked text_of run_body d f v w Cd T) as H. pose proof (call_refused text_of run_body d f v w Cd T) as H'.
  destruct (call _ _ _ _ _ _) as [w' [r|e]]; simpl; split; try done; intros _; [by destruct H as (_ & -> & _)|by destruct H as [_ ->]].
Qed.
Print Assumptions C134_refused_exactly.

(** Without coincidences nothing is ever refused. *)
Theorem C134_nothing_refused_without_coincidences : forall A V F (eqA : EqDecision A) (eqV : EqDecision V) (eqF : EqDecision F)
  (text_of : item A V F -> A) (run_body : F -> V -> V) (ops : list (step A V F)) (d : draws) (f : F) (v : V), (forall i j, text_of i = text_of j -> i = j) ->
  checked ops -> compares d -> snd (call text_of run_body d f v (run text_of run_body empty ops)) = Ok (run_body f v).
Proof.
  intros * I C Cd. apply (C134_refused_exactly A V F eqA eqV eqF text_of run_body ops d f v C Cd). intros (i & j & _ & N & E & _). by apply N, I.
Qed.
Print Assumptions C134_nothing_refused_without_coincidences.

(** Numbers below 10 with the same parity have the same text; the function multiplies by 10. *)
Definition coarse (i : item nat nat nat) : nat :=
  match i with Data v => if v <? 10 then Nat.modulo v 2 else 1000 + v | Func f => 2 + f | Signature fa va => 100 + 10 * fa + va end.
Definition tenfold (f v : nat) : nat := 10 * v.

(** By default no comparisons are made, and the claim fails: after f(1), f(3) is answered with f(1), and the address of 3 gives 1. *)
Theorem C134_refuted : let w := run coarse tenfold empty [CallFn no_checks 0 1] in
  snd (call coarse tenfold no_checks 0 3 w) = Ok 10 /\ tenfold 0 3 = 30 /\
  (exists w' t, store coarse false (Data 3) w = (w', Ok t) /\ load t w' = Ok 1) /\
  snd (call coarse tenfold all_checks 0 3 w) = Err AssertionError.
Proof. split; [vm_compute; reflexivity|]. split; [reflexivity|]. split; [eexists _, _; split; [reflexivity|vm_compute; reflexivity]|vm_compute; reflexivity]. Qed.
Print Assumptions C134_refuted.

(** Comparing later does not help: 1 was stored first, a call f(3) without comparisons left its answer under the text of f(1), and a
    call f(1) that makes all comparisons but does not execute again gets it.  Executing again notices. *)
Theorem C134_comparing_later_refuted : let w := run coarse tenfold empty [StoreValue true 1; CallFn no_checks 0 3] in
  snd (call coarse tenfold (Draws true true true true false) 0 1 w) = Ok 30 /\ tenfold 0 1 = 10 /\
  snd (call coarse tenfold all_checks 0 1 w) = Err AssertionError.
Proof. split; [vm_compute; reflexivity|]. split; [reflexivity|vm_compute; reflexivity]. Qed.
Print Assumptions C134_comparing_later_refuted.

(** A checked history with coincidences: f(1) is answered, f(3) refused, f(1) answered from the record, a worker gets the right call. *)
Example C134_example : let w := run coarse tenfold empty [StoreValue true 1; CallFn all_checks 0 1; CallFn all_checks 0 3] in
  checked [StoreValue true 1; CallFn all_checks 0 1; CallFn all_checks 0 3 : step nat nat nat] /\ compares (Draws true true true true false) /\
  snd (call coarse tenfold (Draws true true true true false) 0 1 w) = Ok 10 /\ get (text_of_call coarse 0 1) w = Ok 10 /\
  snd (work coarse tenfold all_checks (text_of_call coarse 0 1) w) = Ok 10 /\ snd (call coarse tenfold all_checks 0 3 w) = Err AssertionError.
Proof. split; [repeat constructor|]. split; [repeat constructor|]. repeat (split; [vm_compute; reflexivity|]). vm_compute; reflexivity. Qed.
