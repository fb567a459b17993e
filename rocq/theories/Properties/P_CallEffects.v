(** C114, C115: what a call of an arbitrary pure function (whatever its body and guards do and return) leaves behind. *)
From Verif.Lib Require Import Py.
From Verif.Model Require Import PureAddr PureExec.
From Verif.Spec Require Import PureAddrSpec PureExecSpec.
From Verif.Proofs Require Import PureAddrP PureExecP PureExecSysP PureExecSeqP PureAnyP PureCallP.
From Verif.Properties Require Import ExampleHash P_PureExec P_PureExecExamples.
From Coq Require Import QArith.
From stdpp Require Import gmap.
Local Open Scope nat_scope.

(** * C114 *)
(** A call that ends (with a value or an exception) has done one of two things.
    Either it executed nothing: no queue and no run history, in any portal, is different, and if it returned x, then x is
    the value behind the result stored in the function's portal.
    Or it executed the function: its portal's history got the attempt first, then whatever the execution did, then its
    output; if it returned x, then its last record before the output is the result record with the address of x, its
    result is stored and its request is not in the queue; if it failed, its request is in the queue or its result is
    stored. *)
Theorem C114_call_effects :
  forall D data_prefix hash_of (body : fn_state -> list (string * arg D) -> prog) guards_of ses n p f kw σ μ σ' μ' out,
  run (execute data_prefix hash_of body guards_of ses n p f kw) σ μ = (σ', μ', Some out) ->
  let a := call_addr data_prefix hash_of f kw in let l := loc ses p in
  ((forall l', reqs (σ' l') = reqs (σ l') /\ hist (σ' l') = hist (σ l')) /\
   forall x, out = Ok x -> exists b v, ress (σ' l) !! a = Some b /\ vals (σ' l) !! b = Some v /\ x = AVal v)
  \/
  exists i records,
    hist (σ' l) = hist (σ l) ++ [HAttempt a i] ++ records ++ [HOutput a i] /\
    match out with
    | Ok x => (exists records', records = records' ++ [HResult a i (addr_of_arg data_prefix hash_of x)]) /\
              a ∉ reqs (σ' l) /\ is_Some (ress (σ' l) !! a)
    | Err e => a ∈ reqs (σ' l) \/ is_Some (ress (σ' l) !! a)
    end.
Proof. intros * H. exact (call_effects data_prefix hash_of ses body guards_of n p f kw σ μ σ' μ' out H). Qed.
Print Assumptions C114_call_effects.

(** The first happens whenever the result is in the function's own portal (and consistency checks are off) ... *)
Theorem C114_answered :
  forall D data_prefix hash_of (body : fn_state -> list (string * arg D) -> prog) guards_of ses n p f kw b σ μ,
  acceptable kw -> pcc ses p = None -> ress (σ (loc ses p)) !! call_addr data_prefix hash_of f kw = Some b ->
  exists σ' μ' out, run (execute data_prefix hash_of body guards_of ses (S n) p f kw) σ μ = (σ', μ', Some out) /\
    forall l', ress (σ' l') = ress (σ l') /\ reqs (σ' l') = reqs (σ l') /\ hist (σ' l') = hist (σ l').
Proof.
  intros * Ha Hz Hb. destruct (answered data_prefix hash_of ses body guards_of n p f kw _ b σ μ (acceptable_sorted _ Ha)) as (σ' & S & μ' & Hr); [by rewrite Hz|exact Hb|].
  eexists _, _, _. split; [exact Hr|exact S].
Qed.
Print Assumptions C114_answered.
(** ... the second whenever no portal has the result. *)
Theorem C114_executed :
  forall D data_prefix hash_of (body : fn_state -> list (string * arg D) -> prog) guards_of ses n p f kw σ μ σ' μ' out,
  acceptable kw -> p < length (places ses) ->
  (forall q, q < length (places ses) -> ress (σ (loc ses q)) !! call_addr data_prefix hash_of f kw = None) ->
  run (execute data_prefix hash_of body guards_of ses n p f kw) σ μ = (σ', μ', Some out) ->
  exists i records, hist (σ' (loc ses p)) = hist (σ (loc ses p)) ++ [HAttempt (call_addr data_prefix hash_of f kw) i] ++ records.
Proof.
  intros * Ha Hp Hn Hr. destruct n as [|n]; [done|]. pose proof (acceptable_sorted _ Ha) as Es. rewrite execute_unfold in Hr.
  destruct (run_address0 data_prefix hash_of ses p f kw _ σ μ Es) as (σ1 & S1 & Hrun). rewrite Hrun in Hr.
  rewrite run_pbind, run_acc in Hr. cbn [perform] in Hr. rewrite run_pbind, ready_none in Hr.
  2: { intros q Hq. rewrite (proj1 (S1 (loc ses q))). apply (unknown_none ses σ (call_addr data_prefix hash_of f kw) p Hp Hn q Hq). }
  cbn [andb] in Hr. destruct (run_body_effects data_prefix hash_of ses body guards_of n p f kw _ _ false _ _ _ _ _ ltac:(
    intros q Hq; rewrite (proj1 (S1 (loc ses q))); apply (unknown_none ses σ (call_addr data_prefix hash_of f kw) p Hp Hn q Hq)) Hr) as (k & Hk & _).
  eexists _, _. rewrite Hk, (proj2 (proj2 (S1 (loc ses p)))). reflexivity.
Qed.
Print Assumptions C114_executed.

(** Whatever functions do and return, and wherever operations die: no value, result or record is ever lost or changed, and
    a request leaves a queue only when its result is stored there. *)
Theorem C114_nothing_is_lost :
  forall D data_prefix hash_of (body : fn_state -> list (string * arg D) -> prog) guards_of ok σ σ',
  history data_prefix hash_of body guards_of ok σ σ' ->
  forall l,
  (forall b v, vals (σ l) !! b = Some v -> vals (σ' l) !! b = Some v) /\
  (forall a b, ress (σ l) !! a = Some b -> ress (σ' l) !! a = Some b) /\
  (forall a, a ∈ reqs (σ l) -> a ∈ reqs (σ' l) \/ is_Some (ress (σ' l) !! a)) /\
  hist (σ l) `prefix_of` hist (σ' l).
Proof.
  intros * H l. destruct (history_kept data_prefix hash_of _ _ _ _ _ H) as (V & R & Q & P).
  split; [intros; by apply V|]. split; [intros; by apply R|]. split; [intros; by apply Q|apply P].
Qed.
Print Assumptions C114_nothing_is_lost.

(** * C115 *)
(** The first call: if no portal had the result and the call returned x, then the stored result is the address of x -
    unless the same call was attempted once more while it ran. *)
Theorem C115_stored_result :
  forall D data_prefix hash_of (body : fn_state -> list (string * arg D) -> prog) guards_of ses n p f kw σ μ σ' μ' x,
  p < length (places ses) ->
  (forall q, q < length (places ses) -> ress (σ (loc ses q)) !! call_addr data_prefix hash_of f kw = None) ->
  run (execute data_prefix hash_of body guards_of ses n p f kw) σ μ = (σ', μ', Some (Ok x)) ->
  let a := call_addr data_prefix hash_of f kw in
  ress (σ' (loc ses p)) !! a = Some (addr_of_arg data_prefix hash_of x) \/
  exists i j records, hist (σ' (loc ses p)) = hist (σ (loc ses p)) ++ [HAttempt a i] ++ records /\ HAttempt a j ∈ records.
Proof. intros * Hp Hn Hr. exact (first_result data_prefix hash_of ses body guards_of n p f kw σ μ σ' μ' x Hp Hn Hr). Qed.
Print Assumptions C115_stored_result.

(** Every later call - after any history, from any session with a portal at that place, checks off - executes nothing and
    returns the value stored at that place under the result's address, or raises KeyError if there is none (even if another
    portal has it).  In particular a function that returned an address answers with the value behind it from then on. *)
Theorem C115_later_answers :
  forall D data_prefix hash_of (body : fn_state -> list (string * arg D) -> prog) guards_of ok σ σ' l f kw b,
  ress (σ l) !! call_addr data_prefix hash_of f kw = Some b ->
  history data_prefix hash_of body guards_of ok σ σ' ->
  forall ses p n μ, acceptable kw -> loc ses p = l -> pcc ses p = None ->
  exists σ'' μ'', 
    run (execute data_prefix hash_of body guards_of ses (S n) p f kw) σ' μ
      = (σ'', μ'', Some (match vals (σ'' l) !! b with Some v => Ok (AVal v) | None => Err KeyError end)) /\
    forall l', ress (σ'' l') = ress (σ' l') /\ reqs (σ'' l') = reqs (σ' l') /\ hist (σ'' l') = hist (σ' l').
Proof.
  intros * Hb Hh * Ha <- Hz. destruct (history_kept data_prefix hash_of _ _ _ _ _ Hh) as (_ & R & _).
  destruct (answered data_prefix hash_of ses body guards_of n p f kw _ b σ' μ (acceptable_sorted _ Ha)) as (σ'' & S & μ'' & Hr); [by rewrite Hz|by apply R|].
  eexists _, _. split; [exact Hr|exact S].
Qed.
Print Assumptions C115_later_answers.
(** Once the value is there, the answer is that value for ever. *)
Theorem C115_answer_is_final :
  forall D data_prefix hash_of (body : fn_state -> list (string * arg D) -> prog) guards_of ok σ σ' l f kw b v,
  ress (σ l) !! call_addr data_prefix hash_of f kw = Some b -> vals (σ l) !! b = Some v ->
  history data_prefix hash_of body guards_of ok σ σ' ->
  forall ses p n μ σ'' μ'' out, acceptable kw -> loc ses p = l -> pcc ses p = None ->
  run (execute data_prefix hash_of body guards_of ses (S n) p f kw) σ' μ = (σ'', μ'', out) -> out = Some (Ok (AVal v)).
Proof.
  intros * Hb Hv Hh * Ha Hl Hz Hr. destruct (C115_later_answers _ _ _ _ _ _ _ _ _ _ _ _ Hb Hh ses p n μ Ha Hl Hz) as (σ3 & μ3 & Hr' & _).
  rewrite Hr in Hr'. injection Hr' as -> _ ->.
  destruct (ts_run _ _ _ _ _ _ _ (tsk_execute data_prefix hash_of ses body guards_of (S n) p f kw σ') Hr) as [_ (V & _)].
  destruct (history_kept data_prefix hash_of _ _ _ _ _ Hh) as (V0 & _). by rewrite (V _ _ _ (V0 _ _ _ Hv)).
Qed.
Print Assumptions C115_answer_is_final.

(** ** Examples *)
(** def wrap(x): return ValueAddr(x):   address first, value later (wrap_body is in P_PureExecExamples) *)
Example wrap_first : exists σ1 μ1,
  run (execute demo_prefix demo_hash wrap_body (fun _ => []) (one_portal 0) 1 0 (demo_fn "wrap") (x_is "v")) nothing_stored fair
    = (σ1, μ1, Some (Ok (AAddr (text_of demo_prefix demo_hash (VData "v"))))) /\
  ress (σ1 0) !! call_addr demo_prefix demo_hash (demo_fn "wrap") (x_is "v") = Some (text_of demo_prefix demo_hash (VData "v")) /\
  vals (σ1 0) !! text_of demo_prefix demo_hash (VData "v") = Some (VData "v").
Proof. do 2 eexists. split; [apply triple_out; by vm_compute|]. split; by vm_compute. Qed.
Example hypotheses_met : acceptable (x_is "v") /\ pcc (one_portal 0) 0 = None /\ loc (one_portal 0) 0 = 0 /\ 0 < length (places (one_portal 0)) /\
  (forall q, q < length (places (one_portal 0)) -> ress (nothing_stored (loc (one_portal 0) q)) !! call_addr demo_prefix demo_hash (demo_fn "wrap") (x_is "v") = None).
Proof.
  split; [|split; [done|split; [done|split; [cbn; lia|done]]]]. apply ordinary_acceptable, x_is_ordinary.
Qed.
(** The exception in C115_stored_result is real:
      def g(): return ValueAddr("v")
      def f(): if isinstance(g(), ValueAddr): f(); return "outer"
               else: return "inner"
    f() returns "outer" and stores "inner": every later f() returns "inner". *)
Definition flip_body (f : fn_state) (kw : kws) : prog :=
  if String.eqb (fn_name f) "g" then Ret (AAddr (text_of demo_prefix demo_hash (VData "v")))
  else Call (demo_fn "g") (x_is "v") (fun r => match r with Ok (AAddr _) => Call f kw (fun _ => Ret (data "outer")) | _ => Ret (data "inner") end).
Theorem C115_inner_call_wins :
  exists σ1 μ1,
  run (execute demo_prefix demo_hash flip_body (fun _ => []) (one_portal 0) 3 0 (demo_fn "f") []) nothing_stored fair = (σ1, μ1, Some (Ok (data "outer"))) /\
  out_of (run (execute demo_prefix demo_hash flip_body (fun _ => []) (one_portal 0) 3 0 (demo_fn "f") []) σ1 μ1) = Some (Ok (data "inner")).
Proof. do 2 eexists. split; [apply triple_out; by vm_compute|by vm_compute]. Qed.
Print Assumptions C115_inner_call_wins.

(** C45: execution_requested says whether the request is in the queue of the address's portal, and changes nothing; after
    drop_execution_request it says no. *)
Theorem C45_execution_requested : forall D ses p a σ μ,
  run (@requested D ses p a) σ μ = (σ, μ, Some (Ok (bool_decide (a ∈ reqs (σ (loc ses p)))))) /\
  forall σ' μ' x, run (@drop_request D ses p a) σ μ = (σ', μ', x) -> run (@requested D ses p a) σ' μ' = (σ', μ', Some (Ok false)).
Proof.
  intros *. assert (H : forall σ μ, run (@requested D ses p a) σ μ = (σ, μ, Some (Ok (bool_decide (a ∈ reqs (σ (loc ses p))))))) by done.
  split; [apply H|]. intros * E. rewrite H. repeat f_equal. rewrite bool_decide_eq_false. cbn in E. injection E as <- _ _.
  unfold upd. rewrite decide_True by done. cbn [set_reqs reqs]. intros X; set_solver.
Qed.
Print Assumptions C45_execution_requested.
