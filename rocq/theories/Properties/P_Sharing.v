(** C132: arguments that are the same object. *)
From Verif.Lib Require Import Py.
From Verif.Model Require Import Sharing.
From Verif.Spec Require Import SharingSpec.
From Verif.Proofs Require Import SharingP.
From Coq Require Import Lia.
Local Open Scope nat_scope.

(** What a first call does, exactly: the body sees the contents vs at positions p, which tell which arguments are the same object; it may
    change the caller's objects; the answer is recorded under the contents. *)
Theorem C132_first_call_exactly : forall A V (eqA : EqDecision A) (text_of : V -> A) body (s : state (A := A) (V := V)) f args vs,
  has_contents s args vs -> results s (f, map text_of vs) = None ->
  exists p s' r, call text_of body f args s = (s', Ok r) /\ fits p vs /\
    (forall i j o q, args !! i = Some (Obj o) -> args !! j = Some (Obj q) -> p !! i = p !! j <-> o = q) /\
    (forall i j v, args !! i = Some (Addr v) -> p !! i = p !! j -> i = j) /\
    heap s' !! r = Some (snd (body f p vs)) /\
    (forall k, results s' k = if decide (k = (f, map text_of vs)) then Some (snd (body f p vs)) else results s k) /\
    (forall o v, heap s !! o = Some v -> Obj o ∉ args -> heap s' !! o = Some v) /\
    (forall i j o, args !! i = Some (Obj o) -> p !! i = Some j -> heap s' !! o = Some (fst (body f p vs) j)).
Proof.
  intros A V eqA text_of body s f args vs Hc Hr.
  destruct (call_miss text_of body s f args vs Hc Hr) as (os & h1 & s' & r & E & Ecall & Hh & -> & Hs).
  destruct (unpack_spec args (heap s) os h1 E) as ((l & Hl) & P2 & P3 & P4).
  assert (B : forall o, Obj o ∈ args -> o < length (heap s)) by (intros o; by eapply has_contents_bound).
  assert (Pp : forall i o, os !! i = Some o -> places os !! i = Some (position o os)).
  { intros i o Hi. unfold places. by rewrite list_lookup_fmap, Hi. }
  assert (Pi : forall i j o q, os !! i = Some o -> os !! j = Some q -> places os !! i = places os !! j -> o = q).
  { intros i j o q Hi Hj Hp. rewrite (Pp i o), (Pp j q) in Hp by done. injection Hp as Hp.
    destruct (position_spec o os) as [X _]; [by eapply elem_of_list_lookup_2|]. destruct (position_spec q os) as [Y _]; [by eapply elem_of_list_lookup_2|].
    rewrite Hp in X. congruence. }
  exists (places os), s', (length h1). split; [done|]. split; [by apply (fits_places args s os h1)|]. split; [|split; [|split; [|split; [|split]]]].
  - intros i j o q Hi Hj. pose proof (P3 i) as Oi. rewrite Hi in Oi. pose proof (P3 j) as Oj. rewrite Hj in Oj. split; [by apply (Pi i j)|].
    intros ->. by rewrite (Pp i q), (Pp j q).
  - intros i j v Hi Hp. pose proof (P3 i) as Oi. rewrite Hi in Oi. destruct Oi as (o & Oi & Hge & _).
    assert (exists q, os !! j = Some q) as [q Hj].
    { destruct (os !! j) as [q|] eqn:Hj; [eauto|]. exfalso. rewrite (Pp i o Oi) in Hp. unfold places in Hp. rewrite list_lookup_fmap, Hj in Hp. done. }
    assert (o = q) as <- by (by apply (Pi i j)). by apply (P4 i j o).
  - rewrite Hh, lookup_app_r by (by rewrite write_length). by rewrite write_length, Nat.sub_diag.
  - intros k. by rewrite Hs.
  - intros o v Ho Hn. rewrite Hh. apply lookup_app_l_Some. rewrite (write_spec os _ h1 o v) by (rewrite Hl; by apply lookup_app_l_Some).
    rewrite decide_False; [done|]. intros [i Hi]%elem_of_list_lookup. apply Hn. assert (exists x, args !! i = Some x) as [x Hx].
    { apply lookup_lt_is_Some_2. rewrite <- P2. by eapply lookup_lt_Some. }
    pose proof (P3 i) as Oi. rewrite Hx in Oi. destruct x as [q|w].
    + assert (q = o) as -> by congruence. by eapply elem_of_list_lookup_2.
    + exfalso. destruct Oi as (q & Hq & Hge & _). assert (q = o) as -> by congruence. apply lookup_lt_Some in Ho. lia.
  - intros i j o Hi Hp. pose proof (P3 i) as Oi. rewrite Hi in Oi. rewrite (Pp i o Oi) in Hp. injection Hp as <-.
    assert (o < length (heap s)) by (apply B; by eapply elem_of_list_lookup_2). assert (exists v, heap s !! o = Some v) as [v Hv] by (by apply lookup_lt_is_Some_2).
    rewrite Hh. apply lookup_app_l_Some. rewrite (write_spec os _ h1 o v) by (rewrite Hl; by apply lookup_app_l_Some).
    rewrite decide_True; [done|]. by eapply elem_of_list_lookup_2.
Qed.
Print Assumptions C132_first_call_exactly.
(** The first answer decides: whatever the program does then, every later call of the function with these contents - the same objects or not,
    objects or addresses - gives that answer, as a new object, and leaves all objects alone. *)
Theorem C132_first_answer_decides : forall A V (eqA : EqDecision A) (text_of : V -> A) body (s : state (A := A) (V := V)) f vs w h args,
  results s (f, map text_of vs) = Some w -> let s2 := steps text_of body s h in has_contents s2 args vs ->
  exists s3, call text_of body f args s2 = (s3, Ok (length (heap s2))) /\ run text_of body f args s2 = (s3, Ok (length (heap s2))) /\ heap s3 = heap s2 ++ [w].
Proof.
  intros A V eqA text_of body s f vs w h args Hr s2 Hc. apply (steps_keeps text_of body h) in Hr. fold s2 in Hr.
  eexists. split; [by apply (call_hit text_of body s2 f args vs w)|]. split; [|done].
  rewrite (run_is text_of body s2 f args vs Hc). by apply (call_hit text_of body s2 f (map Addr vs) vs w); [apply has_contents_addr|].
Qed.
Print Assumptions C132_first_answer_decides.
(** run() and workers: the body never sees two arguments as one object, and no object of the caller changes. *)
Theorem C132_run_separates : forall A V (eqA : EqDecision A) (text_of : V -> A) body (s : state (A := A) (V := V)) f args vs,
  has_contents s args vs -> results s (f, map text_of vs) = None ->
  exists s' r, run text_of body f args s = (s', Ok r) /\ heap s' !! r = Some (answer body f vs) /\
    results s' (f, map text_of vs) = Some (answer body f vs) /\ forall o v, heap s !! o = Some v -> heap s' !! o = Some v.
Proof.
  intros A V eqA text_of body s f args vs Hc Hr. rewrite (run_is text_of body s f args vs Hc).
  destruct (call_miss text_of body s f (map Addr vs) vs (has_contents_addr _ _) Hr) as (os & h1 & s' & r & E & Ecall & Hh & -> & Hs).
  assert (Hw : snd (body f (places os) vs) = answer body f vs).
  { eapply (miss_answer body s f (map Addr vs)); [apply has_contents_addr|done|]. left. apply separate_addr. }
  rewrite Hw in Hh, Hs. exists s', (length h1). split; [done|]. split; [|split].
  - rewrite Hh, lookup_app_r by (by rewrite write_length). by rewrite write_length, Nat.sub_diag.
  - rewrite Hs. by rewrite decide_True.
  - destruct (unpack_spec _ _ _ _ E) as ((l & Hl) & P2 & P3 & _). intros o v Ho. rewrite Hh. apply lookup_app_l_Some.
    rewrite (write_spec os _ h1 o v) by (rewrite Hl; by apply lookup_app_l_Some). rewrite decide_False; [done|].
    intros [i Hi]%elem_of_list_lookup. assert (exists x, vs !! i = Some x) as [x Hx].
    { apply lookup_lt_is_Some_2. rewrite map_length in P2. rewrite <- P2. by eapply lookup_lt_Some. }
    specialize (P3 i). rewrite list_lookup_fmap, Hx in P3. destruct P3 as (q & Hq & Hge & _). assert (q = o) as -> by congruence. apply lookup_lt_Some in Ho. lia.
Qed.
Print Assumptions C132_run_separates.
(** In programs that never gave one object for two parameters of f - or if f's answer does not depend on that - the answers of f are a
    function of the contents of its arguments, on all routes. *)
Theorem C132_answers_by_contents_partial : forall A V (eqA : EqDecision A) (text_of : V -> A) body h f args vs,
  collision_free text_of -> (forall args, Call f args ∈ h -> separate args \/ indifferent body f) ->
  let s := steps text_of body start h in has_contents s args vs ->
  (separate args \/ indifferent body f -> exists s' r, call text_of body f args s = (s', Ok r) /\ heap s' !! r = Some (answer body f vs)) /\
  (exists s' r, run text_of body f args s = (s', Ok r) /\ heap s' !! r = Some (answer body f vs)).
Proof.
  intros A V eqA text_of body h f args vs cf Ht s Hc.
  assert (G : good text_of body s (fun g => g = f)).
  { apply (steps_good text_of body cf); [done|]. intros g a Hin ->. by apply Ht. }
  destruct (results s (f, map text_of vs)) as [w|] eqn:Er.
  - assert (w = answer body f vs) as -> by (by apply (G f)). split.
    + intros _. eexists _, _. split; [by apply (call_hit text_of body s f args vs)|]. cbn. by rewrite lookup_app_r, Nat.sub_diag.
    + eexists _, _. split.
      * rewrite (run_is text_of body s f args vs Hc). by apply (call_hit text_of body s f (map Addr vs) vs (answer body f vs) (has_contents_addr _ _)).
      * cbn. by rewrite lookup_app_r, Nat.sub_diag.
  - split.
    + intros Hs. destruct (call_miss text_of body s f args vs Hc Er) as (os & h1 & s' & r & E & Ecall & Hh & -> & _).
      exists s', (length h1). split; [done|]. rewrite (miss_answer body s f args vs os h1 Hc E Hs) in Hh.
      rewrite Hh, lookup_app_r by (by rewrite write_length). by rewrite write_length, Nat.sub_diag.
    + destruct (C132_run_separates A V eqA text_of body s f args vs Hc Er) as (s' & r & H1 & H2 & _). eauto.
Qed.
Print Assumptions C132_answers_by_contents_partial.

(** C132 is false: def f(x, y): x.append(0); return [len(y)].  With a = [1], b = [1]: f(x=a, y=a) gives [2], and so does f(x=b, y=[1])
    ever after; in another session f(x=a, y=b) gives [1]; and f.run(x=a, y=a) gives [1]. *)
Definition text (v : list nat) : list nat := v.
Definition f_body (f : nat) (p : list nat) (vs : list (list nat)) : (nat -> list nat) * list nat :=
  match p, vs with
  | [p0; p1], [x; y] => (fun j => if decide (j = p0) then x ++ [0] else y, [length (if decide (p1 = p0) then x ++ [0] else y)])
  | _, _ => (fun _ => [], [])
  end.
Theorem C132_answers_depend_on_sharing_refuted :
  let s := steps text f_body start [New [1]; New [1]] in
  (exists s1, call text f_body 0 [Obj 0; Obj 0] s = (s1, Ok 2) /\ heap s1 !! 2 = Some [2] /\
    exists s2, call text f_body 0 [Obj 1; Addr [1]] s1 = (s2, Ok 3) /\ heap s2 !! 3 = Some [2]) /\
  (exists s1, call text f_body 0 [Obj 0; Obj 1] s = (s1, Ok 2) /\ heap s1 !! 2 = Some [1]) /\
  (exists s1 r, run text f_body 0 [Obj 0; Obj 0] s = (s1, Ok r) /\ heap s1 !! r = Some [1]).
Proof.
  cbn zeta. split; [|split].
  - eexists. split; [vm_compute; reflexivity|]. split; [reflexivity|]. eexists. split; vm_compute; reflexivity.
  - eexists. split; vm_compute; reflexivity.
  - eexists _, _. split; vm_compute; reflexivity.
Qed.
Print Assumptions C132_answers_depend_on_sharing_refuted.

(** The hypotheses are met: the contents [1], [1] for one object and for two; texts of lists do not collide; a function that is indifferent. *)
Example C132_example : let s := steps text f_body start [New [1]; New [1]; Call 0 [Obj 0; Obj 1]] in
  has_contents s [Obj 1; Obj 1] [[1]; [1]] /\ results s (0, map text [[1]; [1]]) = Some [1] /\ separate (V := list nat) [Obj 0; Obj 1] /\
  collision_free text /\ indifferent (fun _ _ (vs : list (list nat)) => (fun _ => [], mjoin vs)) 0.
Proof.
  cbn zeta. split; [|split; [|split; [|split]]].
  - split; [done|]. intros [|[|i]] x v; cbn; try done; intros [= <-] [= <-]; reflexivity.
  - vm_compute. reflexivity.
  - intros [|[|i]] [|[|j]] o; cbn; try done; intros [= <-]; done.
  - by intros v w.
  - by intros p vs _.
Qed.
