(** C128: computers that take part in swarming are told apart by their signatures. *)
From Coq Require Import String Ascii NArith Lia.
From stdpp Require Import base list numbers strings pretty.
From Verif Require Import Lib.Py Lib.DictLemmas Model.Base32 Model.Swarming Model.NodeId Spec.Numerals Spec.NodeIdSpec Proofs.SwarmingP.
Local Open Scope nat_scope.

Lemma app_cancel_l a x y : String.append a x = String.append a y -> x = y.
Proof. induction a as [|c a IH]; [done|]. intros H. change (String c (String.append a x) = String c (String.append a y)) in H. injection H. done. Qed.
Lemma app_length a b : String.length (String.append a b) = String.length a + String.length b.
Proof. induction a as [|c a IH]; [done|]. change (S (String.length (String.append a b)) = S (String.length a + String.length b)). by rewrite IH. Qed.
Lemma app_cancel_r x y b : String.append x b = String.append y b -> x = y.
Proof.
  revert y. induction x as [|c x IH]; intros [|d y] H; [done| | |].
  - apply (f_equal String.length) in H. rewrite !app_length in H. cbn in H. lia.
  - apply (f_equal String.length) in H. rewrite !app_length in H. cbn in H. lia.
  - change (String c (String.append x b) = String d (String.append y b)) in H. injection H as -> H. f_equal. by apply IH.
Qed.
Lemma pretty_go_digits x s : all_chars is_digit10 s = true -> all_chars is_digit10 (pretty_N_go x s) = true.
Proof.
  revert s. induction (N.lt_wf_0 x) as [x _ IH]; intros s Hs. destruct (decide (0 < x)%N) as [Hx|Hx].
  - rewrite pretty_N_go_step by done. apply IH; [by apply N.div_lt|]. cbn [all_chars]. rewrite Hs, andb_true_r.
    unfold pretty_N_char. by repeat case_match.
  - assert (x = 0%N) as -> by lia. by rewrite pretty_N_go_0.
Qed.
Lemma pretty_digits (x : N) : all_chars is_digit10 (pretty x) = true.
Proof. unfold pretty, pretty_N. case_decide; [done|]. by apply pretty_go_digits. Qed.
Lemma split_digits a b x y : all_chars is_digit10 a = true -> all_chars is_digit10 b = true -> begins_without_digit x -> begins_without_digit y ->
  String.append a x = String.append b y -> a = b /\ x = y.
Proof.
  revert b. induction a as [|c a IH]; intros [|d b] Ha Hb Hx Hy H.
  - done.
  - change (x = String d (String.append b y)) in H. subst x. cbn in Hx, Hb. rewrite Hx in Hb. done.
  - change (String c (String.append a x) = y) in H. subst y. cbn in Hy, Ha. rewrite Hy in Ha. done.
  - change (String c (String.append a x) = String d (String.append b y)) in H. injection H as -> H. cbn in Ha, Hb.
    apply andb_true_iff in Ha as [_ Ha], Hb as [_ Hb]. destruct (IH b Ha Hb Hx Hy H) as [-> ->]. done.
Qed.
(** Computers have the same signature exactly if they have the same MAC address and the other six texts, written one after the other
    without separators, are the same. *)
Theorem C128_same_signature_exactly : forall digest c d, collision_free digest ->
  begins_without_digit (system c) -> begins_without_digit (system d) ->
  get_node_signature digest c = get_node_signature digest d <->
  mac c = mac d /\ (system c ++ release c ++ version c ++ machine c ++ processor c ++ user c)%string
                 = (system d ++ release d ++ version d ++ machine d ++ processor d ++ user d)%string.
Proof.
  intros digest c d Hd Hc Hdd. split.
  - intros H%Hd. unfold id_string in H. apply split_digits in H; try apply pretty_digits.
    + destruct H as [H1 H2]. apply (inj (pretty (A:=N))) in H1. done.
    + destruct c as [? [|]]; done.
    + destruct d as [? [|]]; done.
  - intros [H1 H2]. unfold get_node_signature, id_string. do 2 f_equal. rewrite H1. f_equal. exact H2.
Qed.
Print Assumptions C128_same_signature_exactly.
(** So computers with different MAC addresses, and computers that differ in a single fact, have different signatures. *)
Theorem C128_mac_addresses_separate : forall digest c d, collision_free digest ->
  begins_without_digit (system c) -> begins_without_digit (system d) -> mac c <> mac d ->
  get_node_signature digest c <> get_node_signature digest d.
Proof. intros * Hd Hc Hdd Hm H. apply C128_same_signature_exactly in H; [|done..]. by destruct H. Qed.
Print Assumptions C128_mac_addresses_separate.
Theorem C128_single_difference_partial : forall digest c d, collision_free digest -> one_difference c d ->
  get_node_signature digest c <> get_node_signature digest d.
Proof.
  intros digest [m s r v a p u] [m' s' r' v' a' p' u'] Hd E H%Hd. unfold id_string, one_difference, differences in *.
  cbn [mac system release version machine processor user] in *.
  destruct (decide (m = m')) as [Em|Em], (decide (s = s')) as [Es|Es], (decide (r = r')) as [Er|Er], (decide (v = v')) as [Ev|Ev],
    (decide (a = a')) as [Ea|Ea], (decide (p = p')) as [Ep|Ep], (decide (u = u')) as [Eu|Eu];
  repeat match type of E with
  | context [bool_decide (?x <> ?y)] => first [rewrite (bool_decide_eq_true_2 (x <> y)) in E by done|rewrite (bool_decide_eq_false_2 (x <> y)) in E by tauto]
  end; try discriminate E; subst;
  repeat match goal with K : String.append ?x _ = String.append ?x _ |- _ => apply app_cancel_l in K end;
  try (apply app_cancel_r in H); try congruence.
  by apply (inj (pretty (A:=N))) in H.
Qed.
Print Assumptions C128_single_difference_partial.

(** ** What it means for swarming *)
Section Frame.
  Context {Loc Rid : Type} `{EqDecision Loc} `{EqDecision Rid}.
  Lemma del_other {K V} `{EqDecision K} (k k' : K) (d : dict K V) : k <> k' -> dict_get k (dict_del k' d) = dict_get k d.
  Proof.
    intros Hne. induction d as [|[k1 v1] d IH]; [done|]. cbn [dict_del]. destruct (decide (k' = k1)) as [->|Hk].
    - cbn [dict_get]. by rewrite decide_False.
    - cbn [dict_get]. by rewrite IH.
  Qed.
  Lemma step_other (n m : string) (s : rstate Loc string Rid) e l : m <> n -> by_node m s e ->
    dict_get (l, n) (records (rstep s e)) = dict_get (l, n) (records s).
  Proof.
    intros Hne. destruct e as [pr l' k [r|] draw|i|pr k]; cbn [rstep by_node records].
    - done.
    - intros ->. rewrite dict_get_set. rewrite decide_False; [done|]. congruence.
    - destruct (portals s !! i) as [[q p]|]; [|done]. intros Hp. cbn [records]. apply del_other. congruence.
    - intros ->. generalize (records s). induction (portals s) as [|[q p] ps IH]; intros d; [done|]. cbn [fold_left]. rewrite IH.
      case_decide; [|done]. apply del_other. congruence.
  Qed.
End Frame.
(** Whatever is done on computers with other signatures - over the same location or others - a runtime stays live, or not live. *)
Theorem C128_other_signatures_do_not_matter : forall (Loc Rid : Type) (eqL : EqDecision Loc) (eqR : EqDecision Rid) (n m : string)
    (s : rstate Loc string Rid) h (p : sportal Loc string Rid), m <> n -> all_by_node m s h ->
  parent_runtime_is_live (fold_left rstep h s) p n = parent_runtime_is_live s p n.
Proof.
  intros Loc Rid eqL eqR n m s h p Hne. revert s. induction h as [|e h IH]; intros s; [done|]. cbn [fold_left all_by_node]. intros [He Hh].
  rewrite IH by done. unfold parent_runtime_is_live. by rewrite (step_other n m).
Qed.
Print Assumptions C128_other_signatures_do_not_matter.
(** But a portal created on another computer with the same signature over the same location makes all older runtimes stop; *)
Theorem C128_same_signature_disturbs : forall (Loc Rid : Type) (eqL : EqDecision Loc) (eqR : EqDecision Rid) digest c d n
    (s : rstate Loc string Rid) (p : sportal Loc string Rid) proc draw,
  get_node_signature digest c = Ok n -> get_node_signature digest d = get_node_signature digest c -> draw <> sp_rid p ->
  exists n', get_node_signature digest d = Ok n' /\ parent_runtime_is_live (rstep s (RNew proc (sp_loc p) n' None draw)) p n = false.
Proof.
  intros Loc Rid eqL eqR digest c d n s p proc draw Hc Hd Hne. exists n. split; [congruence|].
  unfold parent_runtime_is_live. cbn [rstep records]. rewrite dict_get_set, decide_True by done. by rewrite bool_decide_eq_false_2.
Qed.
Print Assumptions C128_same_signature_disturbs.
(** and so does clearing a portal there, or the end of a process there. *)
Theorem C128_same_signature_clears : forall (Loc Rid : Type) (eqL : EqDecision Loc) (eqR : EqDecision Rid) n
    (h : list (revent Loc string Rid)) (p q : sportal Loc string Rid) i proc, let s := rrun h in
  portals s !! i = Some (proc, q) -> sp_node q = n -> sp_loc q = sp_loc p ->
  parent_runtime_is_live (rstep s (RClear i)) p n = false /\
  (sp_cleared q = false -> parent_runtime_is_live (rstep s (RProcessExit proc n)) p n = false).
Proof.
  intros Loc Rid eqL eqR n h p q i proc s Hi Hn Hl. pose proof (records_nodup h : NoDup (dict_keys (records s))) as N. split.
  - unfold parent_runtime_is_live. cbn [rstep]. rewrite Hi. cbn [records].
    by rewrite Hn, Hl, dict_get_del, decide_True.
  - intros Hc. unfold parent_runtime_is_live. cbn [rstep records].
    pose proof (wipe_gone proc n (portals s) (sp_loc p) q (elem_of_list_lookup_2 _ _ _ Hi) Hc Hl (records s) N) as W.
    unfold wipe in W. by rewrite W.
Qed.
Print Assumptions C128_same_signature_clears.
(** C128 is false: two computers that differ in two facts have the same signature, whatever the digests are; e.g. the same user
    with system release 5.1 in version 0-smp or release 5.10 in version -smp.  The runtime of the first stops when a portal is
    created on the second. *)
Definition one := Computer 2485377892354 "Linux" "5.1" "0-smp" "x86_64" "" "ann".
Definition other := Computer 2485377892354 "Linux" "5.10" "-smp" "x86_64" "" "ann".
Theorem C128_signatures_collide_refuted : release one <> release other /\ version one <> version other /\
  forall digest, has_signatures digest -> exists n, get_node_signature digest one = Ok n /\ get_node_signature digest other = Ok n /\
  let h := [RNew 0 7 n None 100] in
  let p := SPortal 7 n 100 false in
  parent_runtime_is_live (rrun h) p n = true /\ parent_runtime_is_live (rrun (h ++ [RNew 1 7 n None 200])) p n = false.
Proof.
  split; [done|]. split; [done|]. intros digest Hd. destruct (Hd one) as [n Hn]. exists n. split; [done|]. split.
  - rewrite <- Hn. reflexivity.
  - cbn zeta. split; unfold parent_runtime_is_live; cbn [rrun fold_left app rstep records sp_loc sp_rid dict_get].
    + change (dict_set (7, n) 100 []) with [((7, n), 100)]. cbn [dict_get]. by rewrite decide_True.
    + rewrite dict_get_set, decide_True by done. done.
Qed.
Print Assumptions C128_signatures_collide_refuted.
(** The hypotheses are met: computers that differ in the user only, and a digest that has signatures. *)
Example C128_example : one_difference one (Computer 2485377892354 "Linux" "5.1" "0-smp" "x86_64" "" "bob") /\
  begins_without_digit (system one) /\ has_signatures (fun _ => "d41d8cd98f00b204e9800998ecf8427e"%string) /\
  ~ one_difference one other.
Proof.
  split; [by vm_compute|]. split; [done|]. split; [|by vm_compute].
  intros c. eexists. vm_compute. reflexivity.
Qed.
