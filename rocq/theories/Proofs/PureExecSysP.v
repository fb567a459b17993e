From Verif.Lib Require Import Py.
From Verif.Model Require Import PureAddr PureExec.
From Verif.Spec Require Import PureAddrSpec PureExecSpec.
From Verif.Proofs Require Import PureAddrP PureExecP.
From Coq Require Import QArith.
From stdpp Require Import gmap sorting.
Local Open Scope nat_scope.

Section Sys.
  Context {D : Type} (data_prefix : D -> string) (hash_of : value D -> string).
  Notation kwargs := (list (string * arg D)).
  Context (body : fn_state -> kwargs -> prog (D := D)) (guards_of : fn_state -> list (guard_fn (D := D))).
  Notation state := (@state D).
  Implicit Types (σ : state).
  Hypothesis CF : collision_free data_prefix hash_of.
  Notation op_tree := (op_tree data_prefix hash_of body guards_of).
  Notation call_addr := (call_addr data_prefix hash_of).
  Notation returned := (returned data_prefix hash_of).
  Notation agrees := (agrees_with_evaluation data_prefix hash_of body guards_of).
  Notation evaluates := (evaluates data_prefix hash_of body guards_of).

  Section Op.
  Variable det sq : bool.
  Hypothesis HB : if det then ordinary_functions data_prefix hash_of body guards_of else forall f kw, returns_values (body f kw).
  Notation Inv := (Inv data_prefix hash_of body guards_of det).
  Notation wp := (wp data_prefix hash_of body guards_of det sq).

  Definition op_post (j : job (D := D)) σ (r : option (res (list (arg D)))) : Prop :=
    (forall out, r = Some (Ok out) -> returned j σ out) /\ (det = true -> agrees j r).

  Lemma op_spec (j : job) σ : Inv σ -> shuffles_permute (j_op j) -> (det = true -> op_ordinary (j_op j)) ->
    wp (op_tree (j_ses j) (j_fuel j) (j_portal j) (j_op j)) σ (op_post j).
  Proof.
    intros HI Hsh Ho. destruct j as [ses p n o]. cbn [j_ses j_fuel j_portal j_op] in *. 
    destruct o as [f kw|f kw|f kw|s1 f l|s1 s2 f l|a]; cbn [PureExec.op_tree shuffles_permute op_ordinary] in *.
    - apply wp_pbind. apply (execute_spec data_prefix hash_of body guards_of CF det sq ses HB n p f kw kw); [done|by apply ordargs_refl|].
      intros σ1 r E1 HI1 [H1 H2]. unfold op_post, PureExecSpec.returned, agrees_with_evaluation. cbn [j_op j_ses j_portal j_fuel].
      destruct r as [[x|e]|]; cbn [mcont PureExecP.wp pret]; split; try done.
      + intros out [= <-]. destruct (H1 x eq_refl) as [[v ->] Hr]. by exists v.
      + intros Hd. destruct (H2 Hd) as [Hn Hs]. split_and!; [done| |done]. intros v [= ->]. by apply (Hs (Ok (AVal v))).
      + intros Hd. destruct (H2 Hd) as [Hn Hs]. split_and!; [done|done|]. intros e' [= <-]. by apply (Hs (Err e)).
      + intros Hd. destruct (H2 Hd) as [Hn Hs]. split_and!; [auto|done|done].
    - apply wp_pbind. apply (swarm_spec data_prefix hash_of body guards_of CF det sq ses HB p f kw kw); [done|by apply ordargs_refl|].
      intros σ1 r E1 HI1 H1. unfold op_post, PureExecSpec.returned, agrees_with_evaluation. cbn [j_op j_ses j_portal j_fuel].
      destruct r as [[a|e]|]; cbn [mcont PureExecP.wp pret]; [| |done]; cbn in H1; split; try done.
      + intros out [= <-]. by destruct H1 as (-> & _).
      + eauto.
      + congruence.
    - apply wp_pbind. apply (run_fn_spec data_prefix hash_of body guards_of CF det sq ses HB n p f kw kw); [done|by apply ordargs_refl|].
      intros σ1 r E1 HI1 [H1 H2]. unfold op_post, PureExecSpec.returned, agrees_with_evaluation. cbn [j_op j_ses j_portal j_fuel].
      assert (H3 : det = true -> exists x, as_call r x /\ (x = None -> eval data_prefix hash_of body guards_of n f kw = None) /\
        (forall y, x = Some (Ok y) -> exists v, y = AVal v) /\ (forall y, x = Some y -> evaluates f kw y)).
      { intros Hd. destruct (H2 Hd) as (x & Hx & Hx1 & Hx2). exists x. destruct (Hx2 Hd) as [Hn Hs].
        split_and!; [done|done|intros y Hy; by apply Hx1|intros y Hy; by apply Hs]. }
      destruct r as [[a|e]|]; cbn [mcont PureExecP.wp pret]; split; try done.
      + intros out [= <-]. by destruct H1 as (-> & ?).
      + intros Hd. destruct (H3 Hd) as ([[y|e']|] & Hx & Hn & Hv & Hs); cbn in Hx; try done. split_and!; [done| |done]. intros out _.
        destruct (Hv y eq_refl) as [v ->]. exists v. by apply Hs.
      + intros Hd. destruct (H3 Hd) as ([[y|e']|] & Hx & Hn & Hv & Hs); cbn in Hx; try done. subst e'. split_and!; [done|done|]. intros e' [= <-]. by apply Hs.
      + intros Hd. destruct (H3 Hd) as ([[y|e']|] & Hx & Hn & Hv & Hs); cbn in Hx; try done. split_and!; [auto|done|done].
    - apply wp_pbind. apply (swarm_list_spec data_prefix hash_of body guards_of CF det sq ses HB); [done|done|done|].
      intros σ1 r E1 HI1 H1. unfold op_post, PureExecSpec.returned, agrees_with_evaluation. cbn [j_op j_ses j_portal j_fuel].
      destruct r as [[m|e]|]; cbn [mcont PureExecP.wp pret]; [| |done]; split; try done; [|eauto|congruence].
      intros out [= <-]. destruct H1 as [H1 _]. clear -H1. induction H1 as [|kw ac l m H1 _ IH]; [done|]. cbn. f_equal; [|done]. f_equal. apply H1.
    - destruct Hsh as [Hs1 Hs2]. apply wp_pbind. apply (run_list_spec data_prefix hash_of body guards_of CF det sq ses HB); [done|done|done|done|].
      intros σ1 r E1 HI1 H1 H2. unfold op_post, PureExecSpec.returned, agrees_with_evaluation. cbn [j_op j_ses j_portal j_fuel].
      destruct r as [[m|e]|]; cbn [mcont PureExecP.wp pret]; split; try done.
      + intros out [= <-]. destruct H1 as [H1 H1r]. clear -H1 H1r. induction H1 as [|kw ac l m H1 _ IH]; [split; [done|set_solver]|].
        destruct IH as [IH1 IH2]; [intros ac' Hin; apply H1r; by right|]. cbn. split.
        * f_equal; [|done]. f_equal. apply H1.
        * intros kw' Hin. apply elem_of_cons in Hin as [->|Hin]; [|by apply IH2]. destruct H1 as (Ha & _). rewrite <- Ha. apply H1r. by left.
      + intros Hd e' [= <-]. by apply H2.
    - apply wp_pbind. apply (worker_spec data_prefix hash_of body guards_of CF det sq ses HB); [done|].
      intros σ1 r E1 HI1 H1. unfold op_post, PureExecSpec.returned, agrees_with_evaluation. cbn [j_op j_ses j_portal j_fuel].
      destruct r as [[[]|e]|]; cbn [mcont PureExecP.wp pret]; split; try done.
      + by intros out [= <-].
      + intros Hd e' [= <-]. by apply (proj1 (proj2 H1)).
  Qed.
  Lemma returned_grew j σ σ' out : grew σ σ' -> returned j σ out -> returned j σ' out.
  Proof.
    intros (_ & Hr & _). unfold PureExecSpec.returned. destruct (j_op j); try done.
    - intros (v & -> & H). exists v. split; [done|by apply Hr].
    - intros (-> & H). split; [done|by apply Hr].
    - intros (-> & H). split; [done|]. intros kw Hin. by apply Hr, H.
  Qed.
  Lemma op_post_grew j σ σ' r : grew σ σ' -> op_post j σ r -> op_post j σ' r.
  Proof. intros Hg [H1 H2]. split; [|done]. intros out Ho. eapply returned_grew; [done|auto]. Qed.
  End Op.

  (** any schedule *)
  Section Any.
  Variable det : bool.
  Hypothesis HB : if det then ordinary_functions data_prefix hash_of body guards_of else forall f kw, returns_values (body f kw).
  Notation Inv := (Inv data_prefix hash_of body guards_of det).
  Notation wp := (wp data_prefix hash_of body guards_of det false).
  Notation sys_step := (sys_step data_prefix hash_of body guards_of).
  Notation sys_run := (sys_run data_prefix hash_of body guards_of).
  Definition live σ (pr : proc (D := D)) : Prop := exists σ1, grew σ1 σ /\ wp (p_tree pr) σ1 (op_post det (p_job pr)).
  Definition sys_ok (s : sys (D := D)) : Prop := Inv s.1 /\ forall pr, pr ∈ s.2 -> live s.1 pr.

  Definition req_step (x : action (D := D)) σ σ' : Prop :=
    forall l a, a ∈ reqs (σ l) -> x <> UserDrop l a -> a ∈ reqs (σ' l) \/ is_Some (ress (σ' l) !! a).
  Lemma live_grew σ σ' pr : grew σ σ' -> live σ pr -> live σ' pr.
  Proof. intros Hg (σ1 & H1 & H2). exists σ1. split; [by eapply grew_trans|done]. Qed.
  Lemma step_ok s x : sys_ok s -> (forall j μ, x = Spawn j μ -> shuffles_permute (j_op j) /\ (det = true -> op_ordinary (j_op j))) ->
    sys_ok (sys_step s x) /\ grew s.1 (sys_step s x).1 /\ req_step x s.1 (sys_step s x).1.
  Proof.
    destruct s as [σ ps]. intros [HI Hl] Hx. cbn [fst snd] in *. destruct x as [j μ|i|l a]; cbn [PureExec.sys_step].
    - split; [|split; [apply grew_refl|intros ????; by left]]. split; [done|]. cbn. intros pr Hin. apply elem_of_app in Hin as [Hin|Hin]; [by apply Hl|].
      apply elem_of_list_singleton in Hin as ->. destruct (Hx j μ eq_refl) as [Hs Ho]. exists σ. split; [apply grew_refl|].
      cbn [p_tree p_job]. by apply op_spec.
    - destruct (ps !! i) as [[j [r|e k] μ]|] eqn:Ei; try (split; [by split|split; [apply grew_refl|intros ????; by left]]).
      destruct (perform e σ μ) as [[σ1 μ1] a] eqn:Ep. cbn [fst snd].
      destruct (Hl (Proc j (Step e k) μ)) as (σ0 & Hg0 & Hw); [by eapply elem_of_list_lookup_2|]. cbn [p_tree p_job PureExecP.wp] in Hw.
      destruct (Hw σ Hg0 HI) as [Hp Hk].
      destruct (perform_ok data_prefix hash_of body guards_of CF det false e σ μ σ1 μ1 a HI Hp Ep) as (HG & HI1 & Hpost).
      split; [|split; [apply HG|]].
      + split; [done|]. cbn [fst snd]. intros pr Hin. apply elem_of_list_lookup in Hin as [i' Hi'].
        apply list_lookup_insert_Some in Hi' as [(-> & <- & _)|[_ Hi']].
        * exists σ1. split; [apply grew_refl|]. cbn [p_tree p_job]. by apply Hk.
        * apply (live_grew σ); [apply HG|]. apply Hl. by eapply elem_of_list_lookup_2.
      + intros l0 a0 Hin _. by apply HG.
    - cbn [fst snd].
      assert (Hg : grew σ (upd l (set_reqs (fun r => r ∖ {[a]}) (σ l)) σ)).
      { split_and!; [intros l' b v H|intros l' a' H|intros l']; unfold upd; destruct (decide (l' = l)) as [->|]; done. }
      split; [|split; [done|]].
      + split; cbn [fst snd]; [|intros pr Hin; apply (live_grew σ); [done|by apply Hl]].
        apply (Inv_grew data_prefix hash_of body guards_of det σ); [done|done|..].
        * intros l' b v H. unfold upd in H. destruct (decide (l' = l)) as [->|]; by apply (proj1 HI _ _ _ H).
        * intros l' a' b H. left. unfold upd in H. destruct (decide (l' = l)) as [->|]; done.
        * intros l' a' H. left. unfold upd in H. destruct (decide (l' = l)) as [->|]; [|done]. cbn in H. set_solver.
      + intros l' a' Hin Hne. left. unfold upd. destruct (decide (l' = l)) as [->|]; [|done]. cbn. apply elem_of_difference. split; [done|].
        intros ->%elem_of_singleton. done.
  Qed.
  Lemma run_ok xs : forall s, sys_ok s ->
    (forall j μ, Spawn j μ ∈ xs -> shuffles_permute (j_op j) /\ (det = true -> op_ordinary (j_op j))) ->
    sys_ok (sys_run s xs) /\ grew s.1 (sys_run s xs).1 /\
    forall l a, a ∈ reqs (s.1 l) -> UserDrop l a ∉ xs -> a ∈ reqs ((sys_run s xs).1 l) \/ is_Some (ress ((sys_run s xs).1 l) !! a).
  Proof.
    induction xs as [|x xs IH]; intros s Hs Hx.
    - split; [done|]. split; [apply grew_refl|]. intros l a H _. by left.
    - destruct (step_ok s x Hs) as (H1 & H2 & H3); [intros j μ ->; apply (Hx j μ); by left|].
      destruct (IH (sys_step s x) H1) as (H4 & H5 & H6); [intros j μ Hin; apply (Hx j μ); by right|].
      change (sys_run s (x :: xs)) with (sys_run (sys_step s x) xs). split; [done|]. split; [by eapply grew_trans|].
      intros l a Hin Hnd. destruct (H3 l a Hin) as [H|H]; [intros ->; apply Hnd; by left| |].
      + apply H6; [done|]. intros ?. apply Hnd. by right.
      + right. by apply (proj1 (proj2 H5)).
  Qed.
  Lemma live_done σ pr r : Inv σ -> live σ pr -> p_tree pr = Done r -> op_post det (p_job pr) σ r.
  Proof. intros HI (σ1 & Hg & Hw) E. rewrite E in Hw. cbn in Hw. by eapply op_post_grew. Qed.
  End Any.
End Sys.
