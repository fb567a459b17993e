From Verif.Lib Require Import Py DictLemmas.
From Verif.Model Require Import FirstEntry.
From Verif.Spec Require Import FirstEntrySpec.
From Coq Require Import QArith.
From stdpp Require Import sets.
Local Open Scope nat_scope.

Section P.
  Context {K V : Type} `{EqDecision K}.
  Variable same : V -> V -> bool.
  Notation fed := (fed K V).
  Notation assignment := (assignment K V).
  Implicit Types (s : fed) (a : assignment) (l : list assignment).

  Lemma dict_mem_true k (d : dict K V) : dict_mem k d = true <-> exists v, dict_get k d = Some v.
  Proof. unfold dict_mem. destruct (dict_get k d); naive_solver. Qed.
  Lemma dict_mem_false k (d : dict K V) : dict_mem k d = false <-> dict_get k d = None.
  Proof. unfold dict_mem. destruct (dict_get k d); naive_solver. Qed.

  (** what the two attempts do to the wrapped dict *)
  Definition stored (s : fed) (a : assignment) : dict K V :=
    if dict_mem (a_key a) (wrapped s) then wrapped s else dict_set (a_key a) (a_value a) (wrapped s).

  Definition checks (s : fed) (a : assignment) : bool :=
    match dict_get (a_key a) (wrapped s) with
    | Some _ => true
    | None => match a_fault1 a with FailAfter => true | _ => false end
    end.

  Lemma set_item_present s a v0 : dict_get (a_key a) (wrapped s) = Some v0 ->
    set_item same s a =
    if check_drawn (p_checks s) (a_draw a) then
      if same v0 (a_value a)
      then (FED (wrapped s) (p_checks s) (S (total_checks s)) (S (successful_checks s)), Ok tt)
      else (FED (wrapped s) (p_checks s) (S (total_checks s)) (successful_checks s), Err AssertionError)
    else (s, Ok tt).
  Proof.
    intros H. unfold set_item, try_store. rewrite (proj2 (dict_mem_true _ _)) by eauto.
    rewrite H. unfold check_drawn. destruct s as [d [p|] t u]; cbn; [|done].
    destruct (negb (Qle_bool p 0)); cbn; [|done]. by destruct (negb _).
  Qed.

  Lemma set_item_absent s a : dict_get (a_key a) (wrapped s) = None -> one_fault a ->
    same (a_value a) (a_value a) = true ->
    exists t u, set_item same s a =
      (FED (dict_set (a_key a) (a_value a) (wrapped s)) (p_checks s) (t + total_checks s) (t + successful_checks s), Ok u)
      /\ (a_fault1 a <> FailAfter -> t = 0).
  Proof.
    intros H Hf Hs. unfold set_item, try_store, wrapped_set. rewrite (proj2 (dict_mem_false _ _) H).
    destruct (a_fault1 a) eqn:F1.
    - cbn. rewrite dict_get_set, decide_True by done. exists 0, tt. split; [|done]. by destruct (p_checks s).
    - destruct Hf as [Hf|Hf]; [congruence|]. rewrite Hf. cbn. rewrite (proj2 (dict_mem_false _ _) H).
      cbn. rewrite dict_get_set, decide_True by done. exists 0, tt. split; [|done]. by destruct (p_checks s).
    - cbn. unfold dict_mem. rewrite dict_get_set, decide_True by done. cbn. rewrite dict_get_set, decide_True by done.
      destruct (p_checks s) as [p|]; [|by exists 0, tt].
      destruct (negb (Qle_bool p 0)); cbn; [|by exists 0, tt].
      destruct (negb _); [|by exists 0, tt]. rewrite Hs. by exists 1, tt.
  Qed.

  Lemma set_item_absent_nofault s a : dict_get (a_key a) (wrapped s) = None -> no_fault a ->
    set_item same s a = (FED (dict_set (a_key a) (a_value a) (wrapped s)) (p_checks s) (total_checks s) (successful_checks s), Ok tt).
  Proof.
    intros H [Hf _]. unfold set_item, try_store, wrapped_set. rewrite (proj2 (dict_mem_false _ _) H), Hf.
    cbn. rewrite dict_get_set, decide_True by done. by destruct (p_checks s).
  Qed.

  Lemma set_item_wrapped s a : one_fault a -> (forall v, same v v = true) ->
    wrapped (fst (set_item same s a)) = stored s a /\ p_checks (fst (set_item same s a)) = p_checks s.
  Proof.
    intros Hf Hs. unfold stored. destruct (dict_get (a_key a) (wrapped s)) as [v0|] eqn:H.
    - rewrite (set_item_present s a v0 H), (proj2 (dict_mem_true _ _)) by eauto.
      destruct (check_drawn _ _); [|done]. by destruct (same _ _).
    - destruct (set_item_absent s a H Hf (Hs _)) as (t & u & -> & _). by rewrite (proj2 (dict_mem_false _ _) H).
  Qed.

  Lemma get_stored s a k : dict_get k (stored s a) =
    match dict_get k (wrapped s) with Some v => Some v | None => if decide (a_key a = k) then Some (a_value a) else None end.
  Proof.
    unfold stored, dict_mem. destruct (dict_get (a_key a) (wrapped s)) as [v0|] eqn:H.
    - destruct (dict_get k (wrapped s)) eqn:H2; [done|]. case_decide; congruence.
    - rewrite dict_get_set. destruct (decide (k = a_key a)) as [->|Hn].
      + by rewrite H, decide_True.
      + destruct (dict_get k (wrapped s)); [done|]. by rewrite decide_False by congruence.
  Qed.

  Hypothesis same_refl : forall v, same v v = true.

  Lemma first_wins_from l : forall s, Forall one_fault l -> forall k,
    dict_get k (wrapped (fst (set_items same s l))) =
    match dict_get k (wrapped s) with Some v => Some v | None => first_assigned k l end.
  Proof.
    induction l as [|a l IH]; intros s Hf k; cbn [set_items first_assigned].
    - cbn. by destruct (dict_get k (wrapped s)).
    - inversion Hf; subst. pose proof (set_item_wrapped s a ltac:(done) same_refl) as [Hw _].
      destruct (set_item same s a) as [s1 r]. destruct (set_items same s1 l) as [s2 rs] eqn:E. cbn [fst] in *.
      specialize (IH s1 ltac:(done) k). rewrite E in IH. cbn in IH. rewrite IH, Hw, get_stored.
      destruct (dict_get k (wrapped s)); [done|]. by case_decide.
  Qed.

  Lemma keys_stored s a : NoDup (dict_keys (wrapped s)) -> NoDup (dict_keys (stored s a)).
  Proof.
    intros H. unfold stored. destruct (dict_mem _ _) eqn:E; [done|].
    apply dict_mem_false in E. apply dict_get_None in E. rewrite dict_set_fresh by done.
    unfold dict_keys in *. rewrite map_app. apply NoDup_app. split; [done|]. split; [|apply NoDup_singleton].
    set_solver.
  Qed.

  Lemma keys_nodup l : forall s, Forall one_fault l -> NoDup (dict_keys (wrapped s)) ->
    NoDup (dict_keys (wrapped (fst (set_items same s l)))).
  Proof.
    induction l as [|a l IH]; intros s Hf Hn; cbn [set_items]; [done|].
    inversion Hf; subst. pose proof (set_item_wrapped s a ltac:(done) same_refl) as [Hw _].
    destruct (set_item same s a) as [s1 r]. destruct (set_items same s1 l) as [s2 rs] eqn:E. cbn [fst] in *.
    specialize (IH s1 ltac:(done)). rewrite E in IH. cbn in IH. apply IH. rewrite Hw. by apply keys_stored.
  Qed.

  Lemma first_assigned_in k l : (exists v, first_assigned k l = Some v) <-> k ∈ map a_key l.
  Proof.
    induction l as [|a l IH]; cbn; [split; [naive_solver|set_solver]|].
    rewrite elem_of_cons. case_decide; naive_solver.
  Qed.

  Lemma first_wins p l : Forall one_fault l ->
    let s := fst (set_items same (new_fed p) l) in
    (forall k, dict_get k (wrapped s) = first_assigned k l)
    /\ len s = length (remove_dups (map a_key l)).
  Proof.
    intros Hf s. pose proof (first_wins_from l (new_fed p) Hf) as Hg. cbn in Hg. split; [done|].
    pose proof (keys_nodup l (new_fed p) Hf (NoDup_nil_2)) as Hn.
    unfold len. fold s in Hg, Hn |- *.
    replace (length (wrapped s)) with (length (dict_keys (wrapped s))) by (unfold dict_keys; by rewrite map_length).
    apply Nat.le_antisymm; apply submseteq_length, NoDup_submseteq; auto using NoDup_remove_dups.
    - intros k Hk. rewrite elem_of_remove_dups, <- first_assigned_in, <- Hg.
      destruct (dict_get k (wrapped s)) eqn:E; [eauto|]. by apply dict_get_None in E.
    - intros k Hk. rewrite elem_of_remove_dups, <- first_assigned_in, <- Hg in Hk.
      destruct (decide (k ∈ dict_keys (wrapped s))) as [|Hc]; [done|]. apply dict_get_None in Hc. naive_solver.
  Qed.

  (** counters *)
  Definition is_err (r : res unit) : bool := match r with Ok _ => false | Err _ => true end.
  Lemma counters l : forall s, Forall one_fault l ->
    let '(s', rs) := set_items same s l in
    successful_checks s' + (total_checks s + length (List.filter is_err rs)) = total_checks s' + successful_checks s
    /\ total_checks s <= total_checks s' /\ successful_checks s <= successful_checks s'.
  Proof.
    induction l as [|a l IH]; intros s Hf; cbn [set_items].
    - cbn. lia.
    - inversion Hf; subst. destruct (set_item same s a) as [s1 r] eqn:E1.
      specialize (IH s1 ltac:(done)). destruct (set_items same s1 l) as [s2 rs]. cbn [List.filter].
      assert (successful_checks s1 + (total_checks s + if is_err r then 1 else 0) = total_checks s1 + successful_checks s
          /\ total_checks s <= total_checks s1 /\ successful_checks s <= successful_checks s1).
      { destruct (dict_get (a_key a) (wrapped s)) as [v0|] eqn:Hg.
        - rewrite (set_item_present s a v0 Hg) in E1. destruct (check_drawn _ _); [destruct (same _ _)|]; inversion E1; subst; cbn; lia.
        - destruct (set_item_absent s a Hg ltac:(done) (same_refl _)) as (t & u & E & _). rewrite E in E1. inversion E1; subst; cbn. lia. }
      destruct (is_err r); cbn [length]; lia.
  Qed.

  (** C14, over a whole history *)
  Lemma reassign_exact p l a v0 : Forall one_fault l ->
    first_assigned (a_key a) l = Some v0 ->
    let s := fst (set_items same (new_fed p) l) in
    is_ok (snd (set_item same s a)) = negb (check_drawn p (a_draw a) && negb (same v0 (a_value a)))
    /\ wrapped (fst (set_item same s a)) = wrapped s.
  Proof.
    intros Hf Ha s. pose proof (proj1 (first_wins p l Hf) (a_key a)) as Hg. fold s in Hg. rewrite Ha in Hg.
    assert (Hp : p_checks s = p).
    { clear -Hf same_refl. unfold s. assert (forall s0 : fed, p_checks (fst (set_items same s0 l)) = p_checks s0) as ->; [|done].
      induction l as [|b l IH]; intros s0; cbn [set_items]; [done|]. inversion Hf; subst.
      pose proof (set_item_wrapped s0 b ltac:(done) same_refl) as [_ Hp].
      destruct (set_item same s0 b) as [s1 r]. specialize (IH ltac:(done) s1). destruct (set_items same s1 l). cbn in *. congruence. }
    rewrite (set_item_present s a v0 Hg), Hp. destruct (check_drawn _ _); [|by destruct (same _ _)].
    by destruct (same _ _).
  Qed.

  Lemma first_assignment_ok p l a : Forall one_fault l -> one_fault a -> first_assigned (a_key a) l = None ->
    let s := fst (set_items same (new_fed p) l) in
    is_ok (snd (set_item same s a)) = true
    /\ dict_get (a_key a) (wrapped (fst (set_item same s a))) = Some (a_value a).
  Proof.
    intros Hf Ha H s. pose proof (proj1 (first_wins p l Hf) (a_key a)) as Hg. fold s in Hg. rewrite H in Hg.
    destruct (set_item_absent s a Hg Ha (same_refl _)) as (t & u & -> & _). cbn. split; [done|].
    by rewrite dict_get_set, decide_True.
  Qed.

  Lemma first_assigned_some k (l : list assignment) : first_assigned k l <> None <-> exists a, a ∈ l /\ a_key a = k.
  Proof.
    induction l as [|a l IH]; cbn; [split; [done|]; by intros (a & H%elem_of_nil & _)|]. case_decide as E.
    - split; [|done]. intros _. exists a. split; [left|done].
    - rewrite IH. split; intros (b & Hb & Eb); exists b; (split; [|done]); [by right|]. by apply elem_of_cons in Hb as [->|].
  Qed.
  Lemma reads p l k : Forall one_fault l ->
    let s := fst (set_items same (new_fed p) l) in
    get_item s k = match first_assigned k l with Some v => Ok v | None => Err KeyError end
    /\ (contains s k = true <-> exists a, a ∈ l /\ a_key a = k).
  Proof.
    intros Hf s. pose proof (proj1 (first_wins p l Hf) k) as Hg. fold s in Hg. unfold get_item, contains, dict_mem. rewrite Hg.
    rewrite <- first_assigned_some. by destruct (first_assigned k l).
  Qed.

  Lemma never_checks p u : p = None \/ (exists q, p = Some q /\ (q <= 0)%Q) -> check_drawn p u = false.
  Proof.
    intros [->|(q & -> & Hq)]; [done|]. unfold check_drawn. by rewrite (proj2 (Qle_bool_iff q 0) Hq).
  Qed.
  Lemma always_checks u : (0 <= u)%Q -> (u < 1)%Q -> check_drawn (Some 1%Q) u = true.
  Proof.
    intros H0 H1. unfold check_drawn. destruct (Qle_bool 1 u) eqn:E; [|done].
    apply Qle_bool_iff in E. exfalso. by apply (Qlt_not_le _ _ H1).
  Qed.
End P.
