(** C93: last_execution_attempt, last_execution_output, last_crash and last_event of a result address. *)
From Verif.Lib Require Import Py.
From Verif.Model Require Import Records Timeline.
Local Open Scope Z_scope.

(** ** Specification: read off the happenings alone *)
Section Spec.
  Context {Ctx Crash Val : Type}.
  Notation happening := (happening Ctx Crash Val).
  (** the last happening of a kind, in the order in which they happened *)
  Fixpoint latest {A} (f : happening -> option A) (l : list (happening * Z)) : option A :=
    match l with
    | [] => None
    | (x, _) :: l' => match latest f l' with Some a => Some a | None => f x end
    end.
  Definition started (x : happening) : option Ctx := match x with Started _ c => Some c | _ => None end.
  Definition printed (x : happening) : option text := match x with Printed _ o => Some o | _ => None end.
  Definition crashed (x : happening) : option Crash := match x with Crashed _ c => Some c | _ => None end.
  (** nothing is written twice: runs have their own ids, crashes too *)
  Definition key_of (x : happening) : nat * text :=
    match x with Started r _ => (0%nat, r) | Crashed i _ => (1%nat, i) | Printed r _ => (2%nat, r) | Returned r _ => (3%nat, r) end.
  Definition own_ids (l : list (happening * Z)) : Prop := NoDup (map (fun '(x, _) => key_of x) l).
  (** the clock moves on between any two happenings *)
  Definition ticking (l : list (happening * Z)) : Prop := forall i j x y, (i < j)%nat -> l !! i = Some x -> l !! j = Some y -> snd x < snd y.
End Spec.

(** ** Proofs *)
Lemma insert_perm {V} (x : item V) l : insert_newest x l ≡ₚ x :: l.
Proof. induction l as [|y l IH]; cbn; [done|]. destruct (_ <=? _); [done|]. rewrite IH. by rewrite Permutation_swap. Qed.
Lemma newest_perm {V} (l : list (item V)) : newest_first l ≡ₚ l.
Proof. induction l as [|x l IH]; cbn; [done|]. by rewrite insert_perm, IH. Qed.
Definition at_time {V} (x : item V) : Z := snd (fst x).
Definition sorted {V} (l : list (item V)) : Prop := forall x l', l = x :: l' -> forall y, y ∈ l' -> at_time y <= at_time x.
Lemma head_newest {V} (l : list (item V)) x : head (newest_first l) = Some x -> x ∈ l /\ forall y, y ∈ l -> at_time y <= at_time x.
Proof.
  revert x. induction l as [|z l IH]; intros x; [done|]. change (newest_first (z :: l)) with (insert_newest z (newest_first l)).
  destruct (newest_first l) as [|y l'] eqn:E.
  - cbn. intros [= ->]. pose proof (newest_perm l) as P. rewrite E in P. apply Permutation_nil in P. subst l. split; [left|]. intros y ->%elem_of_list_singleton. done.
  - cbn in *. destruct (IH y eq_refl) as [H1 H2]. destruct (snd (fst y) <=? snd (fst z)) eqn:Ez; intros [= ->].
    + split; [left|]. intros w Hw. apply elem_of_cons in Hw as [->|Hw]; [done|]. specialize (H2 w Hw). unfold at_time in *. lia.
    + split; [by right|]. intros w Hw. apply elem_of_cons in Hw as [->|Hw]; [unfold at_time; lia|]. by apply H2.
Qed.
Lemma last_none {V} (l : list (item V)) : last_value l = None <-> l = [].
Proof.
  unfold last_value, newest_values. split; [|by intros ->]. intros H. destruct (newest_first l) as [|x l'] eqn:E; [|done].
  pose proof (newest_perm l) as P. rewrite E in P. by apply Permutation_nil in P.
Qed.
Lemma last_some {V} (l : list (item V)) v : last_value l = Some v -> exists x, x ∈ l /\ snd x = v /\ forall y, y ∈ l -> at_time y <= at_time x.
Proof.
  unfold last_value, newest_values. intros H. destruct (newest_first l) as [|x l'] eqn:E; [done|]. cbn in H. injection H as <-.
  destruct (head_newest l x) as [H1 H2]; [by rewrite E|]. by exists x.
Qed.
Section Built.
  Context {Ctx Crash Val : Type}.
  Notation happening := (happening Ctx Crash Val).
  Implicit Types l : list (happening * Z).
  (** a store that keeps the happenings selected by [f] under the keys [k] *)
  Definition kept {V} (f : happening -> option (text * V)) l : list (item V) :=
    omap (fun '(x, t) => '(k, v) ← f x; Some (k, t, v)) l.
  Definition f_att (x : happening) := match x with Started r c => Some (r ++ lit "_a", c) | _ => None end.
  Definition f_out (x : happening) := match x with Printed r c => Some (r ++ lit "_output", c) | _ => None end.
  Definition f_res (x : happening) := match x with Returned r c => Some (r, c) | _ => None end.
  Definition f_cra (x : happening) := match x with Crashed r c => Some (r, c) | _ => None end.
  Lemma put_new {V} k t (v : V) d : k ∉ map (fun x => fst (fst x)) d -> put k t v d = d ++ [(k, t, v)].
  Proof.
    intros H. unfold put. destruct (existsb _ d) eqn:E; [|done]. exfalso. apply H. apply existsb_exists in E as ([[k' t'] v'] & Hin & Hb%bool_decide_eq_true).
    subst. apply elem_of_list_fmap. exists (k, t', v'). split; [done|]. by apply elem_of_list_In.
  Qed.
  Lemma kept_snoc {V} (f : happening -> option (text * V)) l x t : kept f (l ++ [(x, t)]) = kept f l ++ match f x with Some (k, v) => [(k, t, v)] | None => [] end.
  Proof. unfold kept. rewrite omap_app. cbn. by destruct (f x) as [[k v]|]. Qed.
  Lemma kept_keys {V} (f : happening -> option (text * V)) l k : k ∈ map (fun x => fst (fst x)) (kept f l) -> exists x t v, (x, t) ∈ l /\ f x = Some (k, v).
  Proof.
    intros ([[k' t'] v'] & -> & H)%elem_of_list_fmap. unfold kept in H. apply elem_of_list_omap in H as ([x t] & Hin & Hf). cbn in Hf.
    destruct (f x) as [[k v]|] eqn:Ef; [|done]. cbn in Hf. injection Hf as <- <- <-. by exists x, t, v.
  Qed.
  Lemma fresh_key l x t : own_ids (l ++ [(x, t)]) -> forall y u, (y, u) ∈ l -> key_of y <> key_of x.
  Proof.
    unfold own_ids. rewrite map_app. intros (_ & H & _)%NoDup_app y u Hy E. apply (H (key_of y)); [|rewrite E; left].
    apply elem_of_list_fmap. by exists (y, u).
  Qed.
  Lemma app_suffix_inj (a b s : text) : a ++ s = b ++ s -> a = b.
  Proof. apply app_inv_tail. Qed.
  Lemma history_after_kept l : own_ids l ->
    history_after l = RunHistory (kept f_att l) (kept f_out l) (kept f_res l) (kept f_cra l) [].
  Proof.
    induction l as [|[x t] l IH] using rev_ind; [done|]. intros H. unfold history_after in *. rewrite fold_left_app. cbn [fold_left].
    rewrite IH by (unfold own_ids in *; rewrite map_app in H; by apply NoDup_app in H as [? _]). rewrite !kept_snoc.
    destruct x as [r c|i c|r o|r v]; cbn [record_happening f_att f_out f_res f_cra attempts outputs run_results crash_items event_items];
      (rewrite put_new; [by rewrite ?app_nil_r|]); intros (y & u & w & Hy & Hf)%kept_keys; apply (fresh_key l _ t H y u Hy);
      destruct y; try done; cbn in Hf; injection Hf as Hf _; cbn; by (apply app_suffix_inj in Hf as -> || rewrite Hf).
  Qed.
  Lemma ticking_snoc l x t : ticking (l ++ [(x, t)]) -> ticking l /\ forall y u, (y, u) ∈ l -> u < t.
  Proof.
    intros H. split.
    - intros i j a b Hij Ha Hb. eapply (H i j); [done|by apply lookup_app_l_Some|by apply lookup_app_l_Some].
    - intros y u (i & Hi)%elem_of_list_lookup. assert (Hl : (i < length l)%nat) by (by eapply lookup_lt_Some).
      specialize (H i (length l) (y, u) (x, t) Hl). cbn in H. apply H; [by apply lookup_app_l_Some|]. by rewrite list_lookup_middle.
  Qed.
  Lemma latest_snoc {A} (f : happening -> option A) l x t : latest f (l ++ [(x, t)]) = match f x with Some a => Some a | None => latest f l end.
  Proof. induction l as [|[y u] l IH]; cbn; [by destruct (f x)|]. rewrite IH. by destruct (f x). Qed.
  Lemma kept_latest {V} (f : happening -> option (text * V)) l d : ticking l -> d ≡ₚ kept f l -> last_value d = latest (fun x => option_map snd (f x)) l.
  Proof.
    revert d. induction l as [|[x t] l IH] using rev_ind; intros d Ht P.
    - apply Permutation_nil_r in P. by subst.
    - apply ticking_snoc in Ht as [Hl Hx]. rewrite latest_snoc, kept_snoc in *. destruct (f x) as [[k v]|] eqn:Ef; cbn; [|apply IH; [done|by rewrite app_nil_r in P]].
      assert (Hin : (k, t, v) ∈ d) by (rewrite P; apply elem_of_app; right; left).
      destruct (last_value d) as [w|] eqn:E; [|apply last_none in E; subst d; by apply elem_of_nil in Hin].
      apply last_some in E as ([[k' t'] v'] & Hy & <- & Hm). cbn. specialize (Hm _ Hin). unfold at_time in Hm. cbn in Hm.
      rewrite P in Hy. apply elem_of_app in Hy as [Hy|Hy]; [|apply elem_of_list_singleton in Hy; by injection Hy as _ _ ->].
      exfalso. unfold kept in Hy. apply elem_of_list_omap in Hy as ([y u] & Hin' & Hf). cbn in Hf. destruct (f y) as [[a b]|]; [|done]. cbn in Hf. injection Hf as _ <- _.
      specialize (Hx y u Hin'). lia.
  Qed.
End Built.

(** While the clock moves on between any two happenings: last_execution_attempt is the context of the run started last (by
    whatever process), last_execution_output the output of the run that ended last, last_crash the crash recorded last, each
    None if there was none, in whatever order the store lists its items; last_event is always None. *)
Theorem C93_last_is_the_latest : forall Ctx Crash Val (l : list (happening Ctx Crash Val * Z)), own_ids l -> ticking l ->
  let h := history_after l in
  forall a o c e, a ≡ₚ attempts h -> o ≡ₚ outputs h -> c ≡ₚ crash_items h -> e ≡ₚ event_items h ->
  last_value a = latest started l /\ last_value o = latest printed l /\ last_value c = latest crashed l /\ last_value e = None.
Proof.
  intros Ctx Crash Val l Ho Ht h a o c e Pa Po Pc Pe. subst h. rewrite history_after_kept in * by done. cbn [attempts outputs crash_items event_items] in *.
  split; [|split; [|split]].
  - rewrite (kept_latest f_att l a Ht Pa). clear. induction l as [|[x t] l IH]; [done|]. cbn. rewrite IH. by destruct x.
  - rewrite (kept_latest f_out l o Ht Po). clear. induction l as [|[x t] l IH]; [done|]. cbn. rewrite IH. by destruct x.
  - rewrite (kept_latest f_cra l c Ht Pc). clear. induction l as [|[x t] l IH]; [done|]. cbn. rewrite IH. by destruct x.
  - apply Permutation_nil_r in Pe. by subst.
Qed.
Print Assumptions C93_last_is_the_latest.

(** With any clock (several machines, jumps, equal times): the answer is the value of an item with the greatest timestamp. *)
Theorem C93_any_clock : forall Ctx Crash Val (l : list (happening Ctx Crash Val * Z)), own_ids l -> forall a, a ≡ₚ attempts (history_after l) ->
  match last_value a with
  | None => forall x t, (x, t) ∈ l -> started x = None
  | Some c => exists r t, (Started r c, t) ∈ l /\ forall r' c' t', (Started r' c', t') ∈ l -> t' <= t
  end.
Proof.
  intros Ctx Crash Val l Ho a P. rewrite history_after_kept in P by done. cbn [attempts] in P.
  assert (Hin : forall r c t, (Started r c, t) ∈ l <-> exists k, (k, t, c) ∈ a /\ k = r ++ lit "_a").
  { intros r c t. setoid_rewrite P. unfold kept. split.
    - intros H. exists (r ++ lit "_a"). split; [|done]. apply elem_of_list_omap. by exists (Started r c, t).
    - intros (k & ([x u] & Hx & Hf)%elem_of_list_omap & ->). cbn in Hf. destruct x as [r' c'| | |]; try done. cbn in Hf. injection Hf as Hf -> ->.
      apply app_suffix_inj in Hf as ->. done. }
  destruct (last_value a) as [c|] eqn:E.
  - apply last_some in E as ([[k t] v] & Hx & <- & Hm). cbn in *.
    assert (exists r, k = r ++ lit "_a" /\ (Started r v, t) ∈ l) as (r & -> & Hr).
    { rewrite P in Hx. unfold kept in Hx. apply elem_of_list_omap in Hx as ([x u] & Hl & Hf). cbn in Hf. destruct x as [r' c'| | |]; try done. cbn in Hf. injection Hf as <- -> ->. by exists r'. }
    exists r, t. split; [done|]. intros r' c' t' H. apply Hin in H as (k & Hk & ->). by specialize (Hm _ Hk).
  - apply last_none in E. subst a. intros x t H. destruct x as [r c| | |]; try done. apply Hin in H as (k & Hk & _). by apply elem_of_nil in Hk.
Qed.
Print Assumptions C93_any_clock.

(** Two attempts of one clock tick are not told apart: the answer may be the older one. *)
Theorem C93_same_tick_refuted : exists (l : list (happening nat nat nat * Z)) a, own_ids l /\ a ≡ₚ attempts (history_after l) /\
  last_value a = Some 1%nat /\ latest started l = Some 2%nat.
Proof.
  exists [(Started (lit "run1") 1%nat, 5); (Started (lit "run2") 2%nat, 5)], [(lit "run1_a", 5, 1%nat); (lit "run2_a", 5, 2%nat)].
  split; [by apply (bool_decide_eq_true_1 (NoDup _))|]. split; [done|]. by vm_compute.
Qed.
Print Assumptions C93_same_tick_refuted.

Example C93_example :
  let l := [(Started (Crash := nat) (Val := nat) (lit "run1") 1%nat, 3); (Crashed (lit "ValueError_f_run1_0") 7%nat, 4); (Printed (lit "run1") (lit "oops"), 5);
            (Started (lit "run2") 2%nat, 6); (Started (lit "run3") 3%nat, 8); (Returned (lit "run2") 9%nat, 11); (Printed (lit "run2") (lit "done"), 12)] in
  own_ids l /\ latest started l = Some 3%nat /\ latest printed l = Some (lit "done") /\ latest crashed l = Some 7%nat /\
  last_value (attempts (history_after l)) = Some 3%nat /\ last_value (outputs (history_after l)) = Some (lit "done") /\
  last_value (crash_items (history_after l)) = Some 7%nat.
Proof. split; [by apply (bool_decide_eq_true_1 (NoDup _))|]. by vm_compute. Qed.
Example C93_ticking_example : ticking [(Started (Ctx := nat) (Crash := nat) (Val := nat) (lit "run1") 1%nat, 3); (Printed (lit "run1") (lit "oops"), 5)].
Proof. intros [|[|i]] [|[|j]] x y Hij; cbn; try lia; try done. intros [= <-] [= <-]. cbn. lia. Qed.

(** Without any assumption on ids: what has been recorded stays, in its place, and no two records of one kind have the same
    name (a second record under a used name is not stored). *)
Lemma put_nodup {V} k t (v : V) d : NoDup (map (fun i => fst (fst i)) d) -> NoDup (map (fun i => fst (fst i)) (put k t v d)).
Proof.
  intros Hn. unfold put. destruct (existsb _ d) eqn:E; [done|]. rewrite map_app. apply NoDup_app. split; [done|]. split; [|apply NoDup_singleton].
  intros x Hx. cbn. rewrite elem_of_list_singleton. intros ->. apply elem_of_list_fmap in Hx as ([[k' t'] v'] & Ek & Hin). cbn in Ek. subst k'.
  apply not_true_iff_false in E. apply E. apply existsb_exists. exists (k, t', v'). split; [by apply elem_of_list_In|]. by apply bool_decide_eq_true_2.
Qed.
Lemma put_prefix {V} k t (v : V) d : d `prefix_of` put k t v d.
Proof. unfold put. case_match; [done|]. by apply prefix_app_r. Qed.
Theorem C93_records_are_final : forall Ctx Crash Val (l m : list (happening Ctx Crash Val * Z)),
  let h := history_after l in let h' := history_after (l ++ m) in
  attempts h `prefix_of` attempts h' /\ outputs h `prefix_of` outputs h' /\
  run_results h `prefix_of` run_results h' /\ crash_items h `prefix_of` crash_items h'.
Proof.
  intros Ctx Crash Val l m. unfold history_after. rewrite fold_left_app. set (h := fold_left _ l no_history). cbn zeta. clearbody h. revert h.
  induction m as [|[x t] m IH]; intros h; cbn [fold_left]; [done|]. destruct (IH (record_happening h x t)) as (A & B & C & E). clear IH.
  assert (attempts h `prefix_of` attempts (record_happening h x t) /\ outputs h `prefix_of` outputs (record_happening h x t) /\
    run_results h `prefix_of` run_results (record_happening h x t) /\ crash_items h `prefix_of` crash_items (record_happening h x t)) as (A' & B' & C' & E').
  { destruct x; cbn; (split; [|split; [|split]]); first [apply put_prefix|done]. }
  split; [by etrans|]. split; [by etrans|]. split; by etrans.
Qed.
Print Assumptions C93_records_are_final.
Theorem C93_one_record_per_name : forall Ctx Crash Val (l : list (happening Ctx Crash Val * Z)),
  let h := history_after l in
  NoDup (map (fun i => fst (fst i)) (attempts h)) /\ NoDup (map (fun i => fst (fst i)) (outputs h)) /\
  NoDup (map (fun i => fst (fst i)) (run_results h)) /\ NoDup (map (fun i => fst (fst i)) (crash_items h)).
Proof.
  intros Ctx Crash Val l. unfold history_after.
  assert (H : forall (h : run_history Ctx Crash Val), NoDup (map (fun i => fst (fst i)) (attempts h)) /\ NoDup (map (fun i => fst (fst i)) (outputs h)) /\
    NoDup (map (fun i => fst (fst i)) (run_results h)) /\ NoDup (map (fun i => fst (fst i)) (crash_items h)) ->
    let h' := fold_left (fun h '(x, t) => record_happening h x t) l h in
    NoDup (map (fun i => fst (fst i)) (attempts h')) /\ NoDup (map (fun i => fst (fst i)) (outputs h')) /\
    NoDup (map (fun i => fst (fst i)) (run_results h')) /\ NoDup (map (fun i => fst (fst i)) (crash_items h'))); [|apply H; repeat split; constructor].
  induction l as [|[x t] l IH]; intros h Hh; [exact Hh|]. cbn [fold_left]. apply IH. destruct Hh as (A & B & C & E).
  destruct x; cbn; (split; [|split; [|split]]); first [by apply put_nodup|done].
Qed.
Print Assumptions C93_one_record_per_name.
(* a second attempt record of the same run is not stored, the first one stays *)
Example C93_second_record : attempts (history_after (Crash := nat) (Val := nat) [(Started (lit "run1") 1%nat, 5); (Started (lit "run1") 2%nat, 6)]) = [(lit "run1_a", 5, 1%nat)].
Proof. by vm_compute. Qed.
