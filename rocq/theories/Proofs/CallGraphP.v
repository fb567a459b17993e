From Verif.Lib Require Import Py DictLemmas.
From Verif.Model Require Import CallGraph.
From Verif.Spec Require Import CallGraphSpec.
From stdpp Require Import gmap relations.

Section P.
  Variable ord : nat -> gset string -> list string.
  Hypothesis ord_ok : forall t X, ord t X ≡ₚ elements X.
  Implicit Types (fs : list fn_names) (d : deps) (X Y : gset string).

  Lemma elem_ord t X x : x ∈ ord t X <-> x ∈ X.
  Proof. by rewrite ord_ok, elem_of_elements. Qed.
  Lemma nodup_ord t X : NoDup (ord t X).
  Proof. rewrite ord_ok. apply NoDup_elements. Qed.

  Definition refset (f : fn_names) : gset string := (get_referenced_names f).2.
  Arguments refset : simpl never.
  Lemma elem_refset f x : x ∈ refset f <-> x = n_function f \/ mentions f x.
  Proof. unfold refset, mentions. cbn. set_solver. Qed.

  Lemma collect_snoc fs f : collect (fs ++ [f]) = dict_set (n_function f) (refset f) (collect fs).
  Proof. unfold collect. rewrite fold_left_app. done. Qed.

  Lemma last_def_snoc n fs f : last_def n (fs ++ [f]) = if decide (n_function f = n) then Some f else last_def n fs.
  Proof.
    induction fs as [|g fs IH]; cbn; [done|]. rewrite IH. case_decide; [done|]. done.
  Qed.

  Lemma collect_get fs n : dict_get n (collect fs) = refset <$> last_def n fs.
  Proof.
    induction fs as [|f fs IH] using rev_ind; [done|].
    rewrite collect_snoc, last_def_snoc, dict_get_set, IH.
    destruct (decide (n = n_function f)), (decide (n_function f = n)); try congruence; done.
  Qed.

  Lemma last_def_in n fs : (exists f, last_def n fs = Some f) <-> n ∈ map n_function fs.
  Proof.
    induction fs as [|f fs IH]; cbn; [split; [naive_solver|set_solver]|]. rewrite elem_of_cons, <- IH.
    destruct (last_def n fs); [naive_solver|]. case_decide; naive_solver.
  Qed.

  Lemma last_def_name n fs f : last_def n fs = Some f -> n_function f = n.
  Proof.
    induction fs as [|g fs IH]; cbn; [done|]. destruct (last_def n fs); [naive_solver|]. case_decide; naive_solver.
  Qed.

  Lemma key_set_get d n : n ∈ key_set d <-> exists s, dict_get n d = Some s.
  Proof.
    unfold key_set. rewrite elem_of_list_to_set. destruct (dict_get n d) eqn:E.
    - split; [eauto|]. intros _. destruct (decide (n ∈ dict_keys d)) as [|Hn]; [done|]. apply dict_get_None in Hn. congruence.
    - apply dict_get_None in E. naive_solver.
  Qed.

  Lemma keys_set_present d n s s' : dict_get n d = Some s -> dict_keys (dict_set n s' d) = dict_keys d.
  Proof.
    intros H. rewrite dict_keys_set, decide_True; [done|].
    destruct (decide (n ∈ dict_keys d)) as [|Hn]; [done|]. apply dict_get_None in Hn. congruence.
  Qed.

  Lemma restrict_spec all : forall names d, (forall n, n ∈ names -> n ∈ key_set d) ->
    exists d', restrict names all d = Ok d' /\ dict_keys d' = dict_keys d
      /\ forall n, dict_get n d' = if decide (n ∈ names) then (fun s => s ∩ all) <$> dict_get n d else dict_get n d.
  Proof.
    induction names as [|m names IH]; intros d Hn; cbn [restrict].
    - exists d. split; [done|]. split; [done|]. intros n. by rewrite decide_False by set_solver.
    - destruct (proj1 (key_set_get d m) (Hn m ltac:(set_solver))) as [s Hs]. rewrite Hs.
      destruct (IH (dict_set m (s ∩ all) d)) as (d' & -> & Hk & Hg).
      { intros n Hin. unfold key_set. rewrite (keys_set_present _ _ _ _ Hs). apply Hn. set_solver. }
      exists d'. split; [done|]. split; [by rewrite Hk, (keys_set_present _ _ _ _ Hs)|].
      intros n. rewrite Hg, dict_get_set. destruct (decide (n = m)) as [->|Hne].
      + rewrite (decide_True (P:=m ∈ m :: names)) by set_solver. rewrite Hs. cbn. case_decide; [|done]. f_equal. set_solver.
      + destruct (decide (n ∈ names)).
        * by rewrite decide_True by set_solver.
        * by rewrite decide_False by set_solver.
  Qed.

  Lemma shallow_spec fs : exists d, explore_call_graph_shallow ord fs = Ok d
    /\ dict_keys d = dict_keys (collect fs)
    /\ forall n, dict_get n d = (fun f => refset f ∩ list_to_set (map n_function fs)) <$> last_def n fs.
  Proof.
    unfold explore_call_graph_shallow. set (all := key_set (collect fs)).
    assert (Hall : all = list_to_set (map n_function fs)).
    { apply set_eq. intros n. unfold all. rewrite key_set_get, elem_of_list_to_set, <- last_def_in, collect_get.
      destruct (last_def n fs); cbn; naive_solver. }
    destruct (restrict_spec all (ord 0 all) (collect fs)) as (d & -> & Hk & Hg).
    { intros n Hn. by apply elem_ord in Hn. }
    exists d. split; [done|]. split; [done|]. intros n. rewrite Hg, collect_get, <- Hall.
    case_decide as Hd; rewrite elem_ord in Hd; destruct (last_def n fs) eqn:E; cbn; try done.
    exfalso. apply Hd. unfold all. rewrite key_set_get, collect_get, E. cbn. eauto.
  Qed.


  Lemma shallow_exact fs : exists d, explore_call_graph_shallow ord fs = Ok d
    /\ (forall n, n ∈ dict_keys d <-> n ∈ map n_function fs)
    /\ forall n f, last_def n fs = Some f ->
         exists S, dict_get n d = Some S /\ forall m, m ∈ S <-> m = n \/ references fs n m.
  Proof.
    destruct (shallow_spec fs) as (d & Hd & _ & Hg). exists d. split; [done|]. split.
    - intros n. rewrite <- last_def_in. destruct (decide (n ∈ dict_keys d)) as [Hi|Hi].
      + destruct (dict_get n d) eqn:E; [|by apply dict_get_None in E]. rewrite Hg in E.
        destruct (last_def n fs); naive_solver.
      + assert (E := Hi). apply dict_get_None in E. rewrite Hg in E. destruct (last_def n fs); naive_solver.
    - intros n f Hf. rewrite Hg, Hf. cbn [fmap option_fmap option_map]. eexists. split; [done|]. intros m.
      rewrite elem_of_intersection, elem_refset, elem_of_list_to_set, (last_def_name _ _ _ Hf).
      unfold references. split.
      + intros [[->|Hm] Hin]; [by left|right]. eauto.
      + intros [->|(f' & Hf' & Hm & Hin)]; [split; [by left|]|].
        * apply last_def_in. eauto.
        * split; [|done]. right. congruence.
  Qed.

  (** ** the deep exploration *)
  Lemma add_all_spec d : forall refs acc, (forall r, r ∈ refs -> exists s, dict_get r d = Some s) ->
    exists X, add_all d refs acc = Ok X /\
      forall x, x ∈ X <-> x ∈ acc \/ exists r s, r ∈ refs /\ dict_get r d = Some s /\ x ∈ s.
  Proof.
    induction refs as [|r refs IH]; intros acc Hr; cbn [add_all].
    - exists acc. split; [done|]. intros x. set_solver.
    - destruct (Hr r ltac:(set_solver)) as [s Hs]. rewrite Hs.
      destruct (IH (acc ∪ s)) as (X & -> & HX); [intros; apply Hr; set_solver|].
      exists X. split; [done|]. intros x. rewrite HX, elem_of_union. split.
      + intros [[?|?]|(r' & s' & ? & ? & ?)]; [by left|right; exists r, s; set_solver|right; exists r', s'; set_solver].
      + intros [?|(r' & s' & Hin & Hs' & ?)]; [by left; left|]. apply elem_of_cons in Hin as [->|Hin].
        * left; right. congruence.
        * right. eauto.
  Qed.

  Section Loop.
    Variable all : gset string.
    Variable d : deps.
    Hypothesis d_total : forall n, n ∈ all -> exists s, dict_get n d = Some s /\ s ⊆ all.

    Lemma close_spec (P : string -> Prop) : forall fuel t old, old ⊆ all -> size all < size old + fuel ->
      (forall x, x ∈ old -> P x) ->
      (forall r s x, P r -> dict_get r d = Some s -> x ∈ s -> P x) ->
      exists X, close ord fuel t d old = Ok X /\ old ⊆ X /\ X ⊆ all
        /\ (forall x, x ∈ X -> P x)
        /\ (forall r s, r ∈ X -> dict_get r d = Some s -> s ⊆ X).
    Proof.
      induction fuel as [|fuel IH]; intros t old Hsub Hf HP Hcl; cbn [close].
      - apply subseteq_size in Hsub. lia.
      - destruct (add_all_spec d (ord t old) old) as (X & -> & HX).
        { intros r Hr. apply elem_ord in Hr. destruct (d_total r) as (s & Hs & _); [set_solver|eauto]. }
        cbn [rbind].
        assert (HoX : old ⊆ X) by (intros x Hx; apply HX; by left).
        assert (HXall : X ⊆ all).
        { intros x [Hx|(r & s & Hr & Hs & Hx)]%HX; [set_solver|]. apply elem_ord in Hr.
          destruct (d_total r) as (s' & Hs' & Hss); [set_solver|]. rewrite Hs in Hs'. set_solver. }
        assert (HXP : forall x, x ∈ X -> P x).
        { intros x [Hx|(r & s & Hr & Hs & Hx)]%HX; [auto|]. apply elem_ord in Hr. eauto. }
        case_decide as Hsz.
        + exists X. split; [done|]. split; [done|]. split; [done|]. split; [done|].
          assert (HeqX : X = old).
          { apply leibniz_equiv. apply set_equiv_subseteq; split; [|done]. intros x Hx. destruct (decide (x ∈ old)) as [|Hno]; [done|].
            pose proof (subset_size old X) as Hlt. exfalso. assert (size old < size X); [|lia]. apply Hlt. split; [done|]. set_solver. }
          intros r s Hr Hs x Hx. apply HX. right. exists r, s. split; [|done]. apply elem_ord. by rewrite <- HeqX.
        + pose proof (subseteq_size old X HoX).
          destruct (IH (S t) X) as (Y & -> & HXY & HYall & HYP & HYc); [done|lia|done|done|].
          exists Y. split; [done|]. split; [set_solver|]. done.
    Qed.
  End Loop.

  Section Deep.
    Variable fs : list fn_names.
    Notation names := (list_to_set (map n_function fs) : gset string).
    Definition reach (a b : string) : Prop := a ∈ names /\ rtc (references fs) a b.

    Lemma ref_in a b : references fs a b -> b ∈ names.
    Proof. intros (f & _ & _ & H). by apply elem_of_list_to_set. Qed.
    Lemma reach_in a b : reach a b -> b ∈ names.
    Proof.
      intros [Ha H]. induction H as [|a b c H1 H2 IH]; [done|]. apply IH. by apply (ref_in a).
    Qed.

    (** every stored set lies between the direct references and the reachable functions *)
    Definition between d : Prop := forall n, n ∈ names -> exists s, dict_get n d = Some s /\ n ∈ s
      /\ (forall m, references fs n m -> m ∈ s) /\ (forall m, m ∈ s -> reach n m).
    Definition complete d (n : string) : Prop := exists s, dict_get n d = Some s /\ forall m, m ∈ s <-> reach n m.

    Lemma close_all_spec : forall l fuel t d, (forall n, n ∈ l -> n ∈ names) -> size names < S fuel ->
      between d -> key_set d = names ->
      exists d', close_all ord l (S fuel) t d = Ok d' /\ between d' /\ key_set d' = names /\ dict_keys d' = dict_keys d
       /\ forall n, n ∈ names -> n ∈ l \/ complete d n -> complete d' n.
    Proof.
      induction l as [|n l IH]; intros fuel t d Hl Hf Hb Hk; cbn [close_all].
      - exists d. split; [done|]. split; [done|]. split; [done|]. split; [done|]. intros n Hn [Hx|Hx]; [set_solver|done].
      - destruct (Hb n (Hl n ltac:(set_solver))) as (s & Hs & Hns & Hdir & Hre). rewrite Hs.
        assert (Htot : forall m, m ∈ names -> exists s', dict_get m d = Some s' /\ s' ⊆ names).
        { intros m Hm. destruct (Hb m Hm) as (s' & ? & _ & _ & Hr). exists s'. split; [done|]. intros x Hx. by eapply reach_in, Hr. }
        destruct (close_spec names d Htot (reach n) (S fuel) t s) as (X & -> & HsX & HXn & HXr & HXc).
        { intros x Hx. by eapply reach_in, Hre. }
        { lia. }
        { done. }
        { intros r s' x [Hn Hr] Hs' Hx. destruct (Hb r) as (s'' & Hs'' & _ & _ & Hr'').
          - eapply reach_in. by split.
          - rewrite Hs' in Hs''. inversion Hs''; subst. destruct (Hr'' x Hx) as [_ ?]. split; [done|]. by etrans. }
        cbn [rbind]. assert (HXall : forall m, m ∈ X <-> reach n m).
        { intros m. split; [apply HXr|]. intros [Hn Hr]. assert (n ∈ X) as Hnx by set_solver. clear -Hr Hnx HXc Hb HXn.
          induction Hr as [|a b c H1 H2 IH]; [done|]. apply IH.
          destruct (Hb a) as (sa & Hsa & _ & Hdir & _); [set_solver|]. apply (HXc a sa Hnx Hsa). auto. }
        assert (Hnn : n ∈ names) by (apply Hl; set_solver).
        destruct (IH fuel (t + S fuel) (dict_set n X d)) as (d' & -> & Hb' & Hk' & Hkk & Hc').
        { intros; apply Hl; set_solver. }
        { done. }
        { intros m Hm. rewrite dict_get_set. destruct (decide (m = n)) as [->|].
          - exists X. split; [done|]. split; [set_solver|]. split; [|by intros; apply HXall].
            intros m' Hm'. apply HXall. split; [done|]. by apply rtc_once.
          - by apply Hb. }
        { unfold key_set. rewrite (keys_set_present _ _ _ _ Hs). done. }
        exists d'. split; [done|]. split; [done|]. split; [done|]. split; [by rewrite Hkk, (keys_set_present _ _ _ _ Hs)|].
        intros m Hm Hor. apply Hc'; [done|]. destruct (decide (m = n)) as [->|Hne].
        + right. exists X. rewrite dict_get_set, decide_True by done. done.
        + destruct Hor as [Hin|(s' & Hs' & Hiff)]; [left; set_solver|]. right. exists s'.
          rewrite dict_get_set, decide_False by done. done.
    Qed.
  End Deep.

  Lemma deep_exact fs : exists d, explore_call_graph_deep ord fs = Ok d
    /\ (forall n, n ∈ dict_keys d <-> n ∈ map n_function fs)
    /\ forall n, n ∈ map n_function fs ->
         exists S, dict_get n d = Some S /\ forall m, m ∈ S <-> rtc (references fs) n m.
  Proof.
    unfold explore_call_graph_deep. destruct (shallow_exact fs) as (d & -> & Hk & Hg). cbn [rbind].
    assert (Hks : key_set d = list_to_set (map n_function fs)).
    { apply set_eq. intros n. unfold key_set. rewrite !elem_of_list_to_set. apply Hk. }
    destruct (close_all_spec fs (ord 1 (key_set d)) (size (key_set d)) 2 d) as (d' & -> & Hb & Hk' & Hkk & Hc).
    - intros n Hn. apply elem_ord in Hn. by rewrite <- Hks.
    - rewrite Hks. lia.
    - intros n Hn. apply elem_of_list_to_set in Hn as Hn'. apply last_def_in in Hn' as (f & Hf).
      destruct (Hg n f Hf) as (S & HS & Hiff). exists S. split; [done|]. split; [apply Hiff; by left|].
      split; [intros; apply Hiff; by right|]. intros m Hm. split; [done|]. apply Hiff in Hm as [->|Hm]; [done|]. by apply rtc_once.
    - done.
    - exists d'. split; [done|]. split; [intros n; by rewrite Hkk, Hk|].
      intros n Hn. destruct (Hc n) as (S & HS & Hiff).
      + by apply elem_of_list_to_set.
      + left. apply elem_ord. rewrite Hks. by apply elem_of_list_to_set.
      + exists S. split; [done|]. intros m. rewrite Hiff. unfold reach. split; [by intros []|].
        intros ?. split; [by apply elem_of_list_to_set|done].
  Qed.
End P.
