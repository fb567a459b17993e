From Verif.Lib Require Import Py.
From Verif.Model Require Import PureAddr PureExec Grid.
From Verif.Spec Require Import PureAddrSpec PureExecSpec GridSpec.
From Verif.Proofs Require Import PureAddrP.
From stdpp Require Import sorting list_numbers.

Section GridP.
  Context {X : Type}.
  Implicit Types items : list (string * list X).

  (** index vectors *)
  Fixpoint indices items : list (list nat) :=
    match items with
    | [] => [[]]
    | (_, l) :: items' => concat (map (fun i => map (cons i) (indices items')) (seq 0 (length l)))
    end.
  Lemma elem_of_map_cons {Y} (y : Y) ls (i : Y) is : (i :: is) ∈ map (cons y) ls <-> i = y /\ is ∈ ls.
  Proof.
    rewrite elem_of_list_fmap. split.
    - intros (is' & [= -> ->] & H). done.
    - intros [-> H]. by exists is.
  Qed.
  Lemma elem_of_concat_map {Y Z} (f : Y -> list Z) l z : z ∈ concat (map f l) <-> exists y, y ∈ l /\ z ∈ f y.
  Proof.
    induction l as [|y l IH]; cbn.
    - split; [by intros ?%elem_of_nil|]. intros (y & ?%elem_of_nil & _). done.
    - rewrite elem_of_app, IH. split.
      + intros [H|(y' & H1 & H2)]; [exists y|exists y']; (split; [|done]); [apply elem_of_list_here|by apply elem_of_list_further].
      + intros (y' & [->|H]%elem_of_cons & H2); [by left|right; eauto].
  Qed.
  Lemma indices_elem items : forall is, is ∈ indices items <-> positions items is.
  Proof.
    unfold positions. induction items as [|[k l] items IH]; intros is; cbn [indices].
    - rewrite elem_of_list_singleton. split; [by intros ->|]. by inversion 1.
    - rewrite elem_of_concat_map. split.
      + intros (i & Hi & H). apply elem_of_seq in Hi. destruct is as [|j is]; [apply elem_of_list_fmap in H as (? & ? & _); done|].
        apply elem_of_map_cons in H as [-> H]. constructor; [lia|]. by apply IH.
      + intros H. inversion H as [|i ? is' ? Hi Hr]; subst. exists i. split; [apply elem_of_seq; lia|]. apply elem_of_map_cons. split; [done|by apply IH].
  Qed.
  Lemma sorted_app {Y} (R : Y -> Y -> Prop) l1 l2 : StronglySorted R l1 -> StronglySorted R l2 -> (forall x y, x ∈ l1 -> y ∈ l2 -> R x y) ->
    StronglySorted R (l1 ++ l2).
  Proof.
    induction l1 as [|x l1 IH]; intros H1 H2 H; cbn; [done|]. inversion H1 as [|? ? H3 H4]; subst. constructor.
    - apply IH; [done|done|]. intros y z Hy Hz. apply H; [by apply elem_of_list_further|done].
    - apply Forall_app. split; [done|]. apply Forall_forall. intros z Hz. apply H; [apply elem_of_list_here|done].
  Qed.
  Lemma map_cons_sorted i iss : StronglySorted before iss -> StronglySorted before (map (cons i) iss).
  Proof.
    induction 1 as [|is iss H1 IH1 H2]; cbn; constructor; [done|]. apply Forall_map. eapply Forall_impl; [exact H2|]. intros js Hj. cbn. by right.
  Qed.
  Lemma indices_sorted items : StronglySorted before (indices items).
  Proof.
    induction items as [|[k l] items IH]; cbn [indices]; [repeat constructor|]. generalize 0 as s. generalize (length l) as n. intros n. induction n as [|n IHn]; intros s; cbn; [constructor|].
    apply sorted_app; [|apply IHn|].
    - by apply map_cons_sorted.
    - intros x y Hx Hy. apply elem_of_list_fmap in Hx as (x' & -> & _). apply elem_of_concat_map in Hy as (j & Hj & Hy). apply elem_of_seq in Hj.
      apply elem_of_list_fmap in Hy as (y' & -> & _). cbn. left. lia.
  Qed.
  Lemma Forall2_concat {Y Z} (P : Y -> Z -> Prop) ls1 ls2 : Forall2 (Forall2 P) ls1 ls2 -> Forall2 P (concat ls1) (concat ls2).
  Proof. induction 1; cbn; [constructor|]. by apply Forall2_app. Qed.
  Lemma indices_picks items : Forall2 (picks items) (indices items) (map (zip (map fst items)) (product (map snd items))).
  Proof.
    induction items as [|[k l] items IH]; cbn [indices map product].
    - repeat constructor.
    - rewrite concat_map, map_map. apply Forall2_concat. cbn [snd fst].
      assert (Hg : forall s pre, s = length pre -> Forall2 (Forall2 (picks ((k, pre ++ l) :: items))) (map (fun i => map (cons i) (indices items)) (seq s (length l)))
          (map (fun x => map (zip (k :: map fst items)) (map (cons x) (product (map snd items)))) l)).
      { clear -IH. induction l as [|x l IHl]; intros s pre Hs; cbn; constructor.
        - rewrite map_map. apply Forall2_fmap. eapply Forall2_impl; [exact (proj1 (Forall2_fmap_r (zip (map fst items)) (picks items) _ _) IH)|]. intros is vs H. cbn. constructor; [|exact H].
          split; [done|]. subst s. rewrite lookup_app_r by lia. by rewrite Nat.sub_diag.
        - specialize (IHl (S s) (pre ++ [x])). rewrite <- app_assoc in IHl. apply IHl. rewrite app_length. cbn. lia. }
      exact (Hg 0 [] eq_refl).
  Qed.
  Lemma grid_combinations items : all_combinations items (map (zip (map fst items)) (product (map snd items))).
  Proof. exists (indices items). split; [apply indices_sorted|]. split; [apply indices_elem|apply indices_picks]. Qed.
  Lemma concat_map_length {Y Z} (f : Y -> list Z) n l : (forall y, length (f y) = n) -> length (concat (map f l)) = length l * n.
  Proof. intros H. induction l as [|y l IH]; cbn; [done|]. rewrite app_length, H, IH. done. Qed.
  Lemma product_length (ls : list (list X)) : length (product ls) = foldr Nat.mul 1 (map length ls).
  Proof. induction ls as [|l ls IH]; cbn; [done|]. rewrite (concat_map_length _ (length (product ls))); [by rewrite IH|]. intros. apply map_length. Qed.

  Lemma check_ok (g : list (string * gvalues X)) items : check_grid g = Ok items <->
    g = map (fun '(k, l) => (k, GSeq l)) items /\ Forall (fun x => snd x <> []) items.
  Proof.
    revert items. induction g as [|[k [[|x l]|]] g IH]; intros items; cbn.
    - split; [intros [= <-]; done|]. intros [E _]. by destruct items.
    - split; [done|]. intros [E H]. destruct items as [|[k' l'] items]; [done|]. injection E as -> <- _. inversion H as [|? ? H1]; subst. by destruct H1.
    - destruct (check_grid g) as [g2|e] eqn:E; cbn.
      + split.
        * intros [= <-]. destruct (proj1 (IH g2) eq_refl) as [-> H]. split; [done|]. by constructor.
        * intros [E2 H]. destruct items as [|[k' l'] items]; [done|]. injection E2 as -> <- E3. apply Forall_cons in H as [_ H].
          by injection (proj2 (IH items) (conj E3 H)) as ->.
      + split; [done|]. intros [E2 H]. destruct items as [|[k' l'] items]; [done|]. injection E2 as -> <- E3. apply Forall_cons in H as [_ H].
        by specialize (proj2 (IH items) (conj E3 H)).
    - split; [done|]. intros [E H]. by destruct items as [|[k' l'] items].
  Qed.
  Lemma check_err (g : list (string * gvalues X)) e : check_grid g = Err e ->
    (e = TypeError /\ exists k, (k, GOther) ∈ g) \/ (e = ValueError /\ exists k, (k, GSeq []) ∈ g).
  Proof.
    induction g as [|[k [[|x l]|]] g IH]; cbn; intros H; [done| | |].
    - injection H as <-. right. split; [done|]. exists k. apply elem_of_list_here.
    - destruct (check_grid g) as [g2|e'] eqn:E; cbn in H; [done|]. injection H as <-.
      destruct (IH eq_refl) as [[-> [k' Hk]]|[-> [k' Hk]]]; [left|right]; (split; [done|]); exists k'; by apply elem_of_list_further.
    - injection H as <-. left. split; [done|]. exists k. apply elem_of_list_here.
  Qed.
  Lemma sort_alphabetical items sorted : NoDup (map fst items) -> alphabetical items sorted -> sort_keys items = sorted.
  Proof.
    intros Hn [Hp Hs]. apply sorted_unique; [apply sort_sorted|exact Hs| |].
    - by rewrite sort_perm.
    - by rewrite sort_perm, Hp.
  Qed.
End GridP.

Section Complete.
  Context {X : Type}.
  Implicit Types items : list (string * list X).
  Lemma picks_lookup items is kw : positions items is -> picks items is kw ->
    map fst kw = map fst items /\ forall k x, (k, x) ∈ kw -> exists l, (k, l) ∈ items /\ x ∈ l.
  Proof.
    unfold positions, picks. intros Hp. revert kw. induction Hp as [|i [k l] is items Hi Hp IH]; intros kw H; cbn in H.
    - inversion H. split; [done|]. by intros ? ? ?%elem_of_nil.
    - inversion H as [|? [k' x] ? kw' H1 H2]; subst. cbn in H1. destruct H1 as [-> Hx]. destruct (IH kw' H2) as [H3 H4]. split; [cbn; by f_equal|].
      intros k2 x2 [[= -> ->]|Hin]%elem_of_cons.
      + exists l. split; [apply elem_of_list_here|]. by eapply elem_of_list_lookup_2.
      + destruct (H4 _ _ Hin) as (l2 & H5 & H6). exists l2. split; [by apply elem_of_list_further|done].
  Qed.
  Lemma positions_exist items kw : NoDup (map fst items) -> map fst kw = map fst items ->
    (forall k x, (k, x) ∈ kw -> exists l, (k, l) ∈ items /\ x ∈ l) -> exists is, positions items is /\ picks items is kw.
  Proof.
    revert kw. induction items as [|[k l] items IH]; intros [|[k' x] kw] Hn He H; try done; cbn in *.
    - exists []. split; constructor.
    - injection He as -> He. inversion Hn as [|? ? Hk Hn']; subst.
      destruct (IH kw Hn' He) as (is & H1 & H2).
      { intros k2 x2 Hin. destruct (H k2 x2) as (l2 & [[= -> ->]|H3]%elem_of_cons & H4); [by apply elem_of_list_further| |eauto].
        exfalso. apply Hk. rewrite <- He. apply elem_of_list_fmap. by exists (k, x2). }
      destruct (H k x) as (l2 & [[= ->]|H3]%elem_of_cons & H4); [apply elem_of_list_here| |].
      + apply elem_of_list_lookup in H4 as [i Hi]. exists (i :: is). split; [constructor; [by eapply lookup_lt_Some|done]|]. constructor; done.
      + exfalso. apply Hk. apply elem_of_list_fmap. by exists (k, l2).
  Qed.
  Lemma combinations_complete items sorted kws : NoDup (map fst items) ->
    alphabetical items sorted -> all_combinations sorted kws ->
    (forall kw, kw ∈ kws -> combination items kw) /\
    (forall kw, combination items kw -> exists kw', kw' ∈ kws /\ kw' ≡ₚ kw).
  Proof.
    intros Hn [Hp Hs] (iss & _ & Hi & Hk). split.
    - intros kw Hin. apply elem_of_list_lookup in Hin as [j Hj]. destruct (Forall2_lookup_r _ _ _ _ _ Hk Hj) as (is & Hj' & H).
      destruct (picks_lookup sorted is kw) as [H1 H2]; [apply Hi; by eapply elem_of_list_lookup_2|done|]. split; [rewrite H1; by rewrite Hp|].
      intros k x Hin. destruct (H2 k x Hin) as (l & H3 & H4). exists l. by rewrite <- Hp.
    - intros kw [H1 H2].
      destruct (Permutation_map_inv fst kw (l1 := map fst sorted)) as (kw' & H3 & H4).
      { by rewrite Hp, <- H1. }
      destruct (positions_exist sorted kw') as (is & H5 & H6); [by rewrite Hp|done| |].
      { intros k x Hin. rewrite <- H4 in Hin. destruct (H2 k x Hin) as (l & H7 & H8). exists l. by rewrite Hp. }
      apply Hi in H5. apply elem_of_list_lookup in H5 as [j Hj]. destruct (Forall2_lookup_l _ _ _ _ _ Hk Hj) as (kw2 & Hj2 & H7).
      exists kw2. split; [by eapply elem_of_list_lookup_2|]. rewrite H4. assert (kw2 = kw') as ->; [|done].
      clear -H6 H7. unfold picks in *. revert kw2 H7. induction H6 as [|[i [k l]] [k' x] z kw' H6 _ IH]; intros kw2 H7; inversion H7 as [|? [k2 x2] ? ? H8]; subst; [done|]. cbn in H6, H8. destruct H6 as [-> Hx], H8 as [-> Hx2].
      rewrite Hx in Hx2. injection Hx2 as ->. f_equal. by apply IH.
  Qed.
End Complete.
