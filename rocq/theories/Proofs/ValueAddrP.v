From Verif.Lib Require Import Py DictLemmas.
From Verif.Model Require Import ValueAddr.
From Verif.Spec Require Import ValueAddrSpec.
From stdpp Require Import sets.

Section P.
  Context {A V : Type} `{EqDecision A} (text_of : V -> A).
  Notation world := (world A V).
  Notation vaddr := (vaddr A V).
  Implicit Types (w : world) (o : vaddr) (d : dict A V).

  Lemma dict_mem_true (a : A) d : dict_mem a d = true <-> exists v, dict_get a d = Some v.
  Proof. unfold dict_mem. destruct (dict_get a d); split; intros; try done; [eauto|naive_solver]. Qed.
  Lemma dict_mem_false (a : A) d : dict_mem a d = false <-> dict_get a d = None.
  Proof. unfold dict_mem. destruct (dict_get a d); split; intros; done. Qed.

  (** ** growth of the stores *)
  Definition grows w w' : Prop := (forall l a v, dict_get a (stores w l) = Some v -> dict_get a (stores w' l) = Some v) /\
    exists more, places w' = places w ++ more.
  Lemma grows_refl w : grows w w. Proof. split; [done|]. exists []. by rewrite app_nil_r. Qed.
  Lemma grows_trans w1 w2 w3 : grows w1 w2 -> grows w2 w3 -> grows w1 w3.
  Proof. intros [H1 [m1 E1]] [H2 [m2 E2]]. split; [auto|]. exists (m1 ++ m2). by rewrite E2, E1, app_assoc. Qed.

  Lemma place_grows w w' p : grows w w' -> p < length (places w) -> place w' p = place w p.
  Proof. intros [_ [m E]] Hp. unfold place. rewrite E. by apply app_nth1. Qed.
  Lemma holds_grows w w' p a v : grows w w' -> holds w p a v -> holds w' p a v.
  Proof.
    intros Hg [Hp Hh]. split; [destruct Hg as [_ [m E]]; rewrite E, app_length; lia|].
    pose proof (place_grows w w' p Hg Hp) as Hpl. unfold place, default_location in Hpl. rewrite Hpl. by apply Hg.
  Qed.

  Definition objs_ext w w' : Prop := forall i o, objs w !! i = Some o -> exists o', objs w' !! i = Some o' /\
    va_text o' = va_text o /\ va_portal o' = va_portal o.
  Lemma objs_ext_refl w : objs_ext w w. Proof. intros i o. eauto. Qed.
  Lemma objs_ext_trans w1 w2 w3 : objs_ext w1 w2 -> objs_ext w2 w3 -> objs_ext w1 w3.
  Proof. intros H1 H2 i o Ho. destruct (H1 i o Ho) as (o' & Ho' & ? & ?). destruct (H2 i o' Ho') as (o'' & ? & ? & ?). exists o''. split; [done|]. split; congruence. Qed.

  Lemma put_grows p a v w : grows w (put p a v w).
  Proof.
    unfold put. destruct (dict_mem a (stores w (place w p))) eqn:E; [apply grows_refl|].
    split; [|exists []; by rewrite app_nil_r]. cbn. intros l a' v' Hg. destruct (decide (l = place w p)) as [->|]; [|done].
    rewrite dict_get_set. case_decide; [|done]. subst. apply dict_mem_false in E. congruence.
  Qed.
  Lemma put_get p a v w l a' : dict_get a' (stores (put p a v w) l) =
    if decide (l = place w p /\ a' = a) then Some (match dict_get a (stores w (place w p)) with Some v' => v' | None => v end)
    else dict_get a' (stores w l).
  Proof.
    unfold put. destruct (dict_mem a (stores w (place w p))) eqn:E.
    - apply dict_mem_true in E as [v' E]. rewrite E. case_decide as Hd; [|done]. destruct Hd as [-> ->]. done.
    - cbn. apply dict_mem_false in E. rewrite E. destruct (decide (l = place w p)) as [->|]; [|by rewrite decide_False by tauto].
      rewrite dict_get_set. destruct (decide (a' = a)); [by rewrite decide_True|by rewrite decide_False by tauto].
  Qed.
  Lemma put_objs p a v w : objs (put p a v w) = objs w.
  Proof. unfold put. by destruct (dict_mem _ _). Qed.
  Lemma put_open p a v w : open (put p a v w) = open w.
  Proof. unfold put. by destruct (dict_mem _ _). Qed.
  Lemma put_places p a v w : places (put p a v w) = places w.
  Proof. unfold put. by destruct (dict_mem _ _). Qed.

  Lemma find_in_spec ps a w : match find_in ps a w with
    | Some (p, v) => p ∈ ps /\ dict_get a (store_of w p) = Some v
    | None => forall p, p ∈ ps -> dict_get a (store_of w p) = None end.
  Proof.
    induction ps as [|p ps IH]; cbn; [set_solver|]. destruct (dict_get a (store_of w p)) as [v|] eqn:E.
    - split; [set_solver|done].
    - destruct (find_in ps a w) as [[q v]|]; [destruct IH; split; [set_solver|done]|]. intros q Hq. apply elem_of_cons in Hq as [->|]; auto.
  Qed.
  Lemma elem_noncurrent w p : p ∈ noncurrent w <-> p < length (places w) /\ current w <> Some p.
  Proof. unfold noncurrent, known. rewrite elem_of_list_filter, elem_of_seq. naive_solver lia. Qed.

  (** ** exact behaviour of get and ready *)
  Inductive get_case (w : world) (i : nat) (o : vaddr) : world -> res V -> Prop :=
  | GetCached v : va_value o = Some v -> get_case w i o w (Ok v)
  | GetUnbound : va_value o = None -> va_portal o = None -> get_case w i o w (Err KeyError)
  | GetOwn p v : va_value o = None -> va_portal o = Some p -> dict_get (va_text o) (store_of w p) = Some v ->
      get_case w i o (set_obj i (VAddr (va_text o) (Some p) (va_ready o) (Some v)) w) (Ok v)
  | GetOther p q v : va_value o = None -> va_portal o = Some p -> dict_get (va_text o) (store_of w p) = None ->
      q < length (places w) -> current w <> Some q -> dict_get (va_text o) (store_of w q) = Some v ->
      get_case w i o (set_obj i (VAddr (va_text o) (Some p) (va_ready o) (Some v)) (put p (va_text o) v w)) (Ok v)
  | GetNone p : va_value o = None -> va_portal o = Some p -> dict_get (va_text o) (store_of w p) = None ->
      (forall q, q < length (places w) -> current w <> Some q -> dict_get (va_text o) (store_of w q) = None) ->
      get_case w i o w (Err KeyError).
  Lemma get_cases w i o w' r : objs w !! i = Some o -> get i w = (w', r) -> get_case w i o w' r.
  Proof.
    intros Ho. unfold get. rewrite Ho. destruct (va_value o) as [v|] eqn:Ev; [intros [= <- <-]; by constructor|].
    destruct (va_portal o) as [p|] eqn:Ep; [|intros [= <- <-]; by constructor].
    destruct (dict_get _ (store_of w p)) as [v|] eqn:Eg; [intros [= <- <-]; by constructor|].
    pose proof (find_in_spec (noncurrent w) (va_text o) w) as Hf. destruct (find_in _ _ w) as [[q v]|].
    - destruct Hf as [[Hq Hc]%elem_noncurrent Hv]. intros [= <- <-]. by eapply GetOther.
    - intros [= <- <-]. eapply GetNone; eauto. intros q Hq Hc. apply Hf. by apply elem_noncurrent.
  Qed.

  Inductive ready_case (w : world) (i : nat) (o : vaddr) : world -> res bool -> Prop :=
  | RFlag : va_ready o = true -> ready_case w i o w (Ok true)
  | RUnbound : va_ready o = false -> va_portal o = None -> ready_case w i o w (Err AttributeError)
  | ROwn p v : va_ready o = false -> va_portal o = Some p -> dict_get (va_text o) (store_of w p) = Some v ->
      ready_case w i o (set_obj i (VAddr (va_text o) (Some p) true (va_value o)) w) (Ok true)
  | ROther p q v : va_ready o = false -> va_portal o = Some p -> dict_get (va_text o) (store_of w p) = None ->
      q < length (places w) -> current w <> Some q -> dict_get (va_text o) (store_of w q) = Some v ->
      ready_case w i o (set_obj i (VAddr (va_text o) (Some p) true (va_value o)) (put p (va_text o) v w)) (Ok true)
  | RNone p : va_ready o = false -> va_portal o = Some p -> dict_get (va_text o) (store_of w p) = None ->
      (forall q, q < length (places w) -> current w <> Some q -> dict_get (va_text o) (store_of w q) = None) ->
      ready_case w i o w (Ok false).
  Lemma ready_cases w i o w' r : objs w !! i = Some o -> ready i w = (w', r) -> ready_case w i o w' r.
  Proof.
    intros Ho. unfold ready. rewrite Ho. destruct (va_ready o) eqn:Ev; [intros [= <- <-]; by constructor|].
    destruct (va_portal o) as [p|] eqn:Ep; [|intros [= <- <-]; by constructor].
    destruct (dict_mem _ (store_of w p)) eqn:Eg; [apply dict_mem_true in Eg as [v Eg]; intros [= <- <-]; by econstructor|].
    apply dict_mem_false in Eg.
    pose proof (find_in_spec (noncurrent w) (va_text o) w) as Hf. destruct (find_in _ _ w) as [[q v]|].
    - destruct Hf as [[Hq Hc]%elem_noncurrent Hv]. intros [= <- <-]. by eapply ROther.
    - intros [= <- <-]. eapply RNone; eauto. intros q Hq Hc. apply Hf. by apply elem_noncurrent.
  Qed.

  (** ** invariants *)
  Record inv w : Prop := Inv {
    inv_store : forall l, correct_store text_of (stores w l);
    inv_open : Forall (fun p => p < length (places w)) (open w);
    inv_obj : forall i o, objs w !! i = Some o ->
      (forall v, va_value o = Some v -> text_of v = va_text o) /\ (forall p, va_portal o = Some p -> p < length (places w))
  }.
  (** a flagged address has its value in its own portal *)
  Definition flag_ok w : Prop := forall i o, objs w !! i = Some o -> va_ready o = true ->
    exists p v, va_portal o = Some p /\ holds w p (va_text o) v.

  Lemma set_obj_grows i o w : grows w (set_obj i o w).
  Proof. split; [done|]. exists []. by rewrite app_nil_r. Qed.
  Lemma set_obj_ext i o o' w : objs w !! i = Some o -> va_text o' = va_text o -> va_portal o' = va_portal o -> objs_ext w (set_obj i o' w).
  Proof.
    intros Ho Ht Hp j oj Hj. cbn. destruct (decide (j = i)) as [->|Hn].
    - rewrite list_lookup_insert by (by eapply lookup_lt_Some). exists o'. naive_solver.
    - rewrite list_lookup_insert_ne by done. eauto.
  Qed.
  Lemma add_obj_ext o w : objs_ext w (fst (add_obj o w)).
  Proof. intros j oj Hj. cbn. exists oj. split; [by apply lookup_app_l_Some|done]. Qed.

  (** what every operation guarantees *)
  Definition fine w w' : Prop := grows w w' /\ objs_ext w w' /\ inv w'.

  Lemma inv_set_obj i o o' w : inv w -> objs w !! i = Some o -> va_text o' = va_text o -> va_portal o' = va_portal o ->
    (forall v, va_value o' = Some v -> text_of v = va_text o) -> inv (set_obj i o' w).
  Proof.
    intros [H1 H2 H3] Ho Ht Hp Hv. split; [done|done|]. intros j oj Hj. cbn in Hj.
    destruct (decide (j = i)) as [->|Hn].
    - rewrite list_lookup_insert in Hj by (by eapply lookup_lt_Some). injection Hj as <-. rewrite Ht, Hp. split; [done|].
      intros p. apply (H3 i o Ho).
    - rewrite list_lookup_insert_ne in Hj by done. by apply (H3 j).
  Qed.
  Lemma inv_put p a v w : inv w -> text_of v = a -> inv (put p a v w).
  Proof.
    intros [H1 H2 H3] Hv. split.
    - intros l a' v'. rewrite put_get. case_decide as Hd; [|by apply H1]. destruct Hd as [-> ->]. intros [= <-].
      destruct (dict_get a _) eqn:E; [by apply H1 in E|done].
    - rewrite put_open, put_places. done.
    - rewrite put_objs, put_places. done.
  Qed.
  Lemma inv_add_obj o w : inv w -> (forall v, va_value o = Some v -> text_of v = va_text o) ->
    (forall p, va_portal o = Some p -> p < length (places w)) -> inv (fst (add_obj o w)).
  Proof.
    intros [H1 H2 H3] Hv Hp. split; [done|done|]. intros j oj Hj. cbn in Hj.
    apply lookup_app_Some in Hj as [Hj|[_ Hj]]; [by apply (H3 j)|]. apply list_lookup_singleton_Some in Hj as [_ <-]. done.
  Qed.

  Lemma store_text w p a v : inv w -> dict_get a (store_of w p) = Some v -> text_of v = a.
  Proof. intros Hi Hg. by apply (inv_store w Hi) in Hg. Qed.

  Lemma get_fine w i : inv w -> fine w (fst (get i w)).
  Proof.
    intros Hi. destruct (objs w !! i) as [o|] eqn:Ho.
    2:{ unfold get. rewrite Ho. split_and!; [apply grows_refl|apply objs_ext_refl|done]. }
    destruct (get i w) as [w' r] eqn:E. cbn. apply (get_cases _ _ _ _ _ Ho) in E. inversion E; subst.
    - split_and!; [apply grows_refl|apply objs_ext_refl|done].
    - split_and!; [apply grows_refl|apply objs_ext_refl|done].
    - split_and!; [apply set_obj_grows|by eapply set_obj_ext|]. eapply inv_set_obj; [done..|]. cbn. intros ? [= <-]. by eapply store_text.
    - assert (text_of v = va_text o) by by eapply store_text. split_and!.
      + eapply grows_trans; [apply put_grows|apply set_obj_grows].
      + eapply objs_ext_trans; [|eapply set_obj_ext; [rewrite put_objs; eauto|done|done]]. intros j oj Hj. rewrite put_objs. eauto.
      + eapply inv_set_obj; [by apply inv_put|by rewrite put_objs|done|done|]. cbn. by intros ? [= <-].
    - split_and!; [apply grows_refl|apply objs_ext_refl|done].
  Qed.
  Lemma ready_fine w i : inv w -> fine w (fst (ready i w)).
  Proof.
    intros Hi. destruct (objs w !! i) as [o|] eqn:Ho.
    2:{ unfold ready. rewrite Ho. split_and!; [apply grows_refl|apply objs_ext_refl|done]. }
    destruct (inv_obj w Hi i o Ho) as [Hv Hp].
    destruct (ready i w) as [w' r] eqn:E. cbn. apply (ready_cases _ _ _ _ _ Ho) in E. inversion E; subst.
    - split_and!; [apply grows_refl|apply objs_ext_refl|done].
    - split_and!; [apply grows_refl|apply objs_ext_refl|done].
    - split_and!; [apply set_obj_grows|by eapply set_obj_ext|]. by eapply inv_set_obj.
    - assert (text_of v = va_text o) by by eapply store_text. split_and!.
      + eapply grows_trans; [apply put_grows|apply set_obj_grows].
      + eapply objs_ext_trans; [|eapply set_obj_ext; [rewrite put_objs; eauto|done|done]]. intros j oj Hj. rewrite put_objs. eauto.
      + eapply inv_set_obj; [by apply inv_put|by rewrite put_objs|done|done|]. done.
    - split_and!; [apply grows_refl|apply objs_ext_refl|done].
  Qed.

  Lemma fine_refl w : inv w -> fine w w.
  Proof. intros. split_and!; [apply grows_refl|apply objs_ext_refl|done]. Qed.
  Lemma fine_trans w1 w2 w3 : fine w1 w2 -> fine w2 w3 -> fine w1 w3.
  Proof. intros (?&?&?) (?&?&?). split_and!; [by eapply grows_trans|by eapply objs_ext_trans|done]. Qed.

  Lemma best_fine sg w w' p : inv w -> opt_portal_exists w sg = true -> best sg w = (w', p) ->
    fine w w' /\ p < length (places w') /\ objs w' = objs w /\ open w' = open w /\ stores w' = stores w.
  Proof.
    intros Hi He. unfold best. destruct sg as [q|].
    - intros [= <- <-]. cbn in He. apply Nat.ltb_lt in He. split_and!; try done. by apply fine_refl.
    - destruct (current w) as [q|] eqn:Ec.
      + intros [= <- <-]. split_and!; try done; [by apply fine_refl|]. unfold current in Ec.
        destruct (open w) as [|x l] eqn:Eo; [done|]. injection Ec as ->. pose proof (inv_open w Hi) as Ho. rewrite Eo in Ho.
        by inversion Ho.
      + destruct (places w) as [|x l] eqn:Ep; cbn.
        * intros [= <- <-]. split_and!; try done; [|cbn; lia]. split_and!.
          -- split; [done|]. exists [default_location]. by rewrite Ep.
          -- intros j oj Hj. eauto.
          -- destruct Hi as [H1 H2 H3]. rewrite Ep in *. split; [done| |].
             ++ cbn. eapply Forall_impl; [exact H2|]. cbn. lia.
             ++ intros j oj Hj. cbn in *. destruct (H3 j oj Hj) as [Hv Hp]. split; [done|]. intros p Hp'. apply Hp in Hp'. lia.
        * intros [= <- <-]. rewrite Ep. cbn. split_and!; try done; [by apply fine_refl|lia].
  Qed.

  Lemma add_fine o w : inv w -> (forall v, va_value o = Some v -> text_of v = va_text o) ->
    (forall p, va_portal o = Some p -> p < length (places w)) -> fine w (fst (add_obj o w)).
  Proof.
    intros. split_and!; [|apply add_obj_ext|by apply inv_add_obj]. split; [done|]. exists []. by rewrite app_nil_r.
  Qed.
  Lemma put_fine p a v w : inv w -> text_of v = a -> fine w (put p a v w).
  Proof. intros. split_and!; [apply put_grows| |by apply inv_put]. intros j oj Hj. rewrite put_objs. eauto. Qed.
  Lemma open_fine os w : inv w -> Forall (fun p => p < length (places w)) os -> fine w (with_open os w).
  Proof.
    intros [H1 H2 H3] Ho. split_and!; [|by intros j oj Hj; eauto|by split].
    split; [done|]. exists []. by rewrite app_nil_r.
  Qed.
  Lemma open_put w p a v os : with_open os (put p a v w) = put p a v (with_open os w).
  Proof. unfold put. change (place (with_open os w) p) with (place w p). change (stores (with_open os w)) with (stores w). by destruct (dict_mem a (stores w (place w p))). Qed.

  Lemma fine_inv w w' : fine w w' -> inv w'. Proof. by intros (_&_&?). Qed.
  Lemma fine_len w w' : fine w w' -> length (places w) <= length (places w').
  Proof. intros ((_ & m & E) & _). rewrite E, app_length. lia. Qed.

  Lemma from_strings_fine a b sg w : inv w -> opt_portal_exists w sg = true -> fine w (fst (from_strings a b sg w)).
  Proof.
    intros Hi He. unfold from_strings. destruct (best sg w) as [w1 p] eqn:Eb.
    destruct (best_fine _ _ _ _ Hi He Eb) as (Hf & Hp & _).
    destruct (add_obj _ w1) as [w2 i] eqn:Ea.
    assert (Hf2 : fine w1 w2). { replace w2 with (fst (add_obj (VAddr a (Some p) false None) w1)) by (by rewrite Ea). apply add_fine; [by eapply fine_inv|done|]. cbn. by intros ? [= <-]. }
    destruct b; [|cbn; by eapply fine_trans]. pose proof (ready_fine w2 i (fine_inv _ _ Hf2)) as Hr.
    destruct (ready i w2) as [w3 [[]|e]]; cbn in *; eapply fine_trans; eauto; by eapply fine_trans.
  Qed.

  Lemma new_of_value_fine v sg w : inv w -> opt_portal_exists w sg = true -> fine w (fst (new_of_value text_of v sg w)).
  Proof.
    intros Hi He. unfold new_of_value. destruct (best sg w) as [w1 p] eqn:Eb.
    destruct (best_fine _ _ _ _ Hi He Eb) as (Hf & Hp & _). cbn. eapply fine_trans; [done|].
    assert (Hf2 : fine w1 (put p (text_of v) v w1)) by (apply put_fine; [by eapply fine_inv|done]).
    eapply fine_trans; [done|]. apply add_fine; [by eapply fine_inv| |].
    - cbn. by intros ? [= <-].
    - cbn. intros ? [= <-]. by rewrite put_places.
  Qed.

  Lemma get_value_text w i o w' v : inv w -> objs w !! i = Some o -> get i w = (w', Ok v) -> text_of v = va_text o.
  Proof.
    intros Hi Ho E. pose proof (proj1 (inv_obj w Hi i o Ho)) as Hval. apply (get_cases _ _ _ _ _ Ho) in E. inversion E; subst.
    - by apply Hval.
    - by eapply store_text.
    - by eapply store_text.
  Qed.
  Lemma get_same_session w i w' r : get i w = (w', r) -> open w' = open w /\ places w' = places w.
  Proof.
    intros E. destruct (objs w !! i) as [o|] eqn:Ho; [|unfold get in E; rewrite Ho in E; by injection E as <- <-].
    apply (get_cases _ _ _ _ _ Ho) in E. inversion E; subst; cbn; rewrite ?put_open, ?put_places; done.
  Qed.

  Lemma new_of_addr_fine j sg w : inv w -> opt_portal_exists w sg = true -> fine w (fst (new_of_addr j sg w)).
  Proof.
    intros Hi He. unfold new_of_addr. destruct (objs w !! j) as [o|] eqn:Ho; [|by apply fine_refl].
    destruct (best sg w) as [w1 p] eqn:Eb. destruct (best_fine _ _ _ _ Hi He Eb) as (Hf & Hp & Hob & Hop & Hst).
    pose proof (fine_inv _ _ Hf) as Hi1.
    destruct (bool_decide _ && _); cycle 1.
    { cbn. eapply fine_trans; [done|]. apply add_fine; [done|done|]. cbn. by intros ? [= <-]. }
    assert (Hf2 : fine w1 (with_open (p :: open w1) w1)). { apply open_fine; [done|]. constructor; [done|]. by apply inv_open. }
    pose proof (get_fine (with_open (p :: open w1) w1) j (fine_inv _ _ Hf2)) as Hf3.
    destruct (get j _) as [w2 r] eqn:Eg. cbn [fst] in Hf3. pose proof (get_same_session _ _ _ _ Eg) as [Hso Hsp].
    assert (Hf4 : fine w2 (with_open (open w1) w2)).
    { apply open_fine; [by eapply fine_inv|]. rewrite Hsp. cbn. by apply inv_open. }
    assert (Hall : fine w (with_open (open w1) w2)). { eapply fine_trans; [exact Hf|]. eapply fine_trans; [exact Hf2|]. by eapply fine_trans. }
    destruct r as [v|e]; [|done]. cbn [fst add_obj].
    assert (text_of v = va_text o).
    { eapply get_value_text; [by eapply fine_inv, Hf2| |exact Eg]. cbn. by rewrite Hob. }
    eapply fine_trans; [exact Hall|]. assert (Hf5 : fine (with_open (open w1) w2) (put p (va_text o) v (with_open (open w1) w2))) by (apply put_fine; [by eapply fine_inv|done]).
    eapply fine_trans; [exact Hf5|]. apply add_fine; [by eapply fine_inv|done|]. cbn. intros ? [= <-]. rewrite put_places. cbn. rewrite Hsp. cbn. done.
  Qed.

  Lemma step_fine w (e : op A V) : inv w -> fine w (step text_of w e).
  Proof.
    intros Hi. destruct e as [l|p| |v s|j s|a b s|i|i|i|i|i|l v]; cbn [step].
    - split_and!; [|by intros j oj Hj; eauto|].
      + split; [done|]. by exists [l].
      + destruct Hi as [H1 H2 H3]. split; [done| |].
        * cbn. eapply Forall_impl; [exact H2|]. cbn. intros. rewrite app_length. lia.
        * intros j oj Hj. cbn in *. destruct (H3 j oj Hj) as [Hv Hp]. split; [done|]. intros p Hp'. apply Hp in Hp'. rewrite app_length. lia.
    - destruct (portal_exists w p) eqn:E; [|by apply fine_refl]. apply Nat.ltb_lt in E. apply open_fine; [done|]. constructor; [done|by apply inv_open].
    - apply open_fine; [done|]. pose proof (inv_open w Hi) as Ho. destruct (open w); [done|]. by inversion Ho.
    - destruct (opt_portal_exists w s) eqn:E; [|by apply fine_refl]. by apply new_of_value_fine.
    - destruct (opt_portal_exists w s) eqn:E; [|by apply fine_refl]. by apply new_of_addr_fine.
    - destruct (opt_portal_exists w s) eqn:E; [|by apply fine_refl]. by apply from_strings_fine.
    - by apply ready_fine.
    - by apply get_fine.
    - unfold copy. destruct (objs w !! i) as [o|] eqn:Ho; [|by apply fine_refl]. apply from_strings_fine; [done|].
      destruct (va_portal o) as [p|] eqn:Ep; [|done]. cbn. apply Nat.ltb_lt. by apply (inv_obj w Hi i o Ho).
    - unfold unpickle. destruct (objs w !! i) as [o|] eqn:Ho; [|by apply fine_refl].
      change (fst (let '(w1, j) := add_obj (VAddr (va_text o) (current w) false None) w in (w1, Ok j))) with (fst (add_obj (VAddr (va_text o) (current w) false None) w)).
      apply add_fine; [done|done|]. cbn. unfold current. pose proof (inv_open w Hi) as Hop. destruct (open w); [done|]. intros ? [= <-]. by inversion Hop.
    - unfold invalidate. destruct (objs w !! i) as [o|] eqn:Ho; [|by apply fine_refl]. cbn [fst].
      split_and!; [apply set_obj_grows|by eapply set_obj_ext|by eapply inv_set_obj].
    - destruct (dict_mem (text_of v) (stores w l)) eqn:E; [by apply fine_refl|]. apply dict_mem_false in E. split_and!.
      + split; [|exists []; by rewrite app_nil_r]. cbn. intros l' a' v' Hg. destruct (decide (l' = l)) as [->|]; [|done].
        rewrite dict_get_set. case_decide; [|done]. congruence.
      + by intros j oj Hj; eauto.
      + destruct Hi as [H1 H2 H3]. split; [|done|done]. intros l' a' v'. cbn. destruct (decide (l' = l)) as [->|]; [|apply H1].
        rewrite dict_get_set. case_decide; [|apply H1]. by intros [= <-].
  Qed.

  Lemma run_fine h : forall w, inv w -> fine w (run text_of w h).
  Proof.
    unfold run. induction h as [|o h IH]; intros w Hi; cbn; [by apply fine_refl|].
    eapply fine_trans; [by apply step_fine|]. apply IH. by eapply fine_inv, step_fine.
  Qed.
  Lemma init_inv st : (forall l, correct_store text_of (st l)) -> inv (init_world st).
  Proof. intros H. split; [done|constructor|]. intros i o Ho. cbn in Ho. done. Qed.
  Lemma reachable_inv w : reachable text_of w -> inv w.
  Proof. intros (st & h & Hst & ->). by eapply fine_inv, run_fine, init_inv. Qed.
  Lemma reachable_run w h : reachable text_of w -> reachable text_of (run text_of w h).
  Proof. intros (st & h0 & Hst & ->). exists st, (h0 ++ h). split; [done|]. unfold run. by rewrite fold_left_app. Qed.

  (** ** theorems *)
  Lemma holds_store w p a v : holds w p a v <-> p < length (places w) /\ dict_get a (store_of w p) = Some v.
  Proof. done. Qed.

  Lemma append_only w h : reachable text_of w -> let w' := run text_of w h in
    (forall l, correct_store text_of (stores w' l)) /\
    (forall l a v, dict_get a (stores w l) = Some v -> dict_get a (stores w' l) = Some v).
  Proof. intros Hr. destruct (run_fine h w (reachable_inv w Hr)) as (Hg & _ & Hi). split; [apply Hi|apply Hg]. Qed.

  (** an address whose own portal holds the value can always be got *)
  Lemma get_own w i p v a : collision_free text_of -> inv w -> bound_to w i a p -> holds w p a v -> snd (get i w) = Ok v.
  Proof.
    intros Hc Hi (r & c & Ho) [Hp Hh]. destruct (get i w) as [w' res] eqn:E. cbn.
    assert (Ht : text_of v = a) by (by apply (inv_store w Hi) in Hh).
    pose proof (proj1 (inv_obj w Hi i _ Ho)) as Hval.
    apply (get_cases _ _ _ _ _ Ho) in E. inversion E; subst; cbn in *; simplify_eq.
    - f_equal. apply Hc. by apply Hval.
    - unfold store_of, place, default_location in *. congruence.
    - unfold store_of, place, default_location in *. congruence.
    - unfold store_of, place, default_location in *. congruence.
  Qed.
  Lemma bound_ext w w' i a p : objs_ext w w' -> bound_to w i a p -> bound_to w' i a p.
  Proof. intros He (r & c & Ho). destruct (He i _ Ho) as ([t q r' c'] & Ho' & ? & ?). cbn in *. subst. by exists r', c'. Qed.
  (** an address bound to c, value held by p: found when p is c or p is not current *)
  Lemma get_anywhere w i c p v a : collision_free text_of -> inv w -> bound_to w i a c -> holds w p a v ->
    p = c \/ current w <> Some p -> snd (get i w) = Ok v.
  Proof.
    intros Hc Hi Hb Hh [->|Hcur]; [by eapply get_own|]. destruct Hb as (r & ca & Ho). destruct Hh as [Hp Hh].
    assert (Ht : text_of v = a) by (by apply (inv_store w Hi) in Hh).
    destruct (get i w) as [w' res] eqn:E. cbn. pose proof E as E'. apply (get_cases _ _ _ _ _ Ho) in E.
    assert (Hok : forall v', res = Ok v' -> v' = v).
    { intros v' ->. apply Hc. rewrite Ht. apply (get_value_text w i _ w' v' Hi Ho E'). }
    inversion E; subst; cbn in *; simplify_eq; try (f_equal; by apply Hok).
    exfalso. match goal with H : forall q, _ -> _ -> dict_get _ _ = None |- _ => specialize (H p Hp Hcur) end.
    unfold store_of, place, default_location in *. congruence.
  Qed.

  Lemma new_value_spec v sg w : inv w -> opt_portal_exists w sg = true -> exists w1 i p, new_of_value text_of v sg w = (w1, Ok i) /\
    fine w w1 /\ bound_to w1 i (text_of v) p /\ (exists v', holds w1 p (text_of v) v') /\
    (forall q, sg = Some q -> p = q) /\ (sg = None -> forall q, current w = Some q -> p = q).
  Proof.
    intros Hi He. pose proof (new_of_value_fine v sg w Hi He) as Hf. unfold new_of_value in *.
    destruct (best sg w) as [w1 p] eqn:Eb. destruct (best_fine _ _ _ _ Hi He Eb) as (_ & Hp & Hob & Hop & Hst).
    eexists _, _, p. split; [done|]. split; [exact Hf|]. split_and!.
    - eexists _, _. cbn. rewrite put_objs. by apply list_lookup_middle.
    - eexists. split; [cbn; by rewrite put_places|]. cbn. rewrite put_places.
      rewrite put_get. rewrite decide_True; [done|]. split; [done|done].
    - intros q ->. unfold best in Eb. by injection Eb as <- <-.
    - intros -> q Hq. unfold best in Eb. rewrite Hq in Eb. by injection Eb as <- <-.
  Qed.

  Lemma holds_value w p a v v' : collision_free text_of -> inv w -> text_of v = a -> holds w p a v' -> holds w p a v.
  Proof. intros Hc Hi Hv [Hp Hh]. pose proof (inv_store w Hi _ _ _ Hh) as Ht. assert (v = v') as -> by (apply Hc; congruence). done. Qed.

  Lemma round_trip : collision_free text_of -> forall w v sg w1 i h, reachable text_of w -> opt_portal_exists w sg = true ->
    new_of_value text_of v sg w = (w1, Ok i) -> snd (get i (run text_of w1 h)) = Ok v.
  Proof.
    intros Hc w v sg w1 i h Hr He En. pose proof (reachable_inv w Hr) as Hi.
    destruct (new_value_spec v sg w Hi He) as (w1' & i' & p & En' & Hf & Hb & (v' & Hh) & _). rewrite En in En'. injection En' as <- <-.
    pose proof (run_fine h w1 (fine_inv _ _ Hf)) as Hf2. eapply (get_own _ _ p); [done|by eapply fine_inv| |].
    - eapply bound_ext; [apply Hf2|exact Hb].
    - eapply holds_grows; [apply Hf2|]. eapply holds_value; [done|by eapply fine_inv|done|exact Hh].
  Qed.

  Lemma new_value_reachable w v sg w1 i : reachable text_of w -> opt_portal_exists w sg = true ->
    new_of_value text_of v sg w = (w1, Ok i) -> reachable text_of w1.
  Proof. intros Hr He En. replace w1 with (run text_of w [OValue v sg]); [by apply reachable_run|]. cbn. by rewrite He, En. Qed.

  (** the portal to which the new address is bound *)
  Lemma round_trip_derived : collision_free text_of -> forall w v sg w1 i h, reachable text_of w -> opt_portal_exists w sg = true ->
    new_of_value text_of v sg w = (w1, Ok i) -> exists p, bound_to w1 i (text_of v) p /\
    let w2 := run text_of w1 h in
    holds w2 p (text_of v) v /\
    (forall w3 j h', copy i w2 = (w3, Ok j) -> snd (get j (run text_of w3 h')) = Ok v) /\
    (forall w3 j c h', bound_to w3 j (text_of v) c -> reachable text_of w3 -> (exists h2, w3 = run text_of w2 h2) ->
        let w4 := run text_of w3 h' in p = c \/ current w4 <> Some p -> snd (get j w4) = Ok v).
  Proof.
    intros Hc w v sg w1 i h Hr He En. pose proof (reachable_inv w Hr) as Hi.
    destruct (new_value_spec v sg w Hi He) as (w1' & i' & p & En' & Hf & Hb & (v' & Hh) & _). rewrite En in En'. injection En' as <- <-.
    pose proof (fine_inv _ _ Hf) as Hi1. assert (Hh1 : holds w1 p (text_of v) v) by by eapply holds_value. clear Hh.
    pose proof (run_fine h w1 Hi1) as Hf2. exists p. split; [done|]. cbn zeta. set (w2 := run text_of w1 h) in *.
    assert (Hh2 : holds w2 p (text_of v) v) by (eapply holds_grows; [apply Hf2|done]).
    pose proof (bound_ext _ _ _ _ _ (proj1 (proj2 Hf2)) Hb) as Hb2. pose proof (fine_inv _ _ Hf2) as Hi2.
    split_and!; [done| |].
    - intros w3 j h' Ec. destruct Hb2 as (r & c & Ho). unfold copy in Ec. rewrite Ho in Ec. cbn [va_text va_portal] in Ec.
      pose proof (from_strings_fine (text_of v) false (Some p) w2 Hi2) as Hf3.
      assert (opt_portal_exists w2 (Some p) = true) as Hex by (cbn; apply Nat.ltb_lt; apply Hh2). specialize (Hf3 Hex). rewrite Ec in Hf3. cbn in Hf3.
      unfold from_strings, best, add_obj in Ec. injection Ec as <- <-. set (w3 := World _ _ _ _) in *.
      pose proof (run_fine h' w3 (fine_inv _ _ Hf3)) as Hf4. eapply (get_own _ _ p); [done|by eapply fine_inv| |].
      + eapply bound_ext; [apply Hf4|]. eexists _, _. cbn. by apply list_lookup_middle.
      + eapply holds_grows; [apply Hf4|]. eapply holds_grows; [apply Hf3|done].
    - intros w3 j c h' Hbj Hr3 [h2 ->] Hp. pose proof (run_fine h2 w2 Hi2) as Hf3.
      pose proof (run_fine h' _ (fine_inv _ _ Hf3)) as Hf4. eapply get_anywhere; [done|by eapply fine_inv|eapply bound_ext; [apply Hf4|exact Hbj]| |exact Hp].
      eapply holds_grows; [apply Hf4|]. eapply holds_grows; [apply Hf3|done].
  Qed.

  (** get and ready, in user's terms *)
  Lemma get_exact w i a c : inv w -> bound_to w i a c -> forall w' r, get i w = (w', r) ->
    same_session w w' /\
    match r with
    | Ok v => text_of v = a
    | Err e => e = KeyError /\ w' = w /\ forall q v, holds w q a v -> q <> c /\ current w = Some q
    end.
  Proof.
    intros Hi (rd & ca & Ho) w' r E. split.
    { by apply (get_same_session w i w' r). }
    destruct r as [v|e]; [by apply (get_value_text w i _ w' v Hi Ho E)|]. apply (get_cases _ _ _ _ _ Ho) in E. inversion E; subst; cbn in *; simplify_eq.
    split_and!; [done|done|]. intros q v [Hq Hh]. split.
    - intros ->. unfold store_of, place, default_location in *. congruence.
    - match goal with |- current ?w = _ => destruct (decide (current w = Some q)) as [|Hne]; [done|] end.
      exfalso. match goal with H : forall q, _ -> _ -> dict_get _ _ = None |- _ => specialize (H q Hq Hne) end.
      unfold store_of, place, default_location in *. congruence.
  Qed.
  Lemma get_copies w i a c : inv w -> objs w !! i = Some (VAddr a (Some c) false None) \/ objs w !! i = Some (VAddr a (Some c) true None) ->
    (forall v, ~ holds w c a v) -> forall w' v, get i w = (w', Ok v) ->
    (exists q, q <> c /\ current w <> Some q /\ holds w q a v) /\ adds_only (nth c (places w) 0) a v w w' /\ same_session w w' /\
    (forall j, j <> i -> objs w' !! j = objs w !! j).
  Proof.
    intros Hi Ho Hno w' v E. assert (exists rd, objs w !! i = Some (VAddr a (Some c) rd None)) as [rd Ho'] by (destruct Ho; eauto).
    clear Ho. pose proof (get_same_session _ _ _ _ E) as Hss. pose proof (proj2 (inv_obj w Hi i _ Ho') c eq_refl) as Hc.
    apply (get_cases _ _ _ _ _ Ho') in E. inversion E; subst; cbn in *; simplify_eq.
    - exfalso. by apply (Hno v).
    - split_and!.
      + exists q. split; [intros ->; by apply (Hno v)|]. by split.
      + split; [done|]. intros l' a'. cbn. rewrite put_get. unfold place, default_location. case_decide; [|done].
        match goal with H : dict_get a (store_of w p) = None |- _ => unfold store_of, place, default_location in H; by rewrite H end.
      + split; cbn; by rewrite ?put_open, ?put_places.
      + intros j Hj. cbn. rewrite put_objs. by rewrite list_lookup_insert_ne.
  Qed.

  Lemma ready_exact w i a c ca : inv w -> objs w !! i = Some (VAddr a (Some c) false ca) -> forall w' r, ready i w = (w', r) ->
    same_session w w' /\
    (r = Ok true /\ (exists v, holds w' c a v) /\ (exists q v, (q = c \/ current w <> Some q) /\ holds w q a v)
     \/ r = Ok false /\ w' = w /\ forall q v, holds w q a v -> q <> c /\ current w = Some q).
  Proof.
    intros Hi Ho w' r E. pose proof (proj2 (inv_obj w Hi i _ Ho) c eq_refl) as Hc.
    apply (ready_cases _ _ _ _ _ Ho) in E. inversion E; subst; cbn in *; simplify_eq.
    - split; [done|]. left. split_and!; [done|by exists v|]. exists p, v. split; [by left|done].
    - split; [split; cbn; by rewrite ?put_open, ?put_places|]. left. split_and!; [done| |].
      + exists v. split; [cbn; by rewrite put_places|]. cbn. rewrite put_places. rewrite put_get, decide_True by done.
        match goal with H : dict_get a (store_of w p) = None |- _ => unfold store_of in H; by rewrite H end.
      + exists q, v. split; [by right|done].
    - split; [done|]. right. split_and!; [done|done|]. intros q v [Hq Hh]. split.
      + intros ->. unfold store_of, place, default_location in *. congruence.
      + match goal with |- current ?w = _ => destruct (decide (current w = Some q)) as [|Hne]; [done|] end.
        exfalso. match goal with H : forall q, _ -> _ -> dict_get _ _ = None |- _ => specialize (H q Hq Hne) end.
        unfold store_of, place, default_location in *. congruence.
  Qed.

  (** ** ready implies gettable, when ValueAddr(address) is only applied to addresses whose value is there *)
  Lemma flag_mono w w' : flag_ok w -> grows w w' -> objs w' = objs w -> flag_ok w'.
  Proof. intros Hf Hg E i o Ho Hr. rewrite E in Ho. destruct (Hf i o Ho Hr) as (p & v & ? & ?). exists p, v. split; [done|]. by eapply holds_grows. Qed.
  Lemma flag_set w i o o' : flag_ok w -> objs w !! i = Some o -> va_text o' = va_text o ->
    (va_ready o' = true -> exists p v, va_portal o' = Some p /\ holds w p (va_text o) v) -> flag_ok (set_obj i o' w).
  Proof.
    intros Hf Ho Ht Hr j oj Hj Hrj. cbn in Hj. destruct (decide (j = i)) as [->|Hn].
    - rewrite list_lookup_insert in Hj by (by eapply lookup_lt_Some). injection Hj as <-. destruct (Hr Hrj) as (p & v & ? & ?). exists p, v. by rewrite Ht.
    - rewrite list_lookup_insert_ne in Hj by done. by apply (Hf j).
  Qed.
  Lemma flag_add w o : flag_ok w -> (va_ready o = true -> exists p v, va_portal o = Some p /\ holds w p (va_text o) v) -> flag_ok (fst (add_obj o w)).
  Proof.
    intros Hf Hr j oj Hj Hrj. cbn in Hj. apply lookup_app_Some in Hj as [Hj|[_ Hj]]; [by apply (Hf j)|].
    apply list_lookup_singleton_Some in Hj as [_ <-]. by apply Hr.
  Qed.
  Lemma put_holds p a v w : p < length (places w) -> exists v', holds (put p a v w) p a v'.
  Proof. intros Hp. eexists. split; [by rewrite put_places|]. rewrite put_places, put_get, decide_True; [done|]. done. Qed.

  Lemma flag_get w i : inv w -> flag_ok w -> flag_ok (fst (get i w)).
  Proof.
    intros Hi Hf. destruct (objs w !! i) as [o|] eqn:Ho; [|unfold get; by rewrite Ho].
    destruct (get i w) as [w' r] eqn:E. cbn. apply (get_cases _ _ _ _ _ Ho) in E. inversion E; subst; try done.
    - eapply flag_set; [done|done|done|]. cbn. intros Hr. destruct (Hf i o Ho Hr) as (p' & v' & Ep & ?). exists p, v'. naive_solver.
    - eapply flag_set; [|by rewrite put_objs|done|].
      + eapply flag_mono; [done|apply put_grows|by rewrite put_objs].
      + cbn. intros _. destruct (put_holds p (va_text o) v w) as [v' Hv]; [by apply (inv_obj w Hi i o Ho)|]. eauto.
  Qed.
  Lemma flag_ready w i : inv w -> flag_ok w -> flag_ok (fst (ready i w)).
  Proof.
    intros Hi Hf. destruct (objs w !! i) as [o|] eqn:Ho; [|unfold ready; by rewrite Ho].
    destruct (ready i w) as [w' r] eqn:E. cbn. apply (ready_cases _ _ _ _ _ Ho) in E. inversion E; subst; try done.
    - eapply flag_set; [done|done|done|]. cbn. intros _. exists p, v. split; [done|]. split; [by apply (inv_obj w Hi i o Ho)|done].
    - eapply flag_set; [|by rewrite put_objs|done|].
      + eapply flag_mono; [done|apply put_grows|by rewrite put_objs].
      + cbn. intros _. destruct (put_holds p (va_text o) v w) as [v' Hv]; [by apply (inv_obj w Hi i o Ho)|]. eauto.
  Qed.
  (** from_strings(..., assert_readiness=True): an address comes back only if the value is in its portal *)
  Lemma from_strings_asserted a sg w w' r : inv w -> opt_portal_exists w sg = true -> from_strings a true sg w = (w', r) ->
    exists p, (forall q, sg = Some q -> p = q) /\ p < length (places w') /\ open w' = open w /\
    match r with
    | Ok i => bound_to w' i a p /\ (forall j, objs w !! j <> None -> j <> i) /\ exists v, holds w' p a v
    | Err e => e = AssertionError /\ forall q v, holds w' q a v -> q <> p /\ current w' = Some q
    end.
  Proof.
    intros Hi He. unfold from_strings. destruct (best sg w) as [w1 p] eqn:Eb.
    destruct (best_fine _ _ _ _ Hi He Eb) as (Hf & Hp & Hob & Hop & _).
    destruct (add_obj _ w1) as [w2 i] eqn:Ea.
    assert (Hf2 : fine w1 w2). { replace w2 with (fst (add_obj (VAddr a (Some p) false None) w1)) by (by rewrite Ea). apply add_fine; [by eapply fine_inv|done|]. cbn. by intros ? [= <-]. }
    unfold add_obj in Ea. injection Ea as Ew <-.
    assert (Ho : objs w2 !! length (objs w1) = Some (VAddr a (Some p) false None)).
    { rewrite <- Ew. cbn. rewrite lookup_app_r by lia. by rewrite Nat.sub_diag. }
    intros E. exists p. split. { intros q ->. cbn in Eb. by simplify_eq. }
    destruct (ready (length (objs w1)) w2) as [w3 x] eqn:Er.
    pose proof (ready_fine w2 (length (objs w1)) (fine_inv _ _ Hf2)) as Hr3. rewrite Er in Hr3. cbn in Hr3.
    destruct (ready_exact w2 _ a p None (fine_inv _ _ Hf2) Ho w3 x Er) as [[Hs1 Hs2] Hx].
    assert (Hop2 : open w2 = open w) by (rewrite <- Ew; done).
    assert (Hl2 : places w2 = places w1) by (rewrite <- Ew; done).
    destruct Hx as [(-> & Hh & _)|(-> & -> & Hno)]; simplify_eq.
    - split; [rewrite Hs2, Hl2; lia|]. split; [congruence|]. split; [|split; [|done]].
      + destruct Hr3 as (_ & Hob3 & _). destruct (Hob3 _ _ Ho) as ([t q rr c] & Ho3 & Ht & Hq). cbn in Ht, Hq. subst. by exists rr, c.
      + intros j Hj ->. apply Hj. rewrite <- Hob. apply lookup_ge_None. lia.
    - split; [rewrite Hl2; lia|]. split; [done|]. split; [done|]. exact Hno.
  Qed.

  Lemma flag_strings a b sg w : inv w -> opt_portal_exists w sg = true -> flag_ok w -> flag_ok (fst (from_strings a b sg w)).
  Proof.
    intros Hi He Hf. unfold from_strings. destruct (best sg w) as [w1 p] eqn:Eb.
    destruct (best_fine _ _ _ _ Hi He Eb) as (Hfi & Hp & Hob & _).
    destruct (add_obj _ w1) as [w2 i] eqn:Ea.
    assert (flag_ok w2). { replace w2 with (fst (add_obj (VAddr a (Some p) false None) w1)) by (by rewrite Ea). apply flag_add; [|done]. eapply flag_mono; [done|apply Hfi|done]. }
    assert (Hf2 : fine w1 w2). { replace w2 with (fst (add_obj (VAddr a (Some p) false None) w1)) by (by rewrite Ea). apply add_fine; [by eapply fine_inv|done|]. cbn. by intros ? [= <-]. }
    destruct b; [|done]. pose proof (flag_ready w2 i (fine_inv _ _ Hf2)) as Hr.
    destruct (ready i w2) as [w3 [[]|e]]; cbn in *; auto.
  Qed.
  Lemma flag_step w (e : op A V) : inv w -> flag_ok w -> good_op w e -> flag_ok (step text_of w e).
  Proof.
    intros Hi Hf Hg. pose proof (step_fine w e Hi) as Hfi. destruct e as [l|p| |v s|j s|a b s|i|i|i|i|i|l v]; cbn [step] in *.
    - by eapply flag_mono; [done|apply Hfi|].
    - destruct (portal_exists w p); [|done]. by eapply flag_mono; [done|apply Hfi|].
    - by eapply flag_mono; [done|apply Hfi|].
    - destruct (opt_portal_exists w s) eqn:E; [|done]. unfold new_of_value. destruct (best s w) as [w1 p] eqn:Eb.
      destruct (best_fine _ _ _ _ Hi E Eb) as (Hfi' & Hp & Hob & _).
      apply (flag_add (put p (text_of v) v w1) (VAddr (text_of v) (Some p) true (Some v))).
      + eapply flag_mono; [|apply put_grows|by rewrite put_objs]. eapply flag_mono; [done|apply Hfi'|done].
      + cbn. intros _. destruct (put_holds p (text_of v) v w1) as [v' Hv]; eauto.
    - destruct (opt_portal_exists w s) eqn:E; [|done]. unfold new_of_addr. destruct (objs w !! j) as [o|] eqn:Ho; [|done].
      destruct (best s w) as [w1 p] eqn:Eb. destruct (best_fine _ _ _ _ Hi E Eb) as (Hfi' & Hp & Hob & Hop & Hst).
      assert (Hf1 : flag_ok w1) by (eapply flag_mono; [done|apply Hfi'|done]).
      destruct (bool_decide (Some p <> va_portal o) && negb (dict_mem (va_text o) (store_of w1 p))) eqn:Ec.
      + assert (Hi2 : inv (with_open (p :: open w1) w1)). { eapply fine_inv, open_fine; [by eapply fine_inv|]. constructor; [done|]. eapply inv_open, fine_inv, Hfi'. }
        pose proof (flag_get (with_open (p :: open w1) w1) j Hi2) as Hf2.
        assert (flag_ok (with_open (p :: open w1) w1)) as Hf0 by (by eapply flag_mono; [exact Hf1|split; [done|exists []; by rewrite app_nil_r]|]).
        specialize (Hf2 Hf0). destruct (get j _) as [w2 r] eqn:Eg. cbn [fst] in Hf2.
        pose proof (get_same_session _ _ _ _ Eg) as [Hso Hsp].
        assert (Hf3 : flag_ok (with_open (open w1) w2)) by (by eapply flag_mono; [exact Hf2|split; [done|exists []; by rewrite app_nil_r]|]).
        destruct r as [v|e]; [|done].
        apply (flag_add (put p (va_text o) v (with_open (open w1) w2)) (VAddr (va_text o) (Some p) true None)).
        * eapply flag_mono; [exact Hf3|apply put_grows|by rewrite put_objs].
        * cbn [va_ready va_portal va_text]. intros _. destruct (put_holds p (va_text o) v (with_open (open w1) w2)) as [v' Hv]; [cbn; rewrite Hsp; done|]. eauto.
      + apply (flag_add w1 (VAddr (va_text o) (Some p) true None)); [done|]. cbn [va_ready va_portal va_text]. intros _. apply andb_false_iff in Ec as [Ec|Ec].
        * apply bool_decide_eq_false in Ec. apply dec_stable in Ec. destruct o as [a q r c]. cbn in *. subst q.
          destruct (Hg a p r c Ho) as [v Hv]. exists p, v. split; [done|]. eapply holds_grows; [apply Hfi'|done].
        * apply negb_false_iff, dict_mem_true in Ec as [v Hv]. exists p, v. done.
    - destruct (opt_portal_exists w s) eqn:E; [|done]. by apply flag_strings.
    - by apply flag_ready.
    - by apply flag_get.
    - unfold copy. destruct (objs w !! i) as [o|] eqn:Ho; [|done]. apply flag_strings; [done| |done].
      destruct (va_portal o) as [p|] eqn:Ep; [|done]. cbn. apply Nat.ltb_lt. by apply (inv_obj w Hi i o Ho).
    - unfold unpickle. destruct (objs w !! i) as [o|] eqn:Ho; [|done].
      apply (flag_add w (VAddr (va_text o) (current w) false None)); done.
    - unfold invalidate. destruct (objs w !! i) as [o|] eqn:Ho; [|done]. cbn [fst]. eapply flag_set; done.
    - destruct (dict_mem _ _) eqn:E; [done|]. by eapply flag_mono; [done|apply Hfi|].
  Qed.
  Lemma flag_run h : forall w, inv w -> flag_ok w -> good_history text_of w h -> flag_ok (run text_of w h).
  Proof.
    unfold run. induction h as [|o h IH]; intros w Hi Hf Hg; cbn in *; [done|]. destruct Hg as [Hg1 Hg2].
    apply IH; [by eapply fine_inv, step_fine|by apply flag_step|done].
  Qed.

  Lemma ready_then_get : collision_free text_of -> forall st h i w1, (forall l, correct_store text_of (st l)) ->
    good_history text_of (init_world st) h -> ready i (run text_of (init_world st) h) = (w1, Ok true) ->
    forall h', good_history text_of w1 h' -> exists v, snd (get i (run text_of w1 h')) = Ok v.
  Proof.
    intros Hc st h i w1 Hst Hg Er h' Hg'. pose proof (init_inv st Hst) as Hi0.
    assert (flag_ok (init_world st)) as Hf0 by done.
    pose proof (flag_run h _ Hi0 Hf0 Hg) as Hf. pose proof (fine_inv _ _ (run_fine h _ Hi0)) as Hi.
    set (w := run text_of (init_world st) h) in *.
    assert (Hi1 : inv w1). { pose proof (fine_inv _ _ (ready_fine w i Hi)) as H1. by rewrite Er in H1. }
    assert (exists a p v, bound_to w1 i a p /\ holds w1 p a v) as (a & p & v & Hb & Hh).
    { destruct (objs w !! i) as [o|] eqn:Ho; [|by unfold ready in Er; rewrite Ho in Er]. destruct o as [a q rd ca].
      destruct rd.
      - destruct (Hf i _ Ho eq_refl) as (p & v & Ep & Hh). cbn in *. subst q. unfold ready in Er. rewrite Ho in Er. cbn in Er.
        injection Er as <-. exists a, p, v. split; [by eexists _, _|done].
      - destruct q as [c|]; [|by unfold ready in Er; rewrite Ho in Er]. pose proof (objs_ext_refl w) as _.
        pose proof (ready_exact w i a c ca Hi Ho w1 (Ok true) Er) as [_ [(_ & [v Hv] & _)|[? _]]]; [|done].
        exists a, c, v. split; [|done]. pose proof (proj1 (proj2 (ready_fine w i Hi))) as He. rewrite Er in He. cbn in He.
        eapply bound_ext; [exact He|]. by eexists _, _. }
    exists v. pose proof (run_fine h' w1 Hi1) as Hf2. eapply get_own; [done|by eapply fine_inv|eapply bound_ext; [apply Hf2|exact Hb]|].
    eapply holds_grows; [apply Hf2|done].
  Qed.
End P.
