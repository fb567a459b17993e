From Coq Require Import String.
From Verif Require Import Lib.Py Lib.DictLemmas Model.PyAst Model.SourceText Model.Normalizer Model.PureAddr Model.Ordinarity Spec.OrdinaritySpec Spec.PureAddrSpec Proofs.PureAddrP.
From stdpp Require Import sets.
Local Open Scope nat_scope.

Lemma assert_ordinarity_ok o : assert_ordinarity o = Ok tt <-> exists f, o = PyFunction f /\ plain_function f.
Proof.
  unfold assert_ordinarity, plain_function, accepts_unlimited_positional_args. split.
  - destruct o as [f| | |]; cbn [passert rbind]; try done. intros H. exists f. split; [done|].
    destruct (f_closure f); [done|]. cbn in H. case_bool_decide as Hn; [done|]. cbn in H.
    destruct (existsb _ (f_params f)) eqn:E; [done|]. cbn in H. destruct (f_coroutine f); [done|].
    split; [done|]. split; [done|]. split; [done|]. intros p Hp Hk.
    assert (existsb (fun p => bool_decide (p_kind p = VarPos)) (f_params f) = true) as E'; [|congruence].
    apply existsb_exists. exists p. split; [by apply elem_of_list_In|]. by apply bool_decide_eq_true_2.
  - intros (f & -> & Hc & Hn & Ha & Hv). cbn [passert rbind]. rewrite Hc. cbn. rewrite bool_decide_eq_false_2 by done. cbn.
    destruct (existsb _ (f_params f)) eqn:E; [|by rewrite Ha]. apply existsb_exists in E as (p & Hp & Hk).
    apply bool_decide_eq_true in Hk. by destruct (Hv p (proj2 (elem_of_list_In _ _) Hp)).
Qed.
Lemma normalise_begins m r : normalise_ast m = Ok r -> begins_with_def m.
Proof.
  unfold normalise_ast. destruct m as [l fs]. destruct l; try done. destruct fs as [|[|[lf ff] others] [|? ?]]; try done.
  2: destruct lf as [|[] f| | | | | | | | | | | | | | | | | | | | | | | | | | |]; try done; destruct ff as [|a [|b [|d [|rr [|? ?]]]]]; done.
  destruct lf as [|[] f| | | | | | | | | | | | | | | | | | | | | | | | | | |]; try done. intros _. by exists f, ff, others.
Qed.

Section B.
  Context {V : Type}.
  Implicit Types kw : list (string * V).
  Lemma get_perm kw kw' k : kwargs_ok kw -> kw ≡ₚ kw' -> dict_get k kw = dict_get k kw'.
  Proof.
    unfold kwargs_ok. intros Hn Hp. induction Hp as [|[k1 v1] l l' Hp IH|[k1 v1] [k2 v2] l|l1 l2 l3 H1 IH1 H2 IH2]; [done| | |].
    - cbn in *. rewrite IH; [done|]. by apply NoDup_cons in Hn as [_ ?].
    - cbn in *. apply NoDup_cons in Hn as [Hx Hn]. rewrite elem_of_cons in Hx.
      destruct (decide (k = k1)) as [E1|], (decide (k = k2)) as [E2|]; try done. exfalso. apply Hx. left. congruence.
    - rewrite IH1 by done. apply IH2. by rewrite <- H1.
  Qed.
  Lemma filter_perm {X} (f : X -> bool) (l l' : list X) : l ≡ₚ l' -> List.filter f l ≡ₚ List.filter f l'.
  Proof.
    induction 1 as [|x l l' Hp IH|x y l|l1 l2 l3 H1 IH1 H2 IH2]; cbn; [done| | |by rewrite IH1].
    - destruct (f x); [by constructor|done].
    - destruct (f x), (f y); try done. constructor.
  Qed.
  Lemma unclaimed_perm ps kw kw' : kw ≡ₚ kw' -> unclaimed ps kw ≡ₚ unclaimed ps kw'.
  Proof. apply filter_perm. Qed.
  Lemma bind_all_ext rest rest' kw kw' ps : (forall k, dict_get k kw = dict_get k kw') -> (rest = rest' \/ no_varkw ps) ->
    bind_all rest kw ps = bind_all rest' kw' ps.
  Proof.
    intros Hg Hr. induction ps as [|p ps IH]; [done|]. cbn [bind_all]. rewrite IH.
    - unfold bind_one. rewrite Hg. destruct (p_kind p) eqn:Ek; try done. destruct Hr as [->|Hr]; [done|].
      exfalso. apply (Hr p); [left|done].
    - destruct Hr as [->|Hr]; [by left|]. right. intros q Hq. apply Hr. by right.
  Qed.
  Lemma has_varkw_false ps : no_varkw ps <-> has_varkw ps = false.
  Proof.
    unfold no_varkw, has_varkw. induction ps as [|p ps IH]; cbn; [split; [done|]; intros _ q Hq; by apply elem_of_nil in Hq|].
    rewrite orb_false_iff, <- IH, bool_decide_eq_false. split.
    - intros H. split; [apply H; left|]. intros q Hq. apply H. by right.
    - intros [H1 H2] q Hq. apply elem_of_cons in Hq as [->|Hq]; auto.
  Qed.
  Lemma bind_perm ps kw kw' : kwargs_ok kw -> no_varkw ps -> kw ≡ₚ kw' -> bind ps kw = bind ps kw'.
  Proof.
    intros Hn Hv Hp. unfold bind. pose proof (unclaimed_perm ps _ _ Hp) as Hu.
    assert (bool_decide (unclaimed ps kw = []) = bool_decide (unclaimed ps kw' = [])) as ->.
    { apply bool_decide_ext. split; intros E; rewrite E in Hu; [by apply Permutation_nil|]. symmetry in Hu. by apply Permutation_nil in Hu. }
    destruct (_ || _); [|done]. apply bind_all_ext; [|by right]. intros k. by apply get_perm.
  Qed.
  Lemma unclaimed_nil ps kw : unclaimed ps kw = [] <-> forall k v, (k, v) ∈ kw -> k ∈ keyword_names ps.
  Proof.
    unfold unclaimed. induction kw as [|[k v] kw IH]; cbn [List.filter].
    { split; [|done]. intros _ k v H. by apply elem_of_nil in H. }
    cbn [fst]. case_bool_decide as Hk; cbn [negb]; [rewrite IH|].
    - split.
      + intros H k' v' Hin. apply elem_of_cons in Hin as [[= -> ->]|Hin]; [done|by eapply H].
      + intros H k' v' Hin. apply (H k' v'). by right.
    - split; [done|]. intros H. destruct Hk. apply (H k v). left.
  Qed.
  Lemma elem_keyword_names ps k : k ∈ keyword_names ps <-> exists p, p ∈ ps /\ keyword_param p /\ p_name p = k.
  Proof.
    unfold keyword_names. rewrite elem_of_list_fmap. split.
    - intros (p & -> & Hp). apply elem_of_list_In, filter_In in Hp as [Hp Hb]. exists p. apply elem_of_list_In in Hp.
      split; [done|]. split; [|done]. unfold by_keyword in Hb. unfold keyword_param. destruct (p_kind p); auto; done.
    - intros (p & Hp & Hk & <-). exists p. split; [done|]. apply elem_of_list_In, filter_In. split; [by apply elem_of_list_In|].
      unfold by_keyword. by destruct Hk as [-> | ->].
  Qed.
  (** the bound value of each parameter *)
  Definition bound_value (rest kw : list (string * V)) (p : param) : slot V :=
    match p_kind p with
    | PosOnly => Default
    | PosOrKw | KwOnly => match dict_get (p_name p) kw with Some v => Given v | None => Default end
    | VarPos => EmptyTuple
    | VarKw => Rest rest
    end.
  Lemma bind_all_exact rest kw ps :
    (forall p, p ∈ ps -> required p -> keyword_param p /\ dict_get (p_name p) kw <> None) /\
      bind_all rest kw ps = Ok (map (fun p => (p_name p, bound_value rest kw p)) ps)
    \/ bind_all rest kw ps = Err TypeError /\ exists p, p ∈ ps /\ required p /\ (p_kind p = PosOnly \/ dict_get (p_name p) kw = None).
  Proof.
    induction ps as [|p ps IH]; [left; split; [|done]; intros p Hp; by apply elem_of_nil in Hp|].
    cbn [bind_all].
    assert (Hone : (required p -> keyword_param p /\ dict_get (p_name p) kw <> None) /\ bind_one rest kw p = Ok (bound_value rest kw p)
      \/ bind_one rest kw p = Err TypeError /\ required p /\ (p_kind p = PosOnly \/ dict_get (p_name p) kw = None)).
    { unfold bind_one, or_default, bound_value, required, keyword_param. destruct (p_kind p) eqn:Ek.
      - destruct (p_default p) eqn:Ed; [left; split; [by intros [? _]|done]|right; split_and!; auto; done].
      - destruct (dict_get (p_name p) kw) eqn:Eg; cbn; [left; split; [by auto|done]|].
        destruct (p_default p) eqn:Ed; [left; split; [by intros [? _]|done]|right; split_and!; auto; done].
      - left. split; [by intros (_ & ? & _)|done].
      - destruct (dict_get (p_name p) kw) eqn:Eg; cbn; [left; split; [by auto|done]|].
        destruct (p_default p) eqn:Ed; [left; split; [by intros [? _]|done]|right; split_and!; auto; done].
      - left. split; [by intros (_ & _ & ?)|done]. }
    destruct Hone as [[Hr ->]|[-> Hr]]; cbn [rbind].
    - destruct IH as [[Hall ->]|[-> (q & Hq & Hrq)]]; cbn [rbind].
      + left. split; [|done]. intros q Hq. apply elem_of_cons in Hq as [->|Hq]; auto.
      + right. split; [done|]. exists q. split; [by right|done].
    - right. split; [done|]. exists p. split; [left|done].
  Qed.
  Lemma bind_exact ps kw :
    let fits := (forall p, p ∈ ps -> required p -> keyword_param p /\ dict_get (p_name p) kw <> None)
                /\ ((forall k v, (k, v) ∈ kw -> k ∈ keyword_names ps) \/ exists p, p ∈ ps /\ p_kind p = VarKw) in
    fits /\ bind ps kw = Ok (map (fun p => (p_name p, bound_value (unclaimed ps kw) kw p)) ps)
    \/ ~ fits /\ bind ps kw = Err TypeError.
  Proof.
    cbn zeta. unfold bind. destruct (bool_decide _ || _) eqn:E.
    - assert (Hextra : (forall k v, (k, v) ∈ kw -> k ∈ keyword_names ps) \/ exists p, p ∈ ps /\ p_kind p = VarKw).
      { apply orb_true_iff in E as [E|E]; [left; apply unclaimed_nil; by apply bool_decide_eq_true in E|right].
        apply existsb_exists in E as (p & Hp & Hk). exists p. apply elem_of_list_In in Hp. by apply bool_decide_eq_true in Hk. }
      destruct (bind_all_exact (unclaimed ps kw) kw ps) as [[Hr E2]|[E2 (p & Hp & Hreq & Hbad)]]; [left; auto|right].
      split; [|done]. intros [Hf _]. destruct (Hf p Hp Hreq) as [Hk Hg]. destruct Hbad as [Hbad|Hbad]; [|done].
      destruct Hk; congruence.
    - right. split; [|done]. apply orb_false_iff in E as [E1 E2]. intros [_ [H|(p & Hp & Hk)]].
      + apply bool_decide_eq_false in E1. apply E1, unclaimed_nil, H.
      + apply has_varkw_false in E2. by apply (E2 p).
  Qed.
End B.
