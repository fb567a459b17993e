From Verif.Lib Require Import Py DictLemmas.
From Verif.Model Require Import Misc.
From stdpp Require Import sets.

Section Keywords.
  Context {C : Type}.

  Lemma convert_back_gen (d : dict string C) : forall acc,
    NoDup (dict_keys d) -> (forall k, k ∈ dict_keys d -> dict_get k acc = None) ->
    convert_astkeywords (convert_dict_to_astkeywords d) acc = Ok (acc ++ map (fun '(k, c) => (k, VConst c)) d).
  Proof.
    induction d as [|[k c] d IH]; intros acc Hn Hf; cbn; [by rewrite app_nil_r|].
    unfold dict_keys in Hn. cbn in Hn. inversion Hn as [|? ? Hk Hd]; subst. rewrite IH.
    - rewrite dict_set_fresh by (apply dict_get_None, Hf; set_solver). by rewrite <- app_assoc.
    - done.
    - intros k' Hk'. rewrite dict_get_set. case_decide; [subst; done|]. apply Hf. set_solver.
  Qed.
  Lemma convert_back (d : dict string C) : NoDup (dict_keys d) ->
    convert_astkeywords_to_dict (convert_dict_to_astkeywords d) = Ok (map (fun '(k, c) => (k, VConst c)) d).
  Proof. intros Hn. unfold convert_astkeywords_to_dict. by rewrite convert_back_gen. Qed.

  (** the value a list of keywords gives to a name: its last occurrence *)
  Lemma convert_gen (kws : list (string * expr C)) : forall acc,
    (forall k e, (k, e) ∈ kws -> exists v, literal_eval e = Ok v) ->
    exists d, convert_astkeywords kws acc = Ok d /\
      forall k, dict_get k d = match List.find (fun '(k', _) => bool_decide (k' = k)) (rev kws) with
                          | Some (_, e) => match literal_eval e with Ok v => Some v | Err _ => None end
                          | None => dict_get k acc end.
  Proof.
    induction kws as [|[k e] kws IH]; intros acc Hok; cbn [convert_astkeywords rev].
    - by exists acc.
    - destruct (Hok k e) as [v Hv]; [set_solver|]. rewrite Hv. cbn [rbind].
      destruct (IH (dict_set k v acc)) as (d & Hd & Hg); [set_solver|]. exists d. split; [done|]. intros k'. rewrite Hg.
      assert (Hfa : forall (f : string * expr C -> bool) l x, List.find f (l ++ [x]) = match List.find f l with Some y => Some y | None => if f x then Some x else None end).
      { clear. intros f l x. induction l as [|y l IH]; cbn; [done|]. by destruct (f y). }
      rewrite Hfa. destruct (List.find _ (rev kws)) as [[k2 e2]|]; [done|]. rewrite dict_get_set.
      case_bool_decide; case_decide; subst; try done. by rewrite Hv.
  Qed.
  Lemma convert_err (kws : list (string * expr C)) k e x : forall acc, (k, e) ∈ kws -> literal_eval e = Err x -> 
    exists y, convert_astkeywords kws acc = Err y.
  Proof.
    induction kws as [|[k' e'] kws IH]; intros acc Hin He; [set_solver|]. cbn.
    destruct (literal_eval e') as [v|y] eqn:Ev; cbn; [|eauto]. apply IH; [|done].
    apply elem_of_cons in Hin as [[= <- <-]|?]; [congruence|done].
  Qed.
End Keywords.

Section Overlapping.
  Context {V : Type}.
  Lemma dict_get_update (d2 : dict string V) : forall d k,
    dict_get k (dict_update d d2) = match List.find (fun '(k', _) => bool_decide (k' = k)) (rev d2) with
       Some (_, v) => Some v | None => dict_get k d end.
  Proof.
    unfold dict_update. induction d2 as [|[k2 v2] d2 IH]; intros d k; [done|]. cbn [fold_left rev]. rewrite IH.
    assert (Hfa : forall (f : string * V -> bool) l x, List.find f (l ++ [x]) = match List.find f l with Some y => Some y | None => if f x then Some x else None end).
    { clear. intros f l x. induction l as [|y l IH]; cbn; [done|]. by destruct (f y). }
    rewrite Hfa. destruct (List.find _ (rev d2)) as [[? ?]|]; [done|]. rewrite dict_get_set.
    case_bool_decide; case_decide; subst; done.
  Qed.
  Lemma find_get (d : dict string V) k : NoDup (dict_keys d) ->
    match List.find (fun '(k', _) => bool_decide (k' = k)) (rev d) with Some (_, v) => Some v | None => None end = dict_get k d.
  Proof.
    induction d as [|[k1 v1] d IH]; intros Hn; [done|]. unfold dict_keys in Hn. cbn in Hn. inversion Hn as [|? ? Hk Hd]; subst.
    cbn [rev dict_get].
    assert (Hfa : forall (f : string * V -> bool) l x, List.find f (l ++ [x]) = match List.find f l with Some y => Some y | None => if f x then Some x else None end).
    { clear. intros f l x. induction l as [|y l IH]; cbn; [done|]. by destruct (f y). }
    rewrite Hfa. specialize (IH Hd). destruct (List.find _ (rev d)) as [[k2 v2]|] eqn:E; case_decide as Ek; subst; try done.
    - exfalso. apply List.find_some in E as [Hin Hb]. apply bool_decide_eq_true in Hb. subst.
      apply Hk. apply in_rev in Hin. apply elem_of_list_In in Hin. apply elem_of_list_fmap. by exists (k1, v2).
    - by rewrite bool_decide_true.
    - by rewrite bool_decide_false.
  Qed.
  Lemma subdict_params_get nav (shared individual : dict string V) name k :
    NoDup (dict_keys shared) -> NoDup (dict_keys individual) ->
    dict_get k (subdict_params nav shared individual name) =
      if decide (k = "file_type"%string) then Some (nav name) else
      match dict_get k individual with Some v => Some v | None => dict_get k shared end.
  Proof.
    intros Hs Hi. unfold subdict_params. rewrite dict_get_set. case_decide; [done|].
    rewrite !dict_get_update. cbn [dict_get]. rewrite <- (find_get individual), <- (find_get shared) by done.
    destruct (List.find _ (rev individual)) as [[??]|]; done.
  Qed.
  Lemma parts_get nav (shared : dict string V) individual name :
    dict_get name (overlapping_multi_dict nav shared individual) =
    option_map (fun p => subdict_params nav shared p name) (dict_get name individual).
  Proof.
    induction individual as [|[n p] l IH]; [done|]. cbn [overlapping_multi_dict map dict_get]. case_decide; [subst; done|]. apply IH.
  Qed.
End Overlapping.
