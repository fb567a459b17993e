(** Lemmas about insertion-ordered dictionaries. *)
From Verif.Lib Require Import Py.
From stdpp Require Import sets.

(** ** dict lemmas *)
Section DictLemmas.
  Context {K V : Type} `{EqDecision K}.
  Implicit Types d : dict K V.

  Lemma dict_get_set k k' (v : V) d :
    dict_get k (dict_set k' v d) = if decide (k = k') then Some v else dict_get k d.
  Proof.
    induction d as [|[k1 v1] d IH]; cbn.
    - by destruct (decide (k = k')).
    - destruct (decide (k' = k1)) as [->|Hn]; cbn.
      + by destruct (decide (k = k1)).
      + rewrite IH. destruct (decide (k = k1)) as [->|]; [|done].
        destruct (decide (k1 = k')); congruence.
  Qed.

  Lemma dict_get_None k d : dict_get k d = None <-> k ∉ dict_keys d.
  Proof.
    induction d as [|[k1 v1] d IH]; cbn; [set_solver|].
    destruct (decide (k = k1)); set_solver.
  Qed.

  Lemma dict_set_fresh k (v : V) d : k ∉ dict_keys d -> dict_set k v d = d ++ [(k, v)].
  Proof.
    induction d as [|[k1 v1] d IH]; cbn; [done|]. intros H.
    destruct (decide (k = k1)); [set_solver|]. rewrite IH; set_solver.
  Qed.

  Lemma dict_keys_set k (v : V) d :
    dict_keys (dict_set k v d) = if decide (k ∈ dict_keys d) then dict_keys d else dict_keys d ++ [k].
  Proof.
    unfold dict_keys. induction d as [|[k1 v1] d IH]; cbn; [by rewrite decide_False by set_solver|].
    destruct (decide (k = k1)) as [->|Hn]; cbn.
    - by rewrite decide_True by set_solver.
    - rewrite IH. destruct (decide (k ∈ map fst d)).
      + by rewrite decide_True by set_solver.
      + by rewrite decide_False by set_solver.
  Qed.
End DictLemmas.

