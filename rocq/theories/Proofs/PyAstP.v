From Coq Require Import String.
From Verif Require Import Lib.Py Model.PyAst.
Local Open Scope nat_scope.

Section Ind.
  Variable P : node -> Prop.
  Hypothesis H : forall l fs, (forall f c, f ∈ fs -> c ∈ f -> P c) -> P (Node l fs).
  Lemma node_ind' : forall n, P n.
  Proof.
    fix IH 1. intros [l fs]. apply H. intros f c Hf Hc.
    revert f Hf Hc. induction fs as [|g fs IHfs]; intros f Hf Hc.
    - exfalso. inversion Hf.
    - apply elem_of_cons in Hf as [->|Hf].
      + clear IHfs. revert c Hc. induction g as [|d g IHg]; intros c Hc.
        * exfalso. inversion Hc.
        * apply elem_of_cons in Hc as [->|Hc]; [apply IH|by apply IHg].
      + by apply (IHfs f).
  Qed.
End Ind.

Lemma wf_node l fs : wf (Node l fs) = true -> arity_ok l fs = true /\ sorts_ok l fs = true /\ forall f c, f ∈ fs -> c ∈ f -> wf c = true.
Proof.
  cbn [wf]. rewrite !andb_true_iff. intros [[Ha Hs] Hf]. split_and!; [done|done|]. intros f c Hin Hc.
  rewrite forallb_forall in Hf. specialize (Hf f (proj1 (elem_of_list_In _ _) Hin)). rewrite forallb_forall in Hf. apply Hf. by apply elem_of_list_In.
Qed.
