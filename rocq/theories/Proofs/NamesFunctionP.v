(** The names analyzer reports the name of the function it was given. *)
From Coq Require Import String.
From stdpp Require Import gmap.
From Verif Require Import Lib.Py Model.PyAst Model.NamesAnalyzer Spec.Scoping Proofs.PyAstP Proofs.NamesAnalyzerP.
Local Open Scope nat_scope.

Definition named (s s' : ana) : Prop := 1 <= a_level s -> a_level s' = a_level s /\ a_function s' = a_function s.
Lemma named_refl s : named s s.
Proof. by intros. Qed.
Lemma named_trans s1 s2 s3 : named s1 s2 -> named s2 s3 -> named s1 s3.
Proof. intros H1 H2 H. destruct (H1 H) as [E1 E2]. destruct H2 as [E3 E4]; [lia|]. split; congruence. Qed.
Lemma visits_named l s : (forall c s, c ∈ l -> named s (visit c s)) -> named s (visits l s).
Proof.
  revert s. induction l as [|c l IH]; intros s H; [apply named_refl|]. cbn. eapply named_trans; [apply H; left|].
  apply IH. intros d s' Hd. apply H. by right.
Qed.
Lemma generic_named fs s : (forall f c s, f ∈ fs -> c ∈ f -> named s (visit c s)) -> named s (generic fs s).
Proof.
  revert s. induction fs as [|f fs IH]; intros s H; [apply named_refl|]. cbn. eapply named_trans; [apply visits_named; intros c s' Hc; by apply (H f); [left|]|].
  apply IH. intros g c s' Hg Hc. apply (H g); [by right|done].
Qed.
Lemma prepare_named l fs s : (forall f c s, f ∈ fs -> c ∈ f -> named s (visit c s)) -> named s (prepare l fs s).
Proof.
  intros H. destruct l as [|[]| | | | |? []| | | | | | | |[]| | | | | | |[]| | |[]| | | |]; cbn [prepare]; try apply named_refl; try (by intros _).
  - unfold load_name. by destruct (decide _).
  - unfold store_name. by destruct (decide _).
  - by destruct fs.
  - destruct fs as [|? [|gens [|? ?]]]; try apply named_refl. apply visits_named. intros c s' Hc. apply (H gens); [right; left|done].
  - by destruct fs.
  - by destruct fs as [|? [|? [|? [|? [|? ?]]]]].
Qed.
Lemma visit_named n : forall s, wf n = true -> named s (visit n s).
Proof.
  induction n as [l fs IH] using node_ind'. intros s Hw. apply wf_node in Hw as (Ha & Hs & Hc).
  assert (Hg : forall f c s, f ∈ fs -> c ∈ f -> named s (visit c s)) by eauto.
  destruct (is_def l) eqn:Hd.
  - destruct l; try done. destruct is_async; [done|]. rewrite visit_def. intros Hl. by destruct (a_level s) as [|k] eqn:E; [lia|].
  - rewrite visit_node by done. eapply named_trans; [by apply prepare_named|by apply generic_named].
Qed.
(** the analysis of a module with one function carries the name of that function *)
Lemma analyze_function name fs s : wf (Node LModule [[Node (LFunctionDef false name) fs]]) = true -> analyze (Node LModule [[Node (LFunctionDef false name) fs]]) = Ok s -> a_function s = Some name.
Proof.
  intros Hw. apply wf_node in Hw as (_ & _ & Hc). pose proof (Hc _ _ (elem_of_list_here _ _) (elem_of_list_here _ _)) as Hf. apply wf_node in Hf as (_ & _ & Hcf).
  unfold analyze. destruct (a_crashed _); [done|]. intros [= <-].
  change (a_function (leave_function (generic fs (enter_function name fs fresh))) = Some name).
  change (a_function (generic fs (enter_function name fs fresh)) = Some name).
  destruct (generic_named fs (enter_function name fs fresh)) as [_ ->]; [|cbn; lia|done]. intros f c s Hfi Hci. apply visit_named. by eapply Hcf.
Qed.
