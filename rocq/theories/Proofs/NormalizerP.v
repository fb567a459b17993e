From Coq Require Import String.
From stdpp Require Import gmap.
From Verif Require Import Lib.Py Model.PyAst Model.SourceText Model.Normalizer Spec.NormalizerSpec Proofs.PyAstP.
Local Open Scope nat_scope.

Lemma norm_other l fs : ~ documented l -> norm (Node l fs) = Node l (map (map norm) fs).
Proof. destruct l; cbn [documented]; intros H; try done; by destruct H. Qed.
Lemma norm_label n : label_of (norm n) = label_of n.
Proof.
  destruct n as [l fs]. destruct l; try done; cbn [norm]; destruct fs as [|f1 [|f2 [|f3 [|f4 [|f5 fs]]]]]; done.
Qed.
Lemma norm_doc c : is_doc (norm c) = is_doc c.
Proof.
  destruct c as [l fs]. destruct l; try done; cbn [norm]; try (destruct fs as [|f1 [|f2 [|f3 [|f4 [|f5 fs]]]]]; done).
  destruct fs as [|[|x f1] fs]; [done|done|].
  cbn [map is_doc]. pose proof (norm_label x) as Hl. destruct (norm x) as [l' fs'], x as [lx fx]. cbn in Hl. subst l'.
  destruct lx; try done. destruct f1; [|done]. by destruct fs.
Qed.
Lemma strip_norm b : strip_doc (map norm b) = map norm (strip_doc b).
Proof. destruct b as [|s rest]; [done|]. cbn [map strip_doc]. rewrite norm_doc. destruct (is_doc s); [|done]. by destruct rest. Qed.
Lemma is_doc_spec n : is_doc n = true <-> docstring n.
Proof.
  split.
  - destruct n as [l fs]. destruct l; try done. cbn. destruct fs as [|[|[[] fx] [|]] [|]]; try done. intros _. by eexists _, _.
  - by intros (s & fs & ->).
Qed.
Lemma code_of_strip b c : code_of b c <-> c = strip_doc b.
Proof.
  split.
  - intros [body H|d s rest H|d H]; cbn [strip_doc].
    + destruct body as [|d rest]; [done|]. destruct (is_doc d) eqn:E; [|by cbn; rewrite E]. by destruct (H d rest eq_refl (proj1 (is_doc_spec d) E)).
    + apply is_doc_spec in H. by rewrite H.
    + apply is_doc_spec in H. by rewrite H.
  - intros ->. destruct b as [|s rest]; [by apply code_nodoc|]. cbn [strip_doc]. destruct (is_doc s) eqn:E.
    + apply is_doc_spec in E. destruct rest as [|s2 rest]; by constructor.
    + apply code_nodoc. intros d r [= <- <-] Hd. apply is_doc_spec in Hd. congruence.
Qed.

Definition agrees (c : node) : Prop := forall c2, wf c2 = true -> (norm c = norm c2 <-> same_code c c2).
Lemma list_agrees l1 : (forall c, c ∈ l1 -> agrees c) -> forall l2, (forall c, c ∈ l2 -> wf c = true) -> (map norm l1 = map norm l2 <-> Forall2 same_code l1 l2).
Proof.
  induction l1 as [|c l1 IH]; intros H [|c2 l2] Hw; cbn [map].
  - by split.
  - split; [done|]. intros HF. inversion HF.
  - split; [done|]. intros HF. inversion HF.
  - assert (Hc : norm c = norm c2 <-> same_code c c2) by (apply H; [left|apply Hw; left]).
    assert (Hr : map norm l1 = map norm l2 <-> Forall2 same_code l1 l2) by (apply IH; intros; [apply H|apply Hw]; by right).
    split.
    + intros [= E1 E2]. constructor; tauto.
    + intros HF. inversion HF; subst. f_equal; tauto.
Qed.
Lemma fields_agree fs1 : (forall f c, f ∈ fs1 -> c ∈ f -> agrees c) -> forall fs2, (forall f c, f ∈ fs2 -> c ∈ f -> wf c = true) ->
  (map (map norm) fs1 = map (map norm) fs2 <-> Forall2 (Forall2 same_code) fs1 fs2).
Proof.
  induction fs1 as [|f fs1 IH]; intros H [|f2 fs2] Hw; cbn [map].
  - by split.
  - split; [done|]. intros HF. inversion HF.
  - split; [done|]. intros HF. inversion HF.
  - assert (Hc : map norm f = map norm f2 <-> Forall2 same_code f f2) by (apply list_agrees; intros c Hc; [eapply H; [left|done]|eapply Hw; [left|done]]).
    assert (Hr : map (map norm) fs1 = map (map norm) fs2 <-> Forall2 (Forall2 same_code) fs1 fs2)
      by (apply IH; intros g c Hg Hin; [apply (H g c)|apply (Hw g c)]; [by right|done|by right|done]).
    split.
    + intros [= E1 E2]. constructor; tauto.
    + intros HF. inversion HF; subst. f_equal; tauto.
Qed.
Lemma pass_agrees : agrees (Node LPass []).
Proof.
  intros c2 Hw. split.
  - intros E. destruct c2 as [l fs]. pose proof (norm_label (Node l fs)) as Hl. rewrite <- E in Hl. cbn in Hl. subst l.
    destruct fs; [|done]. apply same_other; [by intros []|constructor].
  - intros H. inversion H as [| | | | |? ? ? ? HF]; subst. inversion HF; subst. done.
Qed.
Lemma body_agrees b1 b2 : (forall c, c ∈ b1 -> agrees c) -> (forall c, c ∈ b2 -> wf c = true) ->
  (map norm (strip_doc b1) = map norm (strip_doc b2) <-> Forall2 same_code (strip_doc b1) (strip_doc b2)).
Proof.
  intros H1 H2. apply list_agrees.
  - intros c Hc. destruct b1 as [|s r]; [by apply elem_of_nil in Hc|]. cbn [strip_doc] in Hc. destruct (is_doc s); [|auto].
    destruct r as [|x r]; [|apply H1; by right]. apply elem_of_list_singleton in Hc as ->. apply pass_agrees.
  - intros c Hc. destruct b2 as [|s r]; [by apply elem_of_nil in Hc|]. cbn [strip_doc] in Hc. destruct (is_doc s); [|auto].
    destruct r as [|x r]; [|apply H2; by right]. apply elem_of_list_singleton in Hc as ->. done.
Qed.
Lemma norm_label_eq a b : norm a = norm b -> label_of a = label_of b.
Proof. intros E. by rewrite <- (norm_label a), E, norm_label. Qed.

(** Normalisation identifies exactly the same code. *)
Lemma norm_same : forall a b, wf a = true -> wf b = true -> (norm a = norm b <-> same_code a b).
Proof.
  intros a b Ha Hb. revert b Hb. change (agrees a). revert a Ha.
  refine (node_ind' (fun a => wf a = true -> agrees a) _). intros l fs IH Hw.
  apply wf_node in Hw as (Har & _ & Hch). assert (IH' : forall f c, f ∈ fs -> c ∈ f -> agrees c) by (intros f c Hf Hc; eapply IH; eauto). clear IH.
  intros [l2 fs2] Hw2. apply wf_node in Hw2 as (Har2 & _ & Hch2).
  assert (Hl : norm (Node l fs) = norm (Node l2 fs2) \/ same_code (Node l fs) (Node l2 fs2) -> l = l2).
  { intros [E|E]; [by apply norm_label_eq in E|by inversion E]. }
  destruct (decide (l = l2)) as [<-|Hne]; [clear Hl|split; intros E; exfalso; apply Hne, Hl; auto].
  assert (L1 : forall f, f ∈ fs -> forall f2, f2 ∈ fs2 -> (map norm f = map norm f2 <-> Forall2 same_code f f2)).
  { intros f Hf f2 Hf2. apply list_agrees; eauto. }
  assert (B1 : forall f, f ∈ fs -> forall f2, f2 ∈ fs2 -> (strip_doc (map norm f) = strip_doc (map norm f2) <-> Forall2 same_code (strip_doc f) (strip_doc f2))).
  { intros f Hf f2 Hf2. rewrite !strip_norm. apply body_agrees; eauto. }
  assert (Hdec : documented l \/ ~ documented l) by (destruct l; cbn; auto).
  destruct Hdec as [Hd|Hd].
  2:{ rewrite !norm_other by done. split.
      - intros [= E]. apply same_other; [done|]. by apply fields_agree.
      - intros E. f_equal. apply fields_agree; [done|done|]. inversion E; subst; cbn in Hd; tauto. }
  destruct l; cbn in Hd; try done.
  - (* module *) destruct fs as [|b1 [|? ?]], fs2 as [|b2 [|? ?]]; try done. cbn [norm map]. specialize (B1 b1 ltac:(left) b2 ltac:(left)). split.
    + intros [= E]. eapply same_module; [by apply code_of_strip|by apply code_of_strip|tauto].
    + intros E. inversion E as [? ? c1 c2 K1 K2 K3| | | | |? ? ? Hn]; subst; [|by cbn in Hn]. apply code_of_strip in K1 as ->, K2 as ->. do 2 f_equal. tauto.
  - (* function *) destruct fs as [|a1 [|b1 [|d1 [|r1 [|? ?]]]]], fs2 as [|a2 [|b2 [|d2 [|r2 [|? ?]]]]]; try (destruct a1 as [|? [|? ?]]; done); try (destruct a2 as [|? [|? ?]]; done); try done.
    all: try (by destruct a1 as [|? [|? ?]], b1). all: try (by destruct a2 as [|? [|? ?]], b2).
    cbn [norm map].
    assert (Ea := L1 a1 ltac:(set_solver) a2 ltac:(set_solver)). assert (Ed := L1 d1 ltac:(set_solver) d2 ltac:(set_solver)).
    assert (Eb := B1 b1 ltac:(set_solver) b2 ltac:(set_solver)). split.
    + intros [= E1 E2 E3]. eapply same_fun; [tauto|by apply code_of_strip|by apply code_of_strip|tauto|tauto].
    + intros E. inversion E as [|? ? ? ? ? ? c1 c2 ? ? ? ? K1 K2 K3 K4 K5| | | |? ? ? Hn]; subst; [|by cbn in Hn]. apply code_of_strip in K2 as ->, K3 as ->.
      f_equal. f_equal; [tauto|]. f_equal; [tauto|]. f_equal. tauto.
  - (* class *) destruct fs as [|x1 [|k1 [|b1 [|d1 [|? ?]]]]], fs2 as [|x2 [|k2 [|b2 [|d2 [|? ?]]]]]; try done.
    all: try (by destruct b1). all: try (by destruct b2). cbn [norm map].
    assert (Ex := L1 x1 ltac:(set_solver) x2 ltac:(set_solver)). assert (Ek := L1 k1 ltac:(set_solver) k2 ltac:(set_solver)).
    assert (Ed := L1 d1 ltac:(set_solver) d2 ltac:(set_solver)). assert (Eb := B1 b1 ltac:(set_solver) b2 ltac:(set_solver)). split.
    + intros [= E1 E2 E3 E4]. eapply same_class; [tauto|tauto|by apply code_of_strip|by apply code_of_strip|tauto|tauto].
    + intros E. inversion E as [| |? ? ? ? ? ? ? c1 c2 ? ? K1 K2 K3 K4 K5 K6| | |? ? ? Hn]; subst; [|by cbn in Hn]. apply code_of_strip in K3 as ->, K4 as ->.
      f_equal. f_equal; [tauto|]. f_equal; [tauto|]. f_equal; [tauto|]. f_equal. tauto.
  - (* arg *) destruct fs as [|x1 [|? ?]], fs2 as [|x2 [|? ?]]; try done. cbn [norm map]. split; [|done]. intros _. apply same_arg.
  - (* ann *) destruct fs as [|t1 [|x1 [|v1 [|? ?]]]], fs2 as [|t2 [|x2 [|v2 [|? ?]]]]; try done.
    all: try (by destruct t1 as [|? [|? ?]]). all: try (by destruct t2 as [|? [|? ?]]). cbn [norm map].
    assert (Et := L1 t1 ltac:(set_solver) t2 ltac:(set_solver)). assert (Ev := L1 v1 ltac:(set_solver) v2 ltac:(set_solver)). split.
    + intros [= E1 E2]. apply same_ann; tauto.
    + intros E. inversion E as [| | | |? ? ? ? ? ? K1 K2|? ? ? Hn]; subst; [|by cbn in Hn]. f_equal. f_equal; [tauto|]. f_equal. f_equal. tauto.
Qed.

(** idempotence *)
Lemma strip_idem b : ~ double_doc b -> strip_doc (strip_doc b) = strip_doc b.
Proof.
  intros H. destruct b as [|s rest]; [done|]. cbn [strip_doc]. destruct (is_doc s) eqn:E; [|cbn [strip_doc]; by rewrite E].
  destruct rest as [|s2 rest]; [done|]. cbn [strip_doc]. destruct (is_doc s2) eqn:E2; [|done]. exfalso. apply H.
  exists s, s2, rest. split_and!; [done|by apply is_doc_spec|by apply is_doc_spec].
Qed.
Lemma map_map_id (fs : list (list node)) : (forall f c, f ∈ fs -> c ∈ f -> norm (norm c) = norm c) -> map (map norm) (map (map norm) fs) = map (map norm) fs.
Proof.
  induction fs as [|f fs IH]; intros H; [done|]. cbn [map]. f_equal.
  - assert (Hf : forall c, c ∈ f -> norm (norm c) = norm c) by (intros c Hc; apply (H f c); [left|done]). clear -Hf.
    induction f as [|c f IH]; [done|]. cbn [map]. f_equal; [apply Hf; left|]. apply IH. intros d Hd. apply Hf. by right.
  - apply IH. intros g c Hg Hc. apply (H g c); [by right|done].
Qed.
Lemma norm_idem : forall a, single_docs a -> norm (norm a) = norm a.
Proof.
  refine (node_ind' _ _). intros l fs IH Hs.
  assert (Hc : forall f c, f ∈ fs -> c ∈ f -> norm (norm c) = norm c).
  { intros f c Hf Hc. apply (IH f c Hf Hc). intros n Hn. apply Hs. by eapply within_sub. }
  assert (Hb : ~ double_doc (body_of (Node l fs))) by (apply Hs; constructor).
  assert (Hl : forall f, f ∈ fs -> map norm (map norm f) = map norm f).
  { intros f Hf. assert (Hx : forall c, c ∈ f -> norm (norm c) = norm c) by eauto. clear -Hx.
    induction f as [|c f IH]; [done|]. cbn [map]. f_equal; [apply Hx; left|]. apply IH. intros d Hd. apply Hx. by right. }
  assert (Hbody : forall b, b ∈ fs -> ~ double_doc b -> strip_doc (map norm (strip_doc (map norm b))) = strip_doc (map norm b)).
  { intros b Hin Hd. rewrite !strip_norm. rewrite strip_idem by done. assert (Hx : forall c, c ∈ strip_doc b -> norm (norm c) = norm c).
    { intros c Hcc. destruct b as [|s r]; [by apply elem_of_nil in Hcc|]. cbn [strip_doc] in Hcc. destruct (is_doc s); [|by apply (Hc (s :: r) c)].
      destruct r as [|x r]; [by apply elem_of_list_singleton in Hcc as ->|]. apply (Hc (s :: x :: r) c); [done|by right]. }
    clear -Hx. induction (strip_doc b) as [|c f IH]; [done|]. cbn [map]. f_equal; [apply Hx; left|]. apply IH. intros d Hd. apply Hx. by right. }
  destruct l; try (rewrite !norm_other by (by intros []); f_equal; by apply map_map_id).
  - destruct fs as [|b [|? ?]]; try (exact (f_equal (Node _) (map_map_id _ Hc))). cbn [norm map body_of] in *. do 2 f_equal. apply Hbody; [left|done].
  - destruct fs as [|a [|b [|d [|r [|? ?]]]]]; try (exact (f_equal (Node _) (map_map_id _ Hc))). cbn [norm map body_of] in *.
    f_equal. f_equal; [apply Hl; set_solver|]. f_equal; [apply Hbody; [set_solver|done]|]. f_equal. apply Hl. set_solver.
  - destruct fs as [|x [|k [|b [|d [|? ?]]]]]; try (exact (f_equal (Node _) (map_map_id _ Hc))). cbn [norm map body_of] in *.
    f_equal. f_equal; [apply Hl; set_solver|]. f_equal; [apply Hl; set_solver|]. f_equal; [apply Hbody; [set_solver|done]|]. f_equal. apply Hl. set_solver.
  - destruct fs as [|x [|? ?]]; try (exact (f_equal (Node _) (map_map_id _ Hc))). done.
  - destruct fs as [|t [|x [|v [|? ?]]]]; try (exact (f_equal (Node _) (map_map_id _ Hc))). cbn [norm map].
    f_equal. f_equal; [apply Hl; set_solver|]. f_equal. f_equal. apply Hl. set_solver.
Qed.

(** annotated variables *)
Lemma ann_within a : has_ann_assign a = true -> annotates_variable a.
Proof.
  revert a. refine (node_ind' _ _). intros l fs IH H. cbn [has_ann_assign] in H. apply orb_true_iff in H as [H|H].
  - destruct l; try done. exists fs. constructor.
  - apply existsb_exists in H as (f & Hf & H). apply existsb_exists in H as (c & Hc & H). apply elem_of_list_In in Hf, Hc.
    destruct (IH f c Hf Hc H) as (g & Hg). exists g. by eapply within_sub.
Qed.
Lemma within_trans a b c : within a b -> within b c -> within a c.
Proof. intros H1 H2. induction H2 as [|n l fs f d Hf Hd H IH]; [done|]. eapply within_sub; eauto. Qed.
Lemma norm_within a n : within n (norm a) -> label_of n = LPass \/ exists m, within m a /\ label_of m = label_of n.
Proof.
  revert a n. refine (node_ind' _ _). intros l fs IH n H.
  assert (Hsub : forall f, f ∈ fs -> forall c, c ∈ strip_doc (map norm f) \/ c ∈ map norm f -> within n c -> label_of n = LPass \/ exists m, within m (Node l fs) /\ label_of m = label_of n).
  { intros f Hf c Hc Hn. assert (Hc' : c = Node LPass [] \/ c ∈ map norm f).
    { destruct Hc as [Hc|Hc]; [|by right]. rewrite strip_norm in Hc. destruct f as [|s r]; [by apply elem_of_nil in Hc|]. cbn [strip_doc] in Hc.
      destruct (is_doc s); [|by right]. destruct r; [apply elem_of_list_singleton in Hc; by left|]. right. cbn [map]. right. exact Hc. }
    destruct Hc' as [->|Hc'].
    - left. inversion Hn as [|? ? ? f0 c0 Hf0]; subst; [done|]. by apply elem_of_nil in Hf0.
    - apply elem_of_list_fmap in Hc' as (d & -> & Hd). destruct (IH f d Hf Hd n Hn) as [|(m & Hm & Hl)]; [by left|]. right. exists m. split; [|done]. by eapply within_sub. }
  assert (Hpl : label_of n = l \/ exists f c, f ∈ fs /\ (c ∈ strip_doc (map norm f) \/ c ∈ map norm f) /\ within n c).
  { assert (Hgen : within n (Node l (map (map norm) fs)) -> label_of n = l \/ exists f c, f ∈ fs /\ (c ∈ strip_doc (map norm f) \/ c ∈ map norm f) /\ within n c).
    { intros Hw. inversion Hw as [|? ? ? f0 c0 Hf0 Hc0 Hw0]; subst; [by left|]. right. apply elem_of_list_fmap in Hf0 as (f & -> & Hf). exists f, c0. auto. }
    destruct l; try (apply Hgen; exact H).
    all: destruct fs as [|f1 [|f2 [|f3 [|f4 [|f5 fs]]]]]; try (apply Hgen; exact H); cbn [norm map] in H;
      inversion H as [|? ? ? f0 c0 Hf0 Hc0 Hw0]; subst; [by left|right];
      rewrite ?elem_of_cons, ?elem_of_nil in Hf0; repeat (destruct Hf0 as [->|Hf0]); try done; try (by apply elem_of_nil in Hc0).
    all: try (eexists _, c0; split_and!; [|left; exact Hc0|done]; set_solver).
    all: eexists _, c0; split_and!; [|right; exact Hc0|done]; set_solver. }
  destruct Hpl as [Hl|(f & c & Hf & Hc & Hw)]; [|by eapply Hsub].
  right. exists (Node l fs). split; [constructor|done].
Qed.
Lemma norm_no_ann a : ~ annotates_variable a -> has_ann_assign (norm a) = false.
Proof.
  intros H. destruct (has_ann_assign (norm a)) eqn:E; [|done]. apply ann_within in E as (fs & Hw). apply norm_within in Hw as [Hl|(m & Hm & Hl)]; [done|].
  exfalso. apply H. destruct m as [l f]. cbn in Hl. subst l. by exists f.
Qed.
Lemma ann_here l fs f c : f ∈ fs -> c ∈ f -> has_ann_assign c = true -> has_ann_assign (Node l fs) = true.
Proof.
  intros Hf Hc H. cbn [has_ann_assign]. apply orb_true_iff. right. apply existsb_exists. exists f. split; [by apply elem_of_list_In|].
  apply existsb_exists. exists c. split; [by apply elem_of_list_In|done].
Qed.
