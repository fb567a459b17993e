(** C88, C89: exactly when normalisation is stable, and exactly what it accepts. *)
From Coq Require Import String.
From stdpp Require Import gmap.
From Verif Require Import Lib.Py Model.PyAst Model.SourceText Model.Normalizer Spec.NormalizerSpec Proofs.PyAstP Proofs.NormalizerP Properties.P_Normalizer.
Local Open Scope nat_scope.

(** * C88 *)
(** a body that begins with a string statement *)
Definition starts_with_doc (b : list node) : Prop := exists d rest, b = d :: rest /\ docstring d.
(** repeating the normalisation *)
Fixpoint normalise_again (k : nat) (m : node) : res node :=
  match k with 0 => Ok m | S k => match normalise_ast m with Ok r => normalise_again k r | Err e => Err e end end.

Lemma strip_unchanged b : ~ starts_with_doc b -> strip_doc b = b.
Proof.
  intros H. destruct b as [|s rest]; [done|]. cbn [strip_doc]. destruct (is_doc s) eqn:E; [|done]. destruct H. exists s, rest. split; [done|by apply is_doc_spec].
Qed.
Lemma strip_fixed b : strip_doc (map norm b) = b -> ~ starts_with_doc b.
Proof.
  intros H (d & rest & -> & Hd). cbn [map strip_doc] in H. rewrite norm_doc, (proj2 (is_doc_spec d) Hd) in H.
  destruct rest as [|x rest]; [|apply (f_equal length) in H; cbn in H; rewrite map_length in H; lia].
  cbn in H. injection H as <-. by destruct Hd as (? & ? & ?).
Qed.
Lemma map_norm_id (f : list node) : (forall c, c ∈ f -> norm c = c) -> map norm f = f.
Proof. induction f as [|c f IH]; intros H; [done|]. cbn [map]. f_equal; [apply H; left|]. apply IH. intros d Hd. apply H. by right. Qed.
Lemma map_norm_fixed (f : list node) : map norm f = f -> forall c, c ∈ f -> norm c = c.
Proof.
  induction f as [|d f IH]; intros H c Hc; [by apply elem_of_nil in Hc|]. cbn [map] in H. injection H as H1 H2.
  apply elem_of_cons in Hc as [->|Hc]; [done|auto].
Qed.
Lemma fields_norm_fixed (fs : list (list node)) : map (map norm) fs = fs -> forall f c, f ∈ fs -> c ∈ f -> norm c = c.
Proof.
  induction fs as [|g fs IH]; intros H f c Hf Hc; [by apply elem_of_nil in Hf|]. cbn [map] in H. injection H as H1 H2.
  apply elem_of_cons in Hf as [->|Hf]; [by eapply map_norm_fixed|eauto].
Qed.
Lemma strip_sub c b : c ∈ strip_doc b -> c = Node LPass [] \/ c ∈ b.
Proof.
  destruct b as [|s r]; [by intros ?%elem_of_nil|]. cbn [strip_doc]. destruct (is_doc s); [|auto].
  destruct r as [|x r]; [intros ->%elem_of_list_singleton; auto|]. intros H. right. by right.
Qed.
(** no node of the result begins with a string: nothing is left to do *)
Lemma norm_done : forall a, (forall n, within n (norm a) -> ~ starts_with_doc (body_of n)) -> norm (norm a) = norm a.
Proof.
  refine (node_ind' _ _). intros l fs IH Hs.
  assert (Hplain : (forall f c, f ∈ map (map norm) fs -> c ∈ f -> forall n, within n c -> ~ starts_with_doc (body_of n)) ->
    forall f, f ∈ fs -> map norm (map norm f) = map norm f).
  { intros H f Hf. apply map_norm_id. intros c (d & -> & Hd)%elem_of_list_fmap. apply (IH f d Hf Hd).
    apply (H (map norm f) (norm d)); apply elem_of_list_fmap; eauto. }
  assert (Hsub : forall l' gs g c, norm (Node l fs) = Node l' gs -> g ∈ gs -> c ∈ g -> forall n, within n c -> ~ starts_with_doc (body_of n)).
  { intros l' gs g c E Hg Hc n Hn. apply Hs. rewrite E. by eapply within_sub. }
  assert (Hfield : forall l' gs f, norm (Node l fs) = Node l' gs -> f ∈ fs -> map norm f ∈ gs -> map norm (map norm f) = map norm f).
  { intros l' gs f E Hf Hg. apply map_norm_id. intros c Hc. pose proof Hc as Hc2. apply elem_of_list_fmap in Hc as (d & -> & Hd). apply (IH f d Hf Hd). by apply (Hsub _ _ _ (norm d) E Hg). }
  assert (Hbody : forall l' gs b, norm (Node l fs) = Node l' gs -> b ∈ fs -> strip_doc (map norm b) ∈ gs -> ~ starts_with_doc (strip_doc (map norm b)) ->
    strip_doc (map norm (strip_doc (map norm b))) = strip_doc (map norm b)).
  { intros l' gs b E Hb Hg Hd.
    assert (Ei : map norm (strip_doc (map norm b)) = strip_doc (map norm b)).
    { apply map_norm_id. intros c Hc. destruct (strip_sub _ _ Hc) as [->|(d & -> & Hdd)%elem_of_list_fmap]; [done|].
      apply (IH b d Hb Hdd). by apply (Hsub _ _ _ (norm d) E Hg). }
    rewrite Ei. by apply strip_unchanged. }
  assert (Hother : norm (Node l fs) = Node l (map (map norm) fs) -> map (map norm) (map (map norm) fs) = map (map norm) fs).
  { intros E. rewrite map_map. apply map_ext_in. intros f Hf%elem_of_list_In. apply (Hfield _ _ f E Hf). apply elem_of_list_fmap. eauto. }
  assert (Hhere : ~ starts_with_doc (body_of (norm (Node l fs)))) by (apply Hs; constructor).
  destruct l; try (rewrite !norm_other by (by intros []); f_equal; apply Hother; by apply norm_other; intros []).
  - destruct fs as [|b [|? ?]]; try (exact (f_equal (Node _) (Hother eq_refl))).
    specialize (Hbody _ _ b eq_refl ltac:(left) ltac:(left) Hhere). cbn [norm map] in *. by do 2 f_equal.
  - destruct fs as [|a [|b [|d [|r [|? ?]]]]]; try (exact (f_equal (Node _) (Hother eq_refl))).
    specialize (Hbody _ _ b eq_refl ltac:(right; left) ltac:(right; left) Hhere).
    pose proof (Hfield _ _ a eq_refl ltac:(left) ltac:(left)) as Ha. pose proof (Hfield _ _ d eq_refl ltac:(do 2 right; left) ltac:(do 2 right; left)) as Hd.
    cbn [norm map] in *. f_equal. f_equal; [done|]. f_equal; [done|]. f_equal. done.
  - destruct fs as [|x [|k [|b [|d [|? ?]]]]]; try (exact (f_equal (Node _) (Hother eq_refl))).
    specialize (Hbody _ _ b eq_refl ltac:(do 2 right; left) ltac:(do 2 right; left) Hhere).
    pose proof (Hfield _ _ x eq_refl ltac:(left) ltac:(left)) as Hx. pose proof (Hfield _ _ k eq_refl ltac:(right; left) ltac:(right; left)) as Hk.
    pose proof (Hfield _ _ d eq_refl ltac:(do 3 right; left) ltac:(do 3 right; left)) as Hd.
    cbn [norm map] in *. f_equal. f_equal; [done|]. f_equal; [done|]. f_equal; [done|]. f_equal. done.
  - destruct fs as [|x [|? ?]]; try (exact (f_equal (Node _) (Hother eq_refl))). done.
  - destruct fs as [|t [|x [|v [|? ?]]]]; try (exact (f_equal (Node _) (Hother eq_refl))).
    pose proof (Hfield _ _ t eq_refl ltac:(left) ltac:(left)) as Ht. pose proof (Hfield _ _ v eq_refl ltac:(do 2 right; left) ltac:(do 2 right; left)) as Hv.
    cbn [norm map] in *. f_equal. f_equal; [done|]. f_equal. by f_equal.
Qed.
Lemma norm_fixed : forall a, norm a = a -> forall n, within n a -> ~ starts_with_doc (body_of n).
Proof.
  refine (node_ind' _ _). intros l fs IH Hf n Hn.
  assert (Hnil : ~ starts_with_doc []) by (intros (? & ? & ? & _); done).
  assert (H : ~ starts_with_doc (body_of (Node l fs)) /\ forall f c, f ∈ fs -> c ∈ f -> norm c = c).
  { assert (Hother : map (map norm) fs = fs -> forall f c, f ∈ fs -> c ∈ f -> norm c = c) by apply fields_norm_fixed.
    destruct l; try (split; [done|]; apply Hother; rewrite norm_other in Hf by (by intros []); by injection Hf as Hf).
    - destruct fs as [|b [|? ?]]; try (split; [done|]; apply Hother; cbn [norm map] in Hf |- *; congruence).
      cbn [norm map body_of] in *. injection Hf as Hf. pose proof (strip_fixed _ Hf) as Hd. split; [done|].
      intros f c ->%elem_of_list_singleton Hc. apply (map_norm_fixed b); [|done]. rewrite strip_norm, strip_unchanged in Hf by done. done.
    - destruct fs as [|a [|b [|d [|r [|? ?]]]]]; try (split; [done|]; apply Hother; cbn [norm map] in Hf |- *; congruence).
      cbn [norm map body_of] in *. injection Hf as Ha Hf Hd Hr. pose proof (strip_fixed _ Hf) as Hdd. split; [done|].
      rewrite strip_norm, strip_unchanged in Hf by done. intros f c Hfs Hc. rewrite !elem_of_cons in Hfs.
      destruct Hfs as [->|[->|[->|[->|X%elem_of_nil]]]]; [by apply (map_norm_fixed a)|by apply (map_norm_fixed b)|by apply (map_norm_fixed d)| |done].
      rewrite <- Hr in Hc. by apply elem_of_nil in Hc.
    - destruct fs as [|x [|k [|b [|d [|? ?]]]]]; try (split; [done|]; apply Hother; cbn [norm map] in Hf |- *; congruence).
      cbn [norm map body_of] in *. injection Hf as Hx Hk Hf Hd. pose proof (strip_fixed _ Hf) as Hdd. split; [done|].
      rewrite strip_norm, strip_unchanged in Hf by done. intros f c Hfs Hc. rewrite !elem_of_cons in Hfs.
      destruct Hfs as [->|[->|[->|[->|X%elem_of_nil]]]]; [by apply (map_norm_fixed x)|by apply (map_norm_fixed k)|by apply (map_norm_fixed b)|by apply (map_norm_fixed d)|done].
    - destruct fs as [|x [|? ?]]; try (split; [done|]; apply Hother; cbn [norm map] in Hf |- *; congruence).
      split; [done|]. cbn in Hf. injection Hf as <-. intros f c ->%elem_of_list_singleton Hc. by apply elem_of_nil in Hc.
    - destruct fs as [|t [|x [|v [|? ?]]]]; try (split; [done|]; apply Hother; cbn [norm map] in Hf |- *; congruence).
      split; [done|]. cbn [norm map] in Hf. injection Hf as Ht Hx Hv. intros f c Hfs Hc. rewrite !elem_of_cons in Hfs.
      destruct Hfs as [->|[->|[->|X%elem_of_nil]]]; [by apply (map_norm_fixed t)| |by apply (map_norm_fixed v)|done].
      rewrite <- Hx in Hc. by apply elem_of_nil in Hc. }
  destruct H as [Hd Hc]. inversion Hn as [n' E1 E2|n' l' fs' f c Hff Hcc Hw E1 E2]; subst; [done|]. eapply IH; eauto.
Qed.
(** a normal form is normalised to something: its normal form *)
Lemma normalised_again m r : normalise_ast m = Ok r -> normalise_ast r = Ok (norm r) /\ has_ann_assign r = false.
Proof.
  intros H. destruct (normalise_form m r H) as (f & a & b & d & rr & others & -> & Hr & Hann & _). split; [|done].
  assert (Hn : has_ann_assign (norm r) = false).
  { apply norm_no_ann. intros (fs & Hw). assert (X : has_ann_assign r = true); [|congruence]. clear -Hw.
    revert fs Hw. revert r. refine (node_ind' _ _). intros l gs IH fs Hw. inversion Hw as [n' E1 E2|n' l' fs' g c Hg Hc Hcw E1 E2]; subst; [done|].
    eapply ann_here; [exact Hg|exact Hc|]. by eapply IH. }
  assert (Hf : r = Node LModule [Node (LFunctionDef false f) [map norm a; strip_doc (map norm b); []; []] :: map norm others]) by (by rewrite Hr).
  rewrite Hf in Hn |- *. unfold normalise_ast. cbn [rbind]. by rewrite Hn.
Qed.
(** The result is stable under another normalisation exactly if nothing in it (the module, a function, a class) still
    begins with a string statement. *)
Theorem C88_stable_exactly : forall m r, normalise_ast m = Ok r ->
  (normalise_ast r = Ok r <-> forall n, within n r -> ~ starts_with_doc (body_of n)).
Proof.
  intros m r H. destruct (normalised_again m r H) as [E _]. rewrite E. split.
  - intros [= Hf]. by apply norm_fixed.
  - intros Hs. f_equal. destruct (normalise_form m r H) as (f & a & b & d & rr & others & -> & Hr & _). rewrite Hr in Hs |- *. by apply norm_done.
Qed.
Print Assumptions C88_stable_exactly.

Fixpoint size (n : node) : nat := match n with Node _ fs => S (sum_list (map (fun f => sum_list (map size f)) fs)) end.
Notation fsize := (fun f : list node => sum_list (map size f)).
Lemma strip_size b : strip_doc b = b \/ fsize (strip_doc b) < fsize b.
Proof.
  destruct b as [|s rest]; [by left|]. cbn [strip_doc]. destruct (is_doc s) eqn:E; [|by left]. right. apply is_doc_spec in E as (t & fs & ->).
  destruct rest as [|x rest]; cbn; lia.
Qed.
Lemma list_size (f : list node) : (forall c, c ∈ f -> norm c = c \/ size (norm c) < size c) -> map norm f = f \/ fsize (map norm f) < fsize f.
Proof.
  induction f as [|c f IH]; intros H; [by left|]. cbn [map]. destruct (H c ltac:(left)) as [E|E]; destruct IH as [E2|E2]; try (intros d Hd; apply H; by right).
  - left. congruence.
  - right. rewrite E. cbn in *. lia.
  - right. rewrite E2. cbn in *. lia.
  - right. cbn in *. lia.
Qed.
Lemma fields_size (fs : list (list node)) : (forall f c, f ∈ fs -> c ∈ f -> norm c = c \/ size (norm c) < size c) ->
  map (map norm) fs = fs \/ sum_list (map (fun f => fsize f) (map (map norm) fs)) < sum_list (map (fun f => fsize f) fs).
Proof.
  induction fs as [|f fs IH]; intros H; [by left|]. cbn [map]. destruct (list_size f) as [E|E]; [intros c Hc; apply (H f c); [left|done]| |];
    destruct IH as [E2|E2]; try (intros g d Hg Hd; apply (H g d); [by right|done]).
  - left. congruence.
  - right. rewrite E. cbn in *. lia.
  - right. rewrite E2. cbn in *. lia.
  - right. cbn in *. lia.
Qed.
Lemma norm_size : forall a, norm a = a \/ size (norm a) < size a.
Proof.
  refine (node_ind' _ _). intros l fs IH. pose proof (fields_size fs IH) as Hfs.
  assert (Hother : norm (Node l fs) = Node l (map (map norm) fs) -> norm (Node l fs) = Node l fs \/ size (norm (Node l fs)) < size (Node l fs)).
  { intros ->. destruct Hfs as [->|Hfs]; [by left|right]. cbn [size]. lia. }
  assert (Hfield : forall f, f ∈ fs -> map norm f = f \/ fsize (map norm f) < fsize f) by (intros f Hf; apply list_size; eauto).
  assert (Hbody : forall b, b ∈ fs -> strip_doc (map norm b) = b \/ fsize (strip_doc (map norm b)) < fsize b).
  { intros b Hb. destruct (Hfield b Hb) as [E|E]; [rewrite E; apply strip_size|]. right.
    destruct (strip_size (map norm b)) as [E2|E2]; [by rewrite E2|lia]. }
  destruct l; try (apply Hother; by apply norm_other; intros []).
  - destruct fs as [|b [|? ?]]; try (by apply Hother). destruct (Hbody b ltac:(left)) as [E|E]; cbn [norm map]; [left; by rewrite E|right; cbn in *; lia].
  - destruct fs as [|a [|b [|d [|r [|? ?]]]]]; try (by apply Hother).
    destruct (Hfield a ltac:(left)) as [Ea|Ea], (Hbody b ltac:(right; left)) as [Eb|Eb], (Hfield d ltac:(do 2 right; left)) as [Ed|Ed], r as [|x r];
      cbn [norm map]; rewrite ?Ea, ?Eb, ?Ed; try (by left); right; cbn in *; try lia. all: destruct x; cbn; lia.
  - destruct fs as [|x [|k [|b [|d [|? ?]]]]]; try (by apply Hother).
    destruct (Hfield x ltac:(left)) as [Ea|Ea], (Hfield k ltac:(right; left)) as [Ek|Ek], (Hbody b ltac:(do 2 right; left)) as [Eb|Eb], (Hfield d ltac:(do 3 right; left)) as [Ed|Ed];
      cbn [norm map]; rewrite ?Ea, ?Eb, ?Ed, ?Ek; try (by left); right; cbn in *; lia.
  - destruct fs as [|x [|? ?]]; try (by apply Hother). cbn. destruct x as [|[] x]; [by left|right]. cbn. lia.
  - destruct fs as [|t [|x [|v [|? ?]]]]; try (by apply Hother).
    destruct (Hfield t ltac:(left)) as [Ea|Ea], (Hfield v ltac:(do 2 right; left)) as [Eb|Eb], x as [|y x];
      cbn [norm map]; rewrite ?Ea, ?Eb; try (by left); right; cbn in *; try lia. all: destruct y; cbn; lia.
Qed.
(** Repeating the normalisation never fails, and comes to rest. *)
Theorem C88_repeating_settles : forall m r, normalise_ast m = Ok r ->
  exists k r', normalise_again k r = Ok r' /\ normalise_ast r' = Ok r'.
Proof.
  intros m r H. remember (size r) as s eqn:Es. revert m r H Es. induction s as [s IH] using lt_wf_ind. intros m r H ->.
  destruct (normalised_again m r H) as [E _]. destruct (norm_size r) as [En|En].
  - exists 0, r. split; [done|]. by rewrite E, En.
  - destruct (IH (size (norm r)) En r (norm r) E eq_refl) as (k & r' & H1 & H2). exists (S k), r'. split; [|done]. cbn. by rewrite E.
Qed.
Print Assumptions C88_repeating_settles.
Example C88_example : let ret := sret (Node (LConst "1") []) in
  let m := smod (sfun "f" [] [sstr "doc"; sstr "note"; ret] [] []) in let r := smod (sfun "f" [] [sstr "note"; ret] [] []) in
  normalise_ast m = Ok r /\ starts_with_doc (body_of (sfun "f" [] [sstr "note"; ret] [] [])) /\
  normalise_again 1 r = Ok (smod (sfun "f" [] [ret] [] [])) /\ normalise_again 2 r = normalise_again 1 r.
Proof.
  cbn zeta. split; [by vm_compute|]. split; [|by vm_compute]. eexists _, _. split; [reflexivity|]. by eexists _, _.
Qed.

(** * C89 *)
(** the fields that hold annotations: of an argument, of what a function returns, of an annotated variable *)
Definition annotation_field (l : label) (i : nat) : Prop :=
  match l with LArg _ => i = 0 | LFunctionDef _ _ => i = 3 | LAnnAssign => i = 1 | _ => False end.
(** n is part of m, outside annotations *)
Inductive part_of : node -> node -> Prop :=
  | part_here n : part_of n n
  | part_sub n l fs i f c : fs !! i = Some f -> ~ annotation_field l i -> c ∈ f -> part_of n c -> part_of n (Node l fs).
Definition annotated_part (m : node) : Prop := exists fs, part_of (Node LAnnAssign fs) m.
(** no decorator, or one that is written as a call of one of the four names, bare or with a package: f() or pth.f() *)
Definition acceptable_decorators (d : list node) : Prop :=
  d = [] \/ exists g deco fs rest, d = [Node LCall ([Node deco fs] :: rest)] /\ g ∈ all_decorators /\ (deco = LAttribute g \/ exists c, deco = LName g c).

Lemma existsb_elem {X} (p : X -> bool) l : existsb p l = true <-> exists x, x ∈ l /\ p x = true.
Proof. rewrite existsb_exists. split; intros (x & H & Hp); exists x; (split; [by apply elem_of_list_In|done]). Qed.
Lemma ann_fields l fs : has_ann_assign (Node l fs) = true <-> l = LAnnAssign \/ exists f c, f ∈ fs /\ c ∈ f /\ has_ann_assign c = true.
Proof.
  cbn [has_ann_assign]. rewrite orb_true_iff, existsb_elem. split.
  - intros [H|(f & Hf & H)]; [left; by destruct l|right]. apply existsb_elem in H as (c & Hc & H). eauto.
  - intros [->|(f & c & Hf & Hc & H)]; [by left|right]. exists f. split; [done|]. apply existsb_elem. eauto.
Qed.
Lemma doc_no_ann n : wf n = true -> is_doc n = true -> has_ann_assign (norm n) = false.
Proof.
  intros Hw (s & fs & ->)%is_doc_spec. apply wf_node in Hw as (_ & _ & Hc). specialize (Hc _ (Node (LStr s) fs) ltac:(left) ltac:(left)).
  apply wf_node in Hc as (Ha & _). by destruct fs.
Qed.
Lemma norm_ann_iff : forall a, wf a = true -> (has_ann_assign (norm a) = true <-> annotated_part a).
Proof.
  refine (node_ind' _ _). intros l fs IH Hw. apply wf_node in Hw as (Har & _ & Hch).
  assert (IH' : forall f c, f ∈ fs -> c ∈ f -> has_ann_assign (norm c) = true <-> annotated_part c) by (intros f c Hf Hc; apply (IH f c); eauto). clear IH.
  (* parts of a node *)
  assert (Hpart : annotated_part (Node l fs) <-> l = LAnnAssign \/ exists i f c, fs !! i = Some f /\ ~ annotation_field l i /\ c ∈ f /\ has_ann_assign (norm c) = true).
  { split.
    - intros (gs & Hp). inversion Hp as [n E1 E2|n l' fs' i f c Hi Hn Hc Hpc E1 E2]; subst; [by left|right].
      exists i, f, c. split; [done|]. split; [done|]. split; [done|]. apply (IH' f c); [by eapply elem_of_list_lookup_2|done|]. by exists gs.
    - intros [->|(i & f & c & Hi & Hn & Hc & H)]; [exists fs; constructor|]. apply (IH' f c) in H as (gs & Hg); [|by eapply elem_of_list_lookup_2|done].
      exists gs. by eapply part_sub. }
  rewrite Hpart. clear Hpart.
  assert (Hbody : forall b, b ∈ fs -> (exists c, c ∈ strip_doc (map norm b) /\ has_ann_assign c = true) <-> exists c, c ∈ b /\ has_ann_assign (norm c) = true).
  { intros b Hb. split.
    - intros (c & Hc & H). destruct (strip_sub _ _ Hc) as [->|(d & -> & Hd)%elem_of_list_fmap]; [done|]. eauto.
    - intros (c & Hc & H). exists (norm c). split; [|done]. rewrite strip_norm. apply elem_of_list_fmap. exists c. split; [done|].
      destruct b as [|s rest]; [done|]. cbn [strip_doc]. destruct (is_doc s) eqn:Ed; [|done]. apply elem_of_cons in Hc as [->|Hc].
      + rewrite (doc_no_ann s) in H; [done| |done]. apply (Hch (s :: rest) s); [done|left].
      + destruct rest; [by apply elem_of_nil in Hc|done]. }
  assert (Hfield : forall f, (exists c, c ∈ map norm f /\ has_ann_assign c = true) <-> exists c, c ∈ f /\ has_ann_assign (norm c) = true).
  { intros f. split; [intros (c & (d & -> & Hd)%elem_of_list_fmap & H); eauto|intros (c & Hc & H)]. exists (norm c). split; [apply elem_of_list_fmap; eauto|done]. }
  assert (Hother : ~ documented l -> has_ann_assign (norm (Node l fs)) = true <->
    l = LAnnAssign \/ exists i f c, fs !! i = Some f /\ ~ annotation_field l i /\ c ∈ f /\ has_ann_assign (norm c) = true).
  { intros Hd. rewrite norm_other by done. rewrite ann_fields. split.
    - intros [->|(g & c & (f & -> & Hf)%elem_of_list_fmap & Hc & H)]; [by left|right]. apply elem_of_list_lookup in Hf as [i Hi].
      destruct (proj1 (Hfield f)) as (c' & Hc' & H'); [eauto|]. exists i, f, c'. split; [done|]. split; [by destruct l|]. done.
    - intros [->|(i & f & c & Hi & _ & Hc & H)]; [by left|right]. exists (map norm f), (norm c). split; [apply elem_of_list_fmap; exists f; split; [done|by eapply elem_of_list_lookup_2]|].
      split; [apply elem_of_list_fmap; eauto|done]. }
  destruct l; try (apply Hother; by intros []); clear Hother.
  - destruct fs as [|b [|? ?]]; try done. cbn [norm map]. rewrite ann_fields. split.
    + intros [?|(g & c & ->%elem_of_list_singleton & Hc & H)]; [done|right]. destruct (proj1 (Hbody b ltac:(left))) as (c' & Hc' & H'); [eauto|].
      exists 0, b, c'. split; [done|]. split; [by intros []|]. done.
    + intros [?|(i & f & c & Hi & _ & Hc & H)]; [done|right]. destruct i as [|i]; [|done]. injection Hi as ->.
      destruct (proj2 (Hbody f ltac:(left))) as (c' & Hc' & H'); [eauto|]. exists (strip_doc (map norm f)), c'. split; [left|done].
  - destruct fs as [|a [|b [|d [|r [|? ?]]]]]; try (by exfalso; clear -Har; cbn in Har; repeat case_match). cbn [norm map]. rewrite ann_fields. split.
    + intros [?|(g & c & Hg & Hc & H)]; [done|right]. rewrite !elem_of_cons in Hg. destruct Hg as [->|[->|[->|[->|X%elem_of_nil]]]].
      * destruct (proj1 (Hfield a)) as (c' & Hc' & H'); [eauto|]. exists 0, a, c'. by split; [|split; [cbn; lia|]].
      * destruct (proj1 (Hbody b ltac:(right; left))) as (c' & Hc' & H'); [eauto|]. exists 1, b, c'. by split; [|split; [cbn; lia|]].
      * destruct (proj1 (Hfield d)) as (c' & Hc' & H'); [eauto|]. exists 2, d, c'. by split; [|split; [cbn; lia|]].
      * by apply elem_of_nil in Hc.
      * done.
    + intros [?|(i & f & c & Hi & Hn & Hc & H)]; [done|right]. destruct i as [|[|[|[|i]]]]; try done; cbn in Hi; injection Hi as ->.
      * destruct (proj2 (Hfield f)) as (c' & Hc' & H'); [eauto|]. exists (map norm f), c'. split; [left|done].
      * destruct (proj2 (Hbody f ltac:(right; left))) as (c' & Hc' & H'); [eauto|]. exists (strip_doc (map norm f)), c'. split; [right; left|done].
      * destruct (proj2 (Hfield f)) as (c' & Hc' & H'); [eauto|]. exists (map norm f), c'. split; [do 2 right; left|done].
  - destruct fs as [|a [|k [|b [|d [|? ?]]]]]; try (by exfalso; clear -Har; cbn in Har; repeat case_match). cbn [norm map]. rewrite ann_fields. split.
    + intros [?|(g & c & Hg & Hc & H)]; [done|right]. rewrite !elem_of_cons in Hg. destruct Hg as [->|[->|[->|[->|X%elem_of_nil]]]].
      * destruct (proj1 (Hfield a)) as (c' & Hc' & H'); [eauto|]. exists 0, a, c'. by split; [|split; [intros []|]].
      * destruct (proj1 (Hfield k)) as (c' & Hc' & H'); [eauto|]. exists 1, k, c'. by split; [|split; [intros []|]].
      * destruct (proj1 (Hbody b ltac:(do 2 right; left))) as (c' & Hc' & H'); [eauto|]. exists 2, b, c'. by split; [|split; [intros []|]].
      * destruct (proj1 (Hfield d)) as (c' & Hc' & H'); [eauto|]. exists 3, d, c'. by split; [|split; [intros []|]].
      * done.
    + intros [?|(i & f & c & Hi & Hn & Hc & H)]; [done|right]. destruct i as [|[|[|[|i]]]]; try done; cbn in Hi; injection Hi as ->.
      * destruct (proj2 (Hfield f)) as (c' & Hc' & H'); [eauto|]. exists (map norm f), c'. split; [left|done].
      * destruct (proj2 (Hfield f)) as (c' & Hc' & H'); [eauto|]. exists (map norm f), c'. split; [right; left|done].
      * destruct (proj2 (Hbody f ltac:(do 2 right; left))) as (c' & Hc' & H'); [eauto|]. exists (strip_doc (map norm f)), c'. split; [do 2 right; left|done].
      * destruct (proj2 (Hfield f)) as (c' & Hc' & H'); [eauto|]. exists (map norm f), c'. split; [do 3 right; left|done].
  - destruct fs as [|x [|? ?]]; try done. cbn [norm map]. rewrite ann_fields. split.
    + intros [?|(g & c & ->%elem_of_list_singleton & Hc & H)]; [done|]. by apply elem_of_nil in Hc.
    + intros [?|(i & f & c & Hi & Hn & Hc & H)]; [done|]. destruct i as [|i]; [by destruct Hn|done].
  - split; [by left|]. intros _. destruct fs as [|t [|x [|v [|? ?]]]]; done.
Qed.
(** A (parsed) source is accepted exactly if its first statement is a plain 'def', with no decorator or a single acceptable one,
    and no part of the source, annotations and that decorator apart, is an annotated variable ("x: int = 1"). *)
Theorem C89_accepted_exactly : forall m, wf m = true ->
  (exists out, normalise_ast m = Ok out) <->
  exists f a b d r others, m = Node LModule [Node (LFunctionDef false f) [a; b; d; r] :: others] /\ acceptable_decorators d /\
    ~ annotated_part (Node LModule [Node (LFunctionDef false f) [a; b; []; r] :: others]).
Proof.
  intros m Hw.
  assert (Hw' : forall f a b d r others, m = Node LModule [Node (LFunctionDef false f) [a; b; d; r] :: others] ->
    wf (Node LModule [Node (LFunctionDef false f) [a; b; []; r] :: others]) = true).
  { intros * ->. cbn [wf forallb] in Hw |- *. destruct a as [|a0 [|]]; [cbn in Hw; by rewrite ?andb_false_r in Hw| |cbn in Hw; by rewrite ?andb_false_r in Hw].
    destruct b as [|b0 b]; [cbn in Hw; by rewrite ?andb_false_r in Hw|].
    cbn [arity_ok sorts_ok andb] in Hw |- *. rewrite !andb_true_iff in Hw. rewrite !andb_true_iff. cbn [forallb] in *. tauto. }
  split.
  - intros (out & H). destruct (normalise_form m out H) as (f & a & b & d & r & others & Em & -> & Hann & Hd). exists f, a, b, d, r, others.
    split; [done|]. split.
    + destruct Hd as [->|(x & -> & Hx)]; [by left|right]. unfold decorator_check in Hx. destruct x as [[] fs]; try done.
      destruct fs as [|[|[deco gs] [|? ?]] rest]; try done. destruct deco; try done; unfold passert in Hx; (destruct (bool_decide _) eqn:E; [|done]);
        apply bool_decide_eq_true in E; eexists _, _, _, _; (split; [reflexivity|]); (split; [exact E|]); eauto.
    + intros X. apply norm_ann_iff in X; [congruence|]. by eapply Hw'.
  - intros (f & a & b & d & r & others & Em & Hd & Hn). pose proof (Hw' _ _ _ _ _ _ Em) as Hw2.
    assert (Hf : has_ann_assign (norm (Node LModule [Node (LFunctionDef false f) [a; b; []; r] :: others])) = false).
    { destruct (has_ann_assign _) eqn:E; [|done]. by apply norm_ann_iff in E. }
    rewrite Em. unfold normalise_ast.
    assert (E : match d with [] => Ok tt | [x] => decorator_check x | _ => Err AssertionError end = Ok tt).
    { destruct Hd as [->|(g & deco & fs & rest & -> & Hg & Hdeco)]; [done|]. cbn [decorator_check].
      destruct Hdeco as [->|(c & ->)]; unfold passert; by rewrite bool_decide_true. }
    rewrite E. cbn [rbind]. rewrite Hf. eauto.
Qed.
Print Assumptions C89_accepted_exactly.
(** "x: int = 1" in the body is refused, "def f(x: int) -> int" is not; @pth.pure() is accepted, @pth.safe() is not *)
Example C89_example :
  let int := sname "int" Load in let one := Node (LConst "1") [] in
  let m b d := smod (sfun "f" [("x", [int])] b d [int]) in
  wf (m [sret one] [sdeco "pth" "pure"]) = true /\ is_ok (normalise_ast (m [sret one] [sdeco "pth" "pure"])) = true /\
  is_ok (normalise_ast (m [sret one] [sdeco "pth" "safe"])) = false /\
  is_ok (normalise_ast (m [Node LAnnAssign [[sname "y" Store]; [int]; [one]]; sret one] [])) = false.
Proof. vm_compute. auto. Qed.
