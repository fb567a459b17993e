(** C27-C29: code normalisation. *)
From Coq Require Import String.
From stdpp Require Import gmap.
From Verif Require Import Lib.Py Model.PyAst Model.SourceText Model.Normalizer Spec.NormalizerSpec Proofs.PyAstP Proofs.NormalizerP.
Local Open Scope nat_scope.

(** Small functions for the examples. *)
Definition sname (x : string) (c : ctx) : node := Node (LName x c) [].
Definition sstr (s : string) : node := Node LExpr [[Node (LStr s) []]].
Definition sret (e : node) : node := Node (LOther "Return") [[e]].
Definition sargs (l : list (string * list node)) : node := Node LArguments [[]; map (fun '(n, a) => Node (LArg n) [a]) l; []; []; []; []; []].
Definition sdeco (pkg d : string) : node := Node LCall [[Node (LAttribute d) [[sname pkg Load]]]; []; []].
Definition sfun (f : string) (args : list (string * list node)) (body decos returns : list node) : node :=
  Node (LFunctionDef false f) [[sargs args]; body; decos; returns].
Definition smod (f : node) : node := Node LModule [[f]].

Lemma normalise_form m r : normalise_ast m = Ok r ->
  exists f a b d rr others, m = Node LModule [Node (LFunctionDef false f) [a; b; d; rr] :: others] /\
    r = norm (Node LModule [Node (LFunctionDef false f) [a; b; []; rr] :: others]) /\ has_ann_assign r = false /\
    (d = [] \/ exists x, d = [x] /\ decorator_check x = Ok tt).
Proof.
  unfold normalise_ast. destruct m as [l fs]. destruct l; try done. destruct fs as [|[|[lf ff] others] [|? ?]]; try done.
  2: destruct lf as [|[] f| | | | | | | | | | | | | | | | | | | | | | | | | | |]; try done; destruct ff as [|a [|b [|d [|rr [|? ?]]]]]; done.
  destruct lf as [|[] f| | | | | | | | | | | | | | | | | | | | | | | | | | |]; try done. destruct ff as [|a [|b [|d [|rr [|? ?]]]]]; try done.
  intros H. exists f, a, b, d, rr, others. split; [done|]. destruct d as [|x [|? ?]]; [| |done].
  - cbn [rbind] in H. destruct (has_ann_assign _) eqn:E in H; [done|]. injection H as <-. split_and!; [done|done|by left].
  - destruct (decorator_check x) as [[]|] eqn:Ed; [|done]. cbn [rbind] in H. destruct (has_ann_assign _) eqn:E in H; [done|]. injection H as <-.
    split_and!; [done|done|right; eauto].
Qed.
Lemma undecorated_single m m' : undecorated m m' -> single_docs m -> single_docs m'.
Proof.
  intros (y & f & a & b & d & r & rest & -> & ->) Hs n Hn.
  inversion Hn as [|? ? ? g1 c1 Hg1 Hc1 Hw1]; subst.
  - cbn [body_of]. intros (d1 & d2 & rs & E & H1 & H2). injection E as <- _. destruct H1 as (s & fs & [=]).
  - apply elem_of_list_singleton in Hg1 as ->. apply elem_of_cons in Hc1 as [->|Hc1].
    + inversion Hw1 as [|? ? ? g2 c2 Hg2 Hc2 Hw2]; subst.
      * cbn [body_of]. apply (Hs (Node (LFunctionDef y f) [a; b; d; r])). eapply within_sub; [left|left|constructor].
      * apply Hs. eapply within_sub; [left|left|]. eapply within_sub; [|exact Hc2|exact Hw2].
        rewrite !elem_of_cons in Hg2 |- *. destruct Hg2 as [->|[->|[->|Hg2]]]; [by left|by right; left|by apply elem_of_nil in Hc2|by right; right; right].
    + apply Hs. eapply within_sub; [left|right; exact Hc1|exact Hw1].
Qed.

(** * C27 *)
(** On syntax trees: unless some body begins with two string statements, the normal form is its own normal form. *)
Theorem C27_normal_form_stable_partial : forall m r, normalise_ast m = Ok r -> single_docs m -> normalise_ast r = Ok r.
Proof.
  intros m r H Hs. destruct (normalise_form m r H) as (f & a & b & d & rr & others & -> & Hr & Hann & _).
  assert (Hi : norm r = r).
  { rewrite Hr. apply norm_idem. eapply undecorated_single; [|exact Hs]. by exists false, f, a, b, d, rr, others. }
  assert (Hf : r = Node LModule [Node (LFunctionDef false f) [map norm a; strip_doc (map norm b); []; []] :: map norm others]) by (by rewrite Hr).
  rewrite Hf in Hi, Hann |- *. unfold normalise_ast. cbn [rbind]. rewrite Hi, Hann. done.
Qed.
Print Assumptions C27_normal_form_stable_partial.
(** On texts, for any parser and printer that read the printed normal form back. *)
Theorem C27_idempotent_partial : forall parse print code out,
  normalized_source parse print code = Ok out ->
  (forall c m r, clean_source code = Ok c -> parse c = Ok m -> normalise_ast m = Ok r -> single_docs m /\ reads_back parse print r) ->
  normalized_source parse print out = Ok out.
Proof.
  intros parse print code out H Hrb. unfold normalized_source in H.
  destruct (clean_source code) as [c|] eqn:Ec; [|done]. cbn [rbind] in H. destruct (get_function_name_from_source c) as [n|] eqn:En; [|done]. cbn [rbind] in H.
  destruct (parse c) as [m|] eqn:Em; [|done]. cbn [rbind] in H. destruct (normalise_ast m) as [r|] eqn:Er; [|done]. cbn [rbind] in H. injection H as <-.
  destruct (Hrb c m r eq_refl Em Er) as (Hs & c2 & n2 & E1 & E2 & E3).
  unfold normalized_source. rewrite E1. cbn [rbind]. rewrite E2. cbn [rbind]. rewrite E3. cbn [rbind].
  rewrite (C27_normal_form_stable_partial m r Er Hs). done.
Qed.
Print Assumptions C27_idempotent_partial.
(** Refutation: a docstring followed by another string.  Normalising twice removes both, so the code of a registered
    function is not normal, which makes the registration of autonomous functions fail (autonomous_core_classes.py:172). *)
Theorem C27_two_strings_refuted : let f b := smod (sfun "f" [] b [] []) in let ret := sret (Node (LConst "1") []) in
  normalise_ast (f [sstr "doc"; sstr "note"; ret]) = Ok (f [sstr "note"; ret]) /\
  normalise_ast (f [sstr "note"; ret]) = Ok (f [ret]).
Proof. by vm_compute. Qed.
Print Assumptions C27_two_strings_refuted.
Example C27_example : let m := smod (sfun "f" [("x", [sname "int" Load])] [sstr "doc"; sret (sname "x" Load)] [sdeco "pth" "pure"] [sname "int" Load]) in
  normalise_ast m = Ok (smod (sfun "f" [("x", [])] [sret (sname "x" Load)] [] [])) /\ wf m = true /\ single_docs m.
Proof.
  split; [by vm_compute|]. split; [by vm_compute|]. intros n Hn (d1 & d2 & rest & E & H1 & H2).
  assert (Hb : body_of n = [] \/ exists x xs, body_of n = x :: xs /\ (xs = [] \/ exists y, xs = [y] /\ is_doc y = false)).
  { repeat (match goal with
            | H : within _ (Node _ _) |- _ => inversion H; subst; clear H
            | H : within _ (smod _) |- _ => unfold smod in H
            | H : within _ (sfun _ _ _ _ _) |- _ => unfold sfun in H
            | H : within _ (sargs _) |- _ => unfold sargs in H
            | H : within _ (sstr _) |- _ => unfold sstr in H
            | H : within _ (sret _) |- _ => unfold sret in H
            | H : within _ (sname _ _) |- _ => unfold sname in H
            | H : within _ (sdeco _ _) |- _ => unfold sdeco in H
            | H : _ ∈ [] |- _ => by apply elem_of_nil in H
            | H : _ ∈ map _ _ |- _ => cbn [map] in H
            | H : _ ∈ _ :: _ |- _ => apply elem_of_cons in H as [->|H]
            end); first [by left|right; eexists _, _; split; [reflexivity|]; first [by left|right; eexists; split; reflexivity]]. }
  apply is_doc_spec in H2. rewrite E in Hb. destruct Hb as [|(x & xs & [= <- <-] & [|(y & [= <- _] & Hy)])]; [done|done|congruence].
Qed.

(** * C28 *)
(** Two functions have the same normal form exactly if they are the same code, that is, differ only in docstrings,
    annotations and the decorator. *)
Theorem C28_exactly_same_code : forall m1 m2 u1 u2 r1 r2, wf m1 = true -> wf m2 = true ->
  normalise_ast m1 = Ok r1 -> normalise_ast m2 = Ok r2 -> undecorated m1 u1 -> undecorated m2 u2 ->
  (r1 = r2 <-> same_code u1 u2).
Proof.
  intros * W1 W2 H1 H2 (y1 & f1 & a1 & b1 & d1 & q1 & o1 & E1 & ->) (y2 & f2 & a2 & b2 & d2 & q2 & o2 & E2 & ->).
  destruct (normalise_form _ _ H1) as (f1' & a1' & b1' & d1' & q1' & o1' & E1' & -> & _).
  destruct (normalise_form _ _ H2) as (f2' & a2' & b2' & d2' & q2' & o2' & E2' & -> & _).
  rewrite E1 in E1'. injection E1' as -> -> -> -> -> -> ->. rewrite E2 in E2'. injection E2' as -> -> -> -> -> -> ->.
  assert (Hw : forall f a b d q o, wf (Node LModule [Node (LFunctionDef false f) [a; b; d; q] :: o]) = true -> wf (Node LModule [Node (LFunctionDef false f) [a; b; []; q] :: o]) = true).
  { clear. intros f a b d q o. cbn [wf arity_ok sorts_ok forallb]. destruct a as [|x [|? ?]]; [done| |done]. destruct b as [|s b]; [done|].
    cbn [forallb]. rewrite !andb_true_iff. tauto. }
  subst m1 m2. apply norm_same; by eapply Hw.
Qed.
Print Assumptions C28_exactly_same_code.
(** On texts: the normal forms of two sources are the same text exactly if their functions are the same code. *)
Theorem C28_texts : forall parse print code1 code2 c1 c2 m1 m2 u1 u2 out1 out2,
  clean_source code1 = Ok c1 -> parse c1 = Ok m1 -> normalized_source parse print code1 = Ok out1 -> wf m1 = true -> undecorated m1 u1 ->
  clean_source code2 = Ok c2 -> parse c2 = Ok m2 -> normalized_source parse print code2 = Ok out2 -> wf m2 = true -> undecorated m2 u2 ->
  (forall r, normalise_ast m1 = Ok r \/ normalise_ast m2 = Ok r -> reads_back parse print r) ->
  (out1 = out2 <-> same_code u1 u2).
Proof.
  intros * C1 P1 N1 W1 U1 C2 P2 N2 W2 U2 Hrb. unfold normalized_source in N1, N2. rewrite C1 in N1. rewrite C2 in N2. cbn [rbind] in N1, N2.
  destruct (get_function_name_from_source c1); [|done]. destruct (get_function_name_from_source c2); [|done]. cbn [rbind] in N1, N2. rewrite P1 in N1. rewrite P2 in N2.
  cbn [rbind] in N1, N2. destruct (normalise_ast m1) as [r1|] eqn:E1; [|done]. destruct (normalise_ast m2) as [r2|] eqn:E2; [|done]. cbn [rbind] in N1, N2.
  injection N1 as <-. injection N2 as <-. rewrite <- (C28_exactly_same_code m1 m2 u1 u2 r1 r2 W1 W2 E1 E2 U1 U2). split; [|by intros ->].
  intros E. destruct (Hrb r1 ltac:(by left)) as (x1 & n1 & A1 & _ & B1), (Hrb r2 ltac:(by right)) as (x2 & n2 & A2 & _ & B2). rewrite E, A2 in A1. injection A1 as ->. congruence.
Qed.
Print Assumptions C28_texts.
Example C28_example :
  let m1 := smod (sfun "f" [("x", [sname "int" Load])] [sstr "doc"; sret (sname "x" Load)] [sdeco "pth" "pure"] []) in
  let m2 := smod (sfun "f" [("x", [])] [sret (sname "x" Load)] [] [sname "int" Load]) in
  let m3 := smod (sfun "f" [("x", [])] [sret (sname "y" Load)] [] []) in
  wf m1 = true /\ wf m2 = true /\ wf m3 = true /\ normalise_ast m1 = normalise_ast m2 /\ normalise_ast m1 <> normalise_ast m3.
Proof. split_and!; by vm_compute. Qed.

(** * C29 *)
(** A module of one or more statements beginning with a (not async) function that has at most one decorator, a call of
    one of ordinary, autonomous, strictly_autonomous or pure, and no annotated variables is normalised. *)
Theorem C29_accepted_partial : forall f a b d r others,
  (d = [] \/ exists g deco fs rest, d = [Node LCall ([Node deco fs] :: rest)] /\ g ∈ all_decorators /\ (deco = LAttribute g \/ exists c, deco = LName g c)) ->
  ~ annotates_variable (Node LModule [Node (LFunctionDef false f) [a; b; []; r] :: others]) ->
  exists out, normalise_ast (Node LModule [Node (LFunctionDef false f) [a; b; d; r] :: others]) = Ok out.
Proof.
  intros f a b d r others Hd Ha. pose proof (norm_no_ann _ Ha) as Hn. unfold normalise_ast.
  assert (E : match d with [] => Ok tt | [x] => decorator_check x | _ => Err AssertionError end = Ok tt).
  { destruct Hd as [->|(g & deco & fs & rest & -> & Hg & Hdeco)]; [done|]. cbn [decorator_check].
    destruct Hdeco as [->|(c & ->)]; unfold passert; by rewrite bool_decide_true. }
  rewrite E. cbn [rbind]. rewrite Hn. eauto.
Qed.
Print Assumptions C29_accepted_partial.
(** Refutation 1: no function with an annotated variable among its statements can be normalised. *)
Theorem C29_annotated_variable_refuted : forall f a b d r others fs, Node LAnnAssign fs ∈ b ->
  forall out, normalise_ast (Node LModule [Node (LFunctionDef false f) [a; b; d; r] :: others]) <> Ok out.
Proof.
  intros * Hin.
  assert (Hall : forall out, normalise_ast (Node LModule [Node (LFunctionDef false f) [a; b; d; r] :: others]) <> Ok out).
  { intros out H. destruct (normalise_form _ _ H) as (f' & a' & b' & d' & r' & o' & [= <- <- <- <- <- <-] & -> & Hann & _).
    assert (E : has_ann_assign (Node LModule [Node (LFunctionDef false f) [map norm a; strip_doc (map norm b); []; []] :: map norm others]) = true); [|enough (true = false) by done; rewrite <- E; exact Hann].
    eapply ann_here; [left|left|]. eapply ann_here; [right; left| |].
    - rewrite strip_norm. apply elem_of_list_fmap. exists (Node LAnnAssign fs). split; [reflexivity|]. destruct b as [|s rest]; [done|]. cbn [strip_doc].
      destruct (is_doc s) eqn:Ed; [|done]. apply elem_of_cons in Hin as [<-|Hin]; [done|]. destruct rest; [by apply elem_of_nil in Hin|done].
    - cbn [norm]. by destruct fs as [|t [|x [|v [|? ?]]]]. }
  exact Hall.
Qed.
Print Assumptions C29_annotated_variable_refuted.
(** Refutation 2: functions with the library's own @pth.safe() decorator are refused. *)
Theorem C29_safe_decorator_refuted : forall f a b r others rest fs,
  normalise_ast (Node LModule [Node (LFunctionDef false f) [a; b; [Node LCall ([Node (LAttribute "safe") fs] :: rest)]; r] :: others]) = Err AssertionError.
Proof. done. Qed.
Print Assumptions C29_safe_decorator_refuted.
Example C29_example : ~ annotates_variable (smod (sfun "f" [("x", [])] [sret (sname "x" Load)] [] [])).
Proof.
  intros (fs & H). repeat (match goal with
            | H : within _ (Node _ _) |- _ => inversion H; subst; clear H
            | H : within _ (smod _) |- _ => unfold smod in H
            | H : within _ (sfun _ _ _ _ _) |- _ => unfold sfun in H
            | H : within _ (sargs _) |- _ => unfold sargs in H
            | H : within _ (sret _) |- _ => unfold sret in H
            | H : within _ (sname _ _) |- _ => unfold sname in H
            | H : _ ∈ [] |- _ => by apply elem_of_nil in H
            | H : _ ∈ map _ _ |- _ => cbn [map] in H
            | H : _ ∈ _ :: _ |- _ => apply elem_of_cons in H as [->|H]
            end).
Qed.
