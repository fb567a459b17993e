(** C136: comments, layout, docstrings, annotations and the decorators' spelling in the source do not matter. *)
From Coq Require Import String.
From stdpp Require Import gmap.
From Verif Require Import Lib.Py Model.PyAst Model.SourceText Model.Normalizer Model.NamesAnalyzer Model.Registry Model.AugText Model.PureAddr.
From Verif.Spec Require Import NormalizerSpec RegistrySpec AugTextSpec PureAddrSpec.
From Verif.Proofs Require Import NormalizerP.
From Verif.Properties Require Import P_Normalizer P_Registry P_RegistryExamples P_Edits.
Local Open Scope nat_scope.

Section Reformat.
  Variable parse : text -> res node.               (* ast.parse *)
  Variable print : node -> text.                   (* autopep8.fix_code(ast.unparse(...)) *)
  Variable normalise : bool -> string -> res string.
  Variable names_of : string -> res ana.
  Variable name_of : string -> res string.
  Variable builtins : gset string.
  Variable ord : nat -> gset string -> list string.
  Variable default_island : nat -> string.
  Notation step := (step normalise names_of name_of builtins ord default_island).
  Notation run := (run normalise names_of name_of builtins ord default_island).
  Notation get_state := (get_state normalise names_of builtins ord).
  (** What the decorators apply to the source given to them is the normaliser of Normalizer.v. *)
  Hypothesis normaliser : forall code, normalise true code = match normalized_source parse print (T code) with Ok out => Ok (string_of_list_ascii out) | Err e => Err e end.

  (** The source is acceptable and its syntax tree, without the decorators of the function, is [u]. *)
  Definition code_tree (code : string) (u : node) : Prop :=
    exists c m out, clean_source (T code) = Ok c /\ parse c = Ok m /\ wf m = true /\ normalized_source parse print (T code) = Ok out /\ undecorated m u.
  (** Two operations that are the same but for sources: these are the same code, that is, their trees differ at most in docstrings, annotations
      and the function's decorator (comments and layout are not in the trees). *)
  Inductive same_but_text : op -> op -> Prop :=
    | SameOp o : same_but_text o o
    | SameCode k code1 code2 u1 u2 island strictly gs p : code_tree code1 u1 -> code_tree code2 u2 -> same_code u1 u2 ->
        same_but_text (Decorate k code1 island strictly gs p) (Decorate k code2 island strictly gs p).

  Lemma same_normal_form code1 code2 u1 u2 : code_tree code1 u1 -> code_tree code2 u2 -> same_code u1 u2 -> normalise true code1 = normalise true code2.
  Proof.
    intros (c1 & m1 & out1 & C1 & P1 & W1 & N1 & U1) (c2 & m2 & out2 & C2 & P2 & W2 & N2 & U2) H. rewrite !normaliser, N1, N2. do 2 f_equal.
    unfold normalized_source in N1, N2. rewrite C1 in N1. rewrite C2 in N2. cbn [rbind] in N1, N2.
    destruct (get_function_name_from_source c1); [|done]. destruct (get_function_name_from_source c2); [|done]. cbn [rbind] in N1, N2. rewrite P1 in N1. rewrite P2 in N2.
    cbn [rbind] in N1, N2. destruct (normalise_ast m1) as [r1|] eqn:E1; [|done]. destruct (normalise_ast m2) as [r2|] eqn:E2; [|done]. cbn [rbind] in N1, N2.
    injection N1 as <-. injection N2 as <-. f_equal. by apply (C28_exactly_same_code m1 m2 u1 u2 r1 r2 W1 W2 E1 E2 U1 U2).
  Qed.

  (** one operation: the same outcome and the same session afterwards *)
  Theorem C136_same_step : forall o o' s, same_but_text o o' -> step o s = step o' s.
  Proof.
    intros o o' s [|k code1 code2 u1 u2 island strictly gs p H1 H2 H]; [done|]. cbn [Registry.step]. unfold new_fn. by rewrite (same_normal_form code1 code2 u1 u2 H1 H2 H).
  Qed.
  (** A program whose sources are documented, annotated or laid out in another way: after every operation the session is the same one, every
      operation has the same outcome, every function pickles to the same state, and so every call has the same address. *)
  Theorem C136_same_session : forall h h' s, Forall2 same_but_text h h' -> run h s = run h' s.
  Proof. intros h h' s H. revert s. induction H as [|o o' h h' Ho _ IH]; intros s; [done|]. cbn [Registry.run]. by rewrite (C136_same_step _ _ _ Ho). Qed.
  Theorem C136_same_outcomes : forall h h' s i o o', Forall2 same_but_text h h' -> h !! i = Some o -> h' !! i = Some o' ->
    snd (step o (run (take i h) s)) = snd (step o' (run (take i h') s)).
  Proof.
    intros * H Ho Ho'. rewrite (C136_same_session (take i h) (take i h') s) by (by apply Forall2_take).
    rewrite (C136_same_step o o'); [done|]. by eapply Forall2_lookup_lr.
  Qed.
  Theorem C136_same_addresses : forall D data_prefix hash_of h h' s f x (kw : list (string * arg D)), Forall2 same_but_text h h' -> snd (get_state f (run h s)) = Ok x ->
    exists y, snd (get_state f (run h' s)) = Ok y /\
      get_address data_prefix hash_of (as_fn_state x) kw = get_address data_prefix hash_of (as_fn_state y) kw.
  Proof. intros * H Hx. exists x. by rewrite <- (C136_same_session h h' s H). Qed.

  (** And only these do not matter: functions whose code differs in anything else have different states, hence (C135) their calls have different
      addresses, provided that printing a normal form and reading it back gives it again. *)
  Theorem C136_other_code : sensible normalise names_of name_of ord ->
    forall s t f g me me' s1 t1 x y code1 code2 u1 u2,
    plainly_reachable normalise names_of name_of builtins ord default_island s -> plainly_reachable normalise names_of name_of builtins ord default_island t ->
    unused s f me -> unused t g me' -> get_state f s = (s1, Ok x) -> get_state g t = (t1, Ok y) ->
    normalise true code1 = Ok (o_src me) -> normalise true code2 = Ok (o_src me') ->
    code_tree code1 u1 -> code_tree code2 u2 -> (forall c m r, parse c = Ok m -> wf m = true -> normalise_ast m = Ok r -> reads_back parse print r) ->
    ~ same_code u1 u2 -> x <> y.
  Proof.
    intros sens * Hs Ht Uf Ug Ef Eg N1 N2 K1 K2 Hrb Hd. apply (C135_edit_changes_state normalise names_of name_of builtins ord default_island sens s t f g me me' s1 t1 x y ""); try done.
    left. intros E. apply Hd. destruct K1 as (c1 & m1 & out1 & C1 & P1 & W1 & O1 & U1), K2 as (c2 & m2 & out2 & C2 & P2 & W2 & O2 & U2).
    rewrite normaliser, O1 in N1. rewrite normaliser, O2 in N2. injection N1 as N1. injection N2 as N2.
    apply (C28_texts parse print (T code1) (T code2) c1 c2 m1 m2 u1 u2 out1 out2); try done; [intros r [Hr|Hr]; [apply (Hrb c1 m1 r)|apply (Hrb c2 m2 r)]; done|].
    rewrite <- (list_ascii_of_string_of_list_ascii out1), <- (list_ascii_of_string_of_list_ascii out2). congruence.
  Qed.
End Reformat.
Print Assumptions C136_same_step.
Print Assumptions C136_same_session.
Print Assumptions C136_same_outcomes.
Print Assumptions C136_same_addresses.

Print Assumptions C136_other_code.

(** The hypotheses are met: a documented and annotated function and the bare one. *)
Definition nl : string := String (Ascii.ascii_of_nat 10) "".
Definition documented_text : string := "@pth.pure()" +:+ nl +:+ "def f(x: int):" +:+ nl +:+ "    'doc'" +:+ nl +:+ "    return x".
Definition bare_text : string := "def f(x):" +:+ nl +:+ nl +:+ "    return x  # as above".
Definition documented_tree : node := smod (sfun "f" [("x", [sname "int" Load])] [sstr "doc"; sret (sname "x" Load)] [sdeco "pth" "pure"] [])%string.
Definition bare_tree : node := smod (sfun "f" [("x", [])] [sret (sname "x" Load)] [] [])%string.
Definition example_parse (c : text) : res node :=
  if decide (clean_source (T documented_text) = Ok c) then Ok documented_tree else if decide (clean_source (T bare_text) = Ok c) then Ok bare_tree else Err SyntaxError.
Definition example_print (_ : node) : text := T ("def f(x):" +:+ nl +:+ "    return x").
Definition undecorated_tree : node := smod (sfun "f" [("x", [sname "int" Load])] [sstr "doc"; sret (sname "x" Load)] [] [])%string.
Example C136_ex : code_tree example_parse example_print documented_text undecorated_tree /\ code_tree example_parse example_print bare_text bare_tree /\
  same_code undecorated_tree bare_tree /\
  same_but_text example_parse example_print (Decorate Pure documented_text None false None 0) (Decorate Pure bare_text None false None 0).
Proof.
  assert (H1 : code_tree example_parse example_print documented_text undecorated_tree).
  { eexists _, documented_tree, _. split; [vm_compute; reflexivity|]. split; [vm_compute; reflexivity|]. split; [by vm_compute|]. split; [vm_compute; reflexivity|].
    do 7 eexists. split; reflexivity. }
  assert (H2 : code_tree example_parse example_print bare_text bare_tree).
  { eexists _, bare_tree, _. split; [vm_compute; reflexivity|]. split; [vm_compute; reflexivity|]. split; [by vm_compute|]. split; [vm_compute; reflexivity|].
    do 7 eexists. split; reflexivity. }
  assert (H3 : same_code undecorated_tree bare_tree).
  { apply norm_same; vm_compute; reflexivity. }
  split; [exact H1|]. split; [exact H2|]. split; [exact H3|]. by eapply SameCode.
Qed.
