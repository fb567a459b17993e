(** C77-C79: which objects become functions, and how they can be called. *)
From Coq Require Import String.
From Verif Require Import Lib.Py Model.PyAst Model.SourceText Model.Normalizer Model.PureAddr Model.Ordinarity Spec.SourceTextSpec Spec.OrdinaritySpec Spec.PureAddrSpec Proofs.PureAddrP Proofs.OrdinarityP.
From stdpp Require Import sets.
Local Open Scope nat_scope.

(** * C77 *)
(** A function object is accepted exactly if it is a plain function whose source the normaliser accepts; no other
    callable is accepted.  In every case the source begins with a plain 'def' (so no async function and no lambda
    expression is accepted, by whatever name). *)
Theorem C77_function_objects_checked_partial : forall parse print o t, decorate parse print o = Ok t ->
  (exists f, o = PyFunction f /\ plain_function f /\ exists c m, clean_source (f_source f) = Ok c /\ parse c = Ok m /\ begins_with_def m) \/
  (exists s c m, o = PyText s /\ clean_source s = Ok c /\ parse c = Ok m /\ begins_with_def m).
Proof.
  intros parse print [f| |s|] t E; try done; [left; exists f|right; exists s].
  - unfold decorate in E. destruct (assert_ordinarity (PyFunction f)) as [[]|] eqn:Eo; [|done]. cbn [rbind] in E.
    apply assert_ordinarity_ok in Eo as (f' & [= <-] & Hp). split; [done|]. split; [done|].
    destruct (clean_source (f_source f)) as [c|] eqn:Ec; [|done]. cbn [rbind] in E.
    destruct (parse c) as [m|] eqn:Em; [|done]. cbn [rbind] in E. exists c, m. split; [done|]. split; [done|].
    destruct (normalise_ast m) eqn:En; [|done]. by eapply normalise_begins.
  - unfold decorate, normalized_source in E. destruct (clean_source s) as [c|] eqn:Ec; [|done]. cbn [rbind] in E.
    destruct (get_function_name_from_source c); [|done]. cbn [rbind] in E.
    destruct (parse c) as [m|] eqn:Em; [|done]. cbn [rbind] in E. exists c, m. split; [done|]. split; [done|]. split; [done|].
    destruct (normalise_ast m) eqn:En; [|done]. by eapply normalise_begins.
Qed.
Print Assumptions C77_function_objects_checked_partial.
(** ... and every plain function with an acceptable source is accepted. *)
Theorem C77_plain_functions_accepted : forall parse print f c m r n, plain_function f -> clean_source (f_source f) = Ok c ->
  parse c = Ok m -> normalise_ast m = Ok r -> get_function_name_from_source (print r) = Ok n ->
  decorate parse print (PyFunction f) = Ok (print r).
Proof.
  intros * Hf Ec Em En Eg. unfold decorate. assert (assert_ordinarity (PyFunction f) = Ok tt) as -> by (apply assert_ordinarity_ok; eauto).
  cbn [rbind]. rewrite Ec. cbn [rbind]. rewrite Em. cbn [rbind]. rewrite En. cbn [rbind]. by rewrite Eg.
Qed.
Print Assumptions C77_plain_functions_accepted.
(** Anything that is not a plain function fails with AssertionError before its source is looked at. *)
Theorem C77_rejected_early : forall parse print o, (forall f, o = PyFunction f -> ~ plain_function f) -> (forall s, o <> PyText s) ->
  decorate parse print o = Err AssertionError.
Proof.
  intros parse print [f| |s|] Hf Hs; try done; [|by destruct (Hs s)]. unfold decorate.
  destruct (assert_ordinarity (PyFunction f)) as [[]|e] eqn:E.
  - apply assert_ordinarity_ok in E as (f' & [= <-] & Hp). by destruct (Hf f eq_refl).
  - cbn [rbind]. unfold assert_ordinarity in E. cbn [passert rbind] in E. destruct (negb (f_closure f)); cbn in E; [|congruence].
    destruct (negb (bool_decide _)); cbn in E; [|congruence]. destruct (negb (accepts_unlimited_positional_args f)); cbn in E; [|congruence].
    destruct (negb (f_coroutine f)); cbn in E; congruence.
Qed.
Print Assumptions C77_rejected_early.
(** The same code given as a string is not checked: a function with *args is refused as an object and accepted as a
    string. *)
Definition star_source : text := lines ["def f(*args):"; "    return args"].
Definition star_tree : node := Node LModule [[Node (LFunctionDef false "f")
  [[Node LArguments [[]; []; [Node (LArg "args") [[]]]; []; []; []; []]]; [Node (LOther "Return") [[Node (LName "args" Load) []]]]; []; []]]].
Definition star_object : fn_object := FnObject "f" [Param "args" VarPos false] false false false star_source.
Theorem C77_strings_unchecked_refuted : forall parse print, parse star_source = Ok star_tree -> print star_tree = star_source ->
  decorate parse print (PyFunction star_object) = Err AssertionError /\ decorate parse print (PyText star_source) = Ok star_source.
Proof.
  intros parse print Hp Hq. split; [done|]. unfold decorate, normalized_source.
  assert (clean_source star_source = Ok star_source) as -> by (by vm_compute). cbn [rbind].
  assert (exists n, get_function_name_from_source star_source = Ok n) as [n En] by (eexists; by vm_compute).
  rewrite En. cbn [rbind]. rewrite Hp. cbn [rbind].
  assert (normalise_ast star_tree = Ok star_tree) as -> by (by vm_compute). cbn [rbind]. rewrite Hq, En. done.
Qed.
Print Assumptions C77_strings_unchecked_refuted.
(** A string may hold further statements after the function; they are kept (and run at every call of an ordinary
    function; autonomous functions refuse them, names_usage_analyzer.py:176-178). *)
Definition two_source : text := lines ["def f():"; "    return 1"; "print(2)"].
Definition two_tree : node := Node LModule [[Node (LFunctionDef false "f")
  [[Node LArguments [[]; []; []; []; []; []; []]]; [Node (LOther "Return") [[Node (LConst "1") []]]]; []; []];
  Node LExpr [[Node LCall [[Node (LName "print" Load) []]; [Node (LConst "2") []]; []]]]]].
Theorem C77_extra_statements_refuted : forall parse print, parse two_source = Ok two_tree -> print two_tree = two_source ->
  ~ only_def two_tree /\ decorate parse print (PyText two_source) = Ok two_source.
Proof.
  intros parse print Hp Hq. split; [by intros [d [=]]|]. unfold decorate, normalized_source.
  assert (clean_source two_source = Ok two_source) as -> by (by vm_compute). cbn [rbind].
  assert (exists n, get_function_name_from_source two_source = Ok n) as [n En] by (eexists; by vm_compute).
  rewrite En. cbn [rbind]. rewrite Hp. cbn [rbind].
  assert (normalise_ast two_tree = Ok two_tree) as -> by (by vm_compute). cbn [rbind]. rewrite Hq, En. done.
Qed.
Print Assumptions C77_extra_statements_refuted.
(** Methods taken from a class are accepted like functions: the check does not see where a function comes from. *)
Theorem C77_methods_accepted_refuted : forall parse print n ps cl co src,
  decorate parse print (PyFunction (FnObject n ps cl co true src)) = decorate parse print (PyFunction (FnObject n ps cl co false src)).
Proof. done. Qed.
Print Assumptions C77_methods_accepted_refuted.
Definition plain_source : text := lines ["def f(x, y=1):"; "    return x"].
Definition plain_tree : node := Node LModule [[Node (LFunctionDef false "f")
  [[Node LArguments [[]; [Node (LArg "x") [[]]; Node (LArg "y") [[]]]; []; []; []; []; [Node (LConst "1") []]]]; [Node (LOther "Return") [[Node (LName "x" Load) []]]]; []; []]]].
Definition plain_object := FnObject "f" [Param "x" PosOrKw false; Param "y" PosOrKw true] false false false plain_source.
Example C77_example : decorate (fun _ => Ok plain_tree) (fun _ => plain_source) (PyFunction plain_object) = Ok plain_source /\
  plain_function plain_object /\
  decorate (fun _ => Ok plain_tree) (fun _ => plain_source) (PyFunction (FnObject "<lambda>" [] false false false plain_source)) = Err AssertionError /\
  decorate (fun _ => Ok plain_tree) (fun _ => plain_source) PyCallable = Err AssertionError.
Proof.
  split; [by vm_compute|]. split; [|by vm_compute]. split; [done|]. split; [done|]. split; [done|].
  intros p Hp. cbn in Hp. rewrite !elem_of_cons in Hp. destruct Hp as [->|[->|Hp]]; [done..|by apply elem_of_nil in Hp].
Qed.

(** * C78 *)
(** A call with positional arguments is refused and the body does not run. *)
Theorem C78_positional_refused : forall V ps (body : list (string * slot V) -> res V) v args kw,
  ordinary_call ps body (v :: args) kw = ([], Err AssertionError) /\ pure_call ps body (v :: args) kw = ([], Err AssertionError).
Proof. done. Qed.
Print Assumptions C78_positional_refused.
(** A keyword call runs the body exactly if every required parameter is given by keyword and every keyword names a
    parameter (or there is a ** parameter); then the body runs once, with the given values and the defaults of the others.
    Otherwise TypeError and the body does not run. *)
Theorem C78_keyword_call_exact : forall V ps (body : list (string * slot V) -> res V) kw,
  let fits := (forall p, p ∈ ps -> required p -> keyword_param p /\ exists v, dict_get (p_name p) kw = Some v)
              /\ ((forall k v, (k, v) ∈ kw -> exists p, p ∈ ps /\ keyword_param p /\ p_name p = k) \/ exists p, p ∈ ps /\ p_kind p = VarKw) in
  (fits /\ exists b, ordinary_call ps body [] kw = ([b], body b) /\ map fst b = map p_name ps /\
     forall i p s, ps !! i = Some p -> snd <$> b !! i = Some s ->
       (keyword_param p -> forall v, dict_get (p_name p) kw = Some v -> s = Given v) /\
       (keyword_param p -> dict_get (p_name p) kw = None -> s = Default /\ p_default p = true) /\
       (p_kind p = PosOnly -> s = Default /\ p_default p = true) /\
       (p_kind p = VarPos -> s = EmptyTuple) /\
       (p_kind p = VarKw -> exists l, s = Rest l /\ forall k v, (k, v) ∈ l <-> (k, v) ∈ kw /\ ~ exists p', p' ∈ ps /\ keyword_param p' /\ p_name p' = k))
  \/ (~ fits /\ ordinary_call ps body [] kw = ([], Err TypeError)).
Proof.
  intros V ps body kw. cbn zeta. destruct (bind_exact ps kw) as [[Hf E]|[Hf E]].
  - left. assert (Hfit : (forall p, p ∈ ps -> required p -> keyword_param p /\ exists v, dict_get (p_name p) kw = Some v)
      /\ ((forall k v, (k, v) ∈ kw -> exists p, p ∈ ps /\ keyword_param p /\ p_name p = k) \/ exists p, p ∈ ps /\ p_kind p = VarKw)).
    { destruct Hf as [H1 H2]. split.
      - intros p Hp Hr. destruct (H1 p Hp Hr) as [Hk Hg]. split; [done|]. destruct (dict_get (p_name p) kw); [eauto|done].
      - destruct H2 as [H2|H2]; [left|by right]. intros k v Hk. by apply elem_keyword_names, (H2 k v). }
    split; [done|]. unfold ordinary_call. rewrite E. eexists. split; [reflexivity|]. split; [by rewrite map_map|].
    intros i p s Hi Hs. rewrite list_lookup_fmap, Hi in Hs. cbn in Hs. injection Hs as <-.
    assert (Hp : p ∈ ps) by (by eapply elem_of_list_lookup_2). destruct Hfit as [Hreq _]. unfold bound_value.
    split; [|split; [|split; [|split]]].
    + by intros [-> | ->] v ->.
    + intros Hk Hg. assert (p_default p = true).
      { destruct (p_default p) eqn:Ed; [done|]. destruct (Hreq p Hp) as [_ [v Hv]]; [|congruence]. split; [done|].
        destruct Hk as [-> | ->]; done. }
      split; [|done]. by destruct Hk as [-> | ->]; rewrite Hg.
    + intros Hk. rewrite Hk. split; [done|]. destruct (p_default p) eqn:Ed; [done|]. destruct (Hreq p Hp) as [[Hx|Hx] _]; try congruence.
      split; [done|]. by rewrite Hk.
    + by intros ->.
    + intros ->. eexists. split; [done|]. intros k v. unfold unclaimed. rewrite !elem_of_list_In, filter_In, <- !elem_of_list_In.
      cbn [fst]. rewrite negb_true_iff, bool_decide_eq_false, elem_keyword_names. done.
  - right. unfold ordinary_call. rewrite E. split; [|done]. intros [H1 H2]. apply Hf. split.
    + intros p Hp Hr. destruct (H1 p Hp Hr) as [Hk [v Hv]]. split; [done|congruence].
    + destruct H2 as [H2|H2]; [left|by right]. intros k v Hk. by apply elem_keyword_names, (H2 k v).
Qed.
Print Assumptions C78_keyword_call_exact.
(** So a function without positional-only parameters can be called with every choice of values for its parameters.
    MISSING: positional-only parameters, see below. *)
Theorem C78_all_values_can_be_passed_partial : forall V ps (body : list (string * slot V) -> res V) kw,
  no_positional_only ps -> (forall k, k ∈ map fst kw <-> exists p, p ∈ ps /\ keyword_param p /\ p_name p = k) ->
  exists b, ordinary_call ps body [] kw = ([b], body b).
Proof.
  intros V ps body kw Hn Hk. destruct (C78_keyword_call_exact V ps body kw) as [[_ (b & E & _)]|[Hf _]]; [eauto|].
  destruct Hf. split.
  - intros p Hp (Hd & Hv & Hw). assert (Hkp : keyword_param p).
    { unfold keyword_param. pose proof (Hn p Hp). destruct (p_kind p); auto; done. }
    split; [done|]. destruct (dict_get (p_name p) kw) as [v|] eqn:Eg; [eauto|]. exfalso.
    assert (p_name p ∈ map fst kw) as Hin by (apply Hk; eauto). apply elem_of_list_fmap in Hin as ([k v] & Ek & Hkv). cbn in Ek.
    rewrite Ek in Eg. clear -Eg Hkv. induction kw as [|[k' v'] kw IH]; [by apply elem_of_nil in Hkv|]. cbn in Eg.
    destruct (decide (k = k')); [done|]. apply elem_of_cons in Hkv as [[= -> ->]|Hkv]; [done|auto].
  - left. intros k v Hkv. apply Hk. apply elem_of_list_fmap. by exists (k, v).
Qed.
Print Assumptions C78_all_values_can_be_passed_partial.
(** A function with a required positional-only parameter is accepted by the decorators, but no call of it ever runs. *)
Definition posonly_object := FnObject "f" [Param "x" PosOnly false] false false false (lines ["def f(x, /):"; "    return x"]).
Theorem C78_positional_only_refuted : plain_function posonly_object /\
  forall V ps (body : list (string * slot V) -> res V) p, p ∈ ps -> p_kind p = PosOnly -> p_default p = false ->
  forall args kw, fst (ordinary_call ps body args kw) = [] /\ is_ok (snd (ordinary_call ps body args kw)) = false.
Proof.
  split.
  { split; [done|]. split; [done|]. split; [done|]. intros p Hp. cbn in Hp. by apply elem_of_list_singleton in Hp as ->. }
  intros V ps body p Hp Hk Hd [|v args] kw; [|done]. destruct (C78_keyword_call_exact V ps body kw) as [[[Hf _] _]|[_ E]].
  - destruct (Hf p Hp) as [[Hx|Hx] _]; try congruence. split; [done|]. by rewrite Hk.
  - by rewrite E.
Qed.
Print Assumptions C78_positional_only_refuted.
Example C78_example : let ps := [Param "x" PosOrKw false; Param "y" PosOrKw true; Param "z" KwOnly false; Param "rest" VarKw false] in
  let call := ordinary_call ps (fun b => Ok (length b)) in
  call [] [("u", 5); ("z", 6); ("x", 7)]%string = ([[("x", Given 7); ("y", Default); ("z", Given 6); ("rest", Rest [("u", 5)])]%string], Ok 4) /\
  call [] [("x", 7)]%string = ([], Err TypeError) /\ call [3] [("x", 7)]%string = ([], Err AssertionError).
Proof. by vm_compute. Qed.

(** * C79 *)
(** The order of keyword arguments does not matter for a function without a ** parameter.
    MISSING: with a ** parameter an ordinary or autonomous function sees the order, see below. *)
Theorem C79_order_irrelevant_partial : forall V ps (body : list (string * slot V) -> res V) args kw kw',
  kwargs_ok kw -> no_varkw ps -> kw ≡ₚ kw' -> ordinary_call ps body args kw = ordinary_call ps body args kw'.
Proof. intros * Hk Hv Hp. destruct args; [|done]. unfold ordinary_call. by rewrite (bind_perm ps kw kw'). Qed.
Print Assumptions C79_order_irrelevant_partial.
(** For a pure function it never matters, and a ** parameter receives its keywords in name order. *)
Theorem C79_pure_order_irrelevant : forall V ps (body : list (string * slot V) -> res V) args kw kw',
  kwargs_ok kw -> kw ≡ₚ kw' -> pure_call ps body args kw = pure_call ps body args kw'.
Proof. intros * Hk Hp. destruct args; [|done]. unfold pure_call. by rewrite (sort_ext kw kw'). Qed.
Print Assumptions C79_pure_order_irrelevant.
Lemma sorted_in_order {X} (l : list (string * X)) : NoDup (map fst l) -> Sorted.StronglySorted kle l -> in_name_order l.
Proof.
  intros Hn Hs i j p q Hi Hj Hij. revert i j Hi Hj Hij Hn. induction Hs as [|x m Hs IH Hf]; intros i j Hi Hj Hij Hn; [done|].
  cbn in Hn. inversion Hn as [|? ? Hx Hm]; subst. destruct i as [|i].
  - destruct j as [|j]; [lia|]. cbn in *. injection Hi as ->. apply elem_of_list_lookup_2 in Hj. rewrite Forall_forall in Hf. split; [by apply Hf|].
    intros E. apply Hx. rewrite E. apply elem_of_list_fmap. eauto.
  - destruct j as [|j]; [lia|]. cbn in *. apply (IH i j); [done|done|lia|done].
Qed.
Theorem C79_pure_keywords_in_name_order : forall V ps (body : list (string * slot V) -> res V) kw b r, kwargs_ok kw ->
  pure_call ps body [] kw = ([b], r) -> forall k l, (k, Rest l) ∈ b -> in_name_order l.
Proof.
  intros V ps body kw b r Hk E k l Hin. unfold pure_call, ordinary_call in E.
  destruct (bind_exact ps (sort_keys kw)) as [[_ Eb]|[_ Eb]]; rewrite Eb in E; [|done]. injection E as <- _.
  apply elem_of_list_fmap in Hin as (p & Ep & _). injection Ep as _ Ep. unfold bound_value in Ep.
  destruct (p_kind p); try done; try (destruct (dict_get _ _); done). injection Ep as ->.
  assert (Hs := sort_sorted kw). assert (Hn : NoDup (map fst (sort_keys kw))) by (by rewrite sort_perm).
  unfold unclaimed. revert Hs Hn. generalize (sort_keys kw). intros m. clear. intros Hs Hn. apply sorted_in_order.
  - induction m as [|[k v] m IH]; [done|]. cbn in *. apply NoDup_cons in Hn as [Hx Hn]. inversion Hs; subst.
    destruct (negb _); [|auto]. cbn. constructor; [|auto]. intros Hin. apply Hx. apply elem_of_list_fmap in Hin as (q & -> & Hq).
    apply elem_of_list_In, filter_In in Hq as [Hq _]. apply elem_of_list_fmap. exists q. split; [done|]. by apply elem_of_list_In.
  - induction Hs as [|x m Hs IH Hf]; [constructor|]. cbn in *. apply NoDup_cons in Hn as [Hx Hn]. destruct (negb _); [|auto].
    constructor; [auto|]. rewrite Forall_forall in Hf |- *. intros q Hq. apply Hf. apply elem_of_list_In, filter_In in Hq as [Hq _]. by apply elem_of_list_In.
Qed.
Print Assumptions C79_pure_keywords_in_name_order.
(** def f( **kw): return list(kw)[0]:  f(a=1, b=2) and f(b=2, a=1) differ for an ordinary function *)
Theorem C79_order_visible_refuted : exists ps (body : list (string * slot nat) -> res nat) kw kw',
  kwargs_ok kw /\ kw ≡ₚ kw' /\ snd (ordinary_call ps body [] kw) = Ok 1 /\ snd (ordinary_call ps body [] kw') = Ok 2 /\
  pure_call ps body [] kw = pure_call ps body [] kw'.
Proof.
  exists [Param "kw" VarKw false], (fun b => match b with [(_, Rest ((_, v) :: _))] => Ok v | _ => Err IndexError end),
    [("a", 1); ("b", 2)]%string, [("b", 2); ("a", 1)]%string.
  split; [unfold kwargs_ok; cbn; repeat constructor; rewrite ?elem_of_list_singleton; try done; by intros ?%elem_of_nil|].
  split; [constructor|]. by vm_compute.
Qed.
Print Assumptions C79_order_visible_refuted.
Example C79_example : let ps := [Param "x" PosOrKw false; Param "rest" VarKw false] in
  fst (pure_call ps (fun b => Ok 0) [] [("u", 5); ("x", 7); ("b", 6)]%string) = [[("x", Given 7); ("rest", Rest [("b", 6); ("u", 5)])]%string].
Proof. by vm_compute. Qed.
