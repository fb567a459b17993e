(** C26, C30, C31: names, cleaning and execution of function source text. *)
From Coq Require Import String Ascii.
From Verif Require Import Lib.Py Lib.DictLemmas Model.SourceText Spec.SourceTextSpec Proofs.SourceTextP.
Local Open Scope nat_scope.

(** * C26 *)
Theorem C26_name_found : forall before lead w1 name w2 rest after,
  (forall l, l ∈ before -> no_lf l /\ ~ def_line l) ->
  no_lf (lead ++ T "def " ++ w1 ++ name ++ w2 ++ "("%char :: rest) -> spaces lead -> spaces w1 -> spaces w2 -> proper_name name ->
  (forall l, l ∈ after -> no_lf l) ->
  get_function_name_from_source (join_lf (before ++ (lead ++ T "def " ++ w1 ++ name ++ w2 ++ "("%char :: rest) :: after)) = Ok name.
Proof.
  intros * Hb Hl Hlead H1 H2 Hn Ha. unfold get_function_name_from_source. rewrite split_join.
  - rewrite name_skip by (intros l Hx; by apply Hb). by eapply name_line.
  - by destruct before.
  - intros l Hx. apply elem_of_app in Hx as [Hx|Hx]; [by apply Hb|]. apply elem_of_cons in Hx as [->|Hx]; [done|by apply Ha].
Qed.
Print Assumptions C26_name_found.
Theorem C26_no_function : forall src, (forall l, l ∈ split_lf src -> ~ def_line l) -> get_function_name_from_source src = Err ValueError.
Proof. intros src H. unfold get_function_name_from_source. rewrite <- (app_nil_r (split_lf src)). by rewrite name_skip. Qed.
Print Assumptions C26_no_function.
(** The two cases are all cases of sources whose first such line has a parenthesis, and [def_line] is about the text only. *)
Theorem C26_lines : forall src, join_lf (split_lf src) = src /\ forall l, l ∈ split_lf src -> no_lf l.
Proof. intros src. split; [apply join_split|apply split_no_lf]. Qed.
Print Assumptions C26_lines.
Example C26_example : get_function_name_from_source (lines ["@pth.pure()"; "  def   my_fun (a, b):"; "    def inner(): pass"]) = Ok (T "my_fun").
Proof. by vm_compute. Qed.
Example C26_example_hyps : proper_name (T "my_fun") /\ (forall l, l ∈ [T "@pth.pure()"] -> no_lf l /\ ~ def_line l).
Proof.
  split.
  - split_and!; [eexists _, _; split; [reflexivity|done]|exists "n"%char, (T "my_fu"); split; done|].
    intros H. apply elem_of_list_In in H. cbn in H. repeat (destruct H as [H|H]; [done|]). done.
  - intros l Hl. apply elem_of_list_singleton in Hl as ->. split.
    + intros H. apply elem_of_list_In in H. cbn in H. repeat (destruct H as [H|H]; [done|]). done.
    + intros H. by apply def_line_spec in H.
Qed.

(** * C30 *)
(** On plain source text, cleaning does exactly this: blank lines go, the others lose the indent of the first of them and
    stay in order; it fails only if all lines are blank or some line lacks the indent. *)
Theorem C30_only_blank_lines_and_indent : forall code, plain code ->
  match clean_source code with
  | Ok out => exists indent kept, spaces indent /\ cleaned indent (split_lf code) kept /\ out = join_lf kept /\
      exists first others, kept = first :: others /\ unindented first
  | Err IndexError => forall l, l ∈ split_lf code -> blank_line l
  | Err AssertionError => exists l1 l2, l1 ∈ split_lf code /\ l2 ∈ split_lf code /\ ~ blank_line l1 /\ ~ blank_line l2 /\
      exists indent r, l1 = indent ++ r /\ spaces indent /\ unindented r /\ forall x, l2 <> indent ++ x
  | Err _ => False
  end.
Proof.
  intros code Hp. unfold clean_source. rewrite nonblank_lines by done. destruct (List.filter _ (split_lf code)) as [|first others] eqn:Ef.
  - intros l Hl. apply blank_spec. destruct (blank l) eqn:Eb; [done|]. assert (l ∈ []) as Hx; [|by apply elem_of_nil in Hx].
    rewrite <- Ef. apply elem_of_list_In, filter_In. split; [by apply elem_of_list_In|by rewrite Eb].
  - fold (indent_of first). destruct (indent_spec first) as (r & E & Hs & Hr & Hu).
    assert (Hall : forall l, l ∈ first :: others -> l ∈ split_lf code /\ blank l = false).
    { intros l Hl. rewrite <- Ef in Hl. apply elem_of_list_In, filter_In in Hl as [H1 H2]. split; [by apply elem_of_list_In|]. by destruct (blank l). }
    assert (Hun : unindented r).
    { destruct Hu as [->|Hu]; [|done]. exfalso. rewrite app_nil_r in E. destruct (Hall first ltac:(left)) as [Hin Hb].
      apply blank_false in Hb. apply Hb. intros c Hc. assert (c ∈ code) as Hcc.
      { clear -Hin Hc. revert Hin. revert first Hc. induction code as [|d s IH]; intros l Hc Hin; cbn [split_lf] in Hin.
        - apply elem_of_list_singleton in Hin as ->. by apply elem_of_nil in Hc.
        - destruct (decide (d = LF)) as [->|].
          + apply elem_of_cons in Hin as [->|Hin]; [by apply elem_of_nil in Hc|]. right. eapply IH; eauto.
          + destruct (split_lf s) as [|l1 ls].
            * apply elem_of_list_singleton in Hin as ->. apply elem_of_list_singleton in Hc as ->. left.
            * apply elem_of_cons in Hin as [->|Hin].
              -- apply elem_of_cons in Hc as [->|Hc]; [left|]. right. apply (IH l1); [done|left].
              -- right. apply (IH l); [done|by right]. }
      destruct (Hp c Hcc) as [->|[->| ->]]; [apply Hs; by rewrite <- E|by left|by right|]. exfalso. by apply (split_no_lf code first Hin). }
    destruct (dedent (indent_of first) (first :: others)) as [ls|e] eqn:Ed.
    + cbn [rbind]. exists (indent_of first), ls. split_and!; [done| |done|].
      * apply cleaned_filter. rewrite Ef. apply dedent_ok; [|done]. intros l Hl. by apply Hall.
      * cbn [dedent] in Ed. destruct (startswith _ first); [|done]. destruct (dedent (indent_of first) others) as [x|]; [|done]. cbn in Ed.
        injection Ed as <-. eexists _, x. split; [done|]. rewrite E at 2. by rewrite drop_app.
    + cbn [rbind]. apply dedent_err in Ed as (-> & l2 & Hl2 & Hne). exists first, l2.
      destruct (Hall first ltac:(left)) as [Hi1 Hb1], (Hall l2 Hl2) as [Hi2 Hb2]. split_and!; [done|done|by apply blank_false|by apply blank_false|].
      exists (indent_of first), r. split_and!; done.
Qed.
Print Assumptions C30_only_blank_lines_and_indent.
(** Conversely any source with a common indent is cleaned. *)
Theorem C30_succeeds : forall code indent first others, plain code -> spaces indent -> unindented first ->
  cleaned indent (split_lf code) (first :: others) -> clean_source code = Ok (join_lf (first :: others)).
Proof.
  intros code indent first others Hp Hs Hu Hc. unfold clean_source. rewrite nonblank_lines by done. pose proof (dedent_total _ _ _ Hc) as Hd.
  destruct (List.filter _ (split_lf code)) as [|l ls] eqn:Ef; [done|]. fold (indent_of l).
  assert (l = indent ++ first) as ->.
  { cbn [dedent] in Hd. destruct (startswith indent l) eqn:Es; [|done]. apply startswith_spec in Es as (r & ->).
    destruct (dedent indent ls); [|done]. cbn in Hd. rewrite drop_app in Hd. by injection Hd as -> _. }
  assert (indent_of (indent ++ first) = indent) as ->.
  { unfold indent_of. rewrite lstrip_spaces by done. destruct Hu as (c & f' & -> & Hcs). cbn [lstrip]. rewrite Hcs. rewrite app_length.
    replace (length indent + length (c :: f') - length (c :: f')) with (length indent) by lia. by rewrite take_app. }
  rewrite Hd. done.
Qed.
Print Assumptions C30_succeeds.
(** A function that starts at the left margin and has no blank lines is not changed. *)
Theorem C30_clean_code_kept : forall code, plain code -> (forall l, l ∈ split_lf code -> ~ blank_line l) -> unindented code -> clean_source code = Ok code.
Proof.
  intros code Hp Hb (c & r & -> & Hc). destruct (split_lf (c :: r)) as [|f ls] eqn:Es; [by apply split_lf_ne in Es|].
  assert (Hf : unindented f).
  { cbn [split_lf] in Es. destruct (decide (c = LF)) as [->|]; [done|]. destruct (split_lf r) as [|x xs]; injection Es as <- <-; eexists _, _; done. }
  rewrite (C30_succeeds (c :: r) [] f ls Hp); [by rewrite <- Es, join_split| |done|].
  - intros d Hd. by apply elem_of_nil in Hd.
  - rewrite Es. clear Es. revert Hb. generalize (f :: ls). induction l as [|x xs IH]; intros Hb; [constructor|].
    apply (cleaned_keep [] x); [apply Hb; left|]. apply IH. intros y Hy. apply Hb. by right.
Qed.
Print Assumptions C30_clean_code_kept.
(** Refutation of the last part, 1: a blank line inside a triple-quoted string is removed from the string ... *)
Definition blank_in_string : text := lines ["def f():"; "    return """"""a"; ""; "b"""""""].
Theorem C30_string_loses_blank_line_refuted : plain blank_in_string /\
  string_value blank_in_string = Some (lines ["a"; ""; "b"]) /\
  exists out, clean_source blank_in_string = Ok out /\ string_value out = Some (lines ["a"; "b"]).
Proof.
  split; [|split; [by vm_compute|eexists; split; vm_compute; reflexivity]].
  intros c Hc Hs. revert Hc. rewrite elem_of_list_In. vm_compute. intros Hc. repeat (destruct Hc as [<-|Hc]; [try discriminate Hs; auto|]). done.
Qed.
Print Assumptions C30_string_loses_blank_line_refuted.
(** ... 2: the indent is removed from the lines of a string in an indented function ... *)
Theorem C30_string_loses_indent_refuted : let code := lines ["  def f():"; "    return """"""a"; "  b"""""""] in
  string_value code = Some (lines ["a"; "  b"]) /\ exists out, clean_source code = Ok out /\ string_value out = Some (lines ["a"; "b"]).
Proof. split; [by vm_compute|eexists; split; vm_compute; reflexivity]. Qed.
Print Assumptions C30_string_loses_indent_refuted.
(** ... 3: an indented function with a string that reaches the left margin, or a comment there, cannot be cleaned at all. *)
Theorem C30_left_margin_rejected_refuted : clean_source (lines ["  def f():"; "    # ok"; "# comment"; "    return 1"]) = Err AssertionError.
Proof. by vm_compute. Qed.
Print Assumptions C30_left_margin_rejected_refuted.
Example C30_example : clean_source (lines ["    def f(x):"; ""; "        if x:"; "   "; "            return 1"; "        return 2"; ""])
  = Ok (lines ["def f(x):"; "    if x:"; "        return 1"; "    return 2"]).
Proof. by vm_compute. Qed.

(** * C31 *)
(** For normalised source (it starts with the header of the function), the executed text is the same but for the name in
    the header, followed by one call of it. *)
Theorem C31_only_header_renamed : forall name hash rest,
  source_to_exec name hash (T "def " ++ name ++ T "(" ++ rest) =
  T "def " ++ tmp_name name hash ++ T "(" ++ rest ++ [LF; LF] ++
  result_var name hash ++ T " = " ++ tmp_name name hash ++ T "(**" ++ kwargs_var name hash ++ T ")".
Proof.
  intros name hash rest. unfold source_to_exec.
  assert (E : forall new, replace_first (SP :: name ++ T "(") new (T "def " ++ name ++ T "(" ++ rest) = T "def" ++ new ++ rest).
  { intros new. change (T "def " ++ name ++ T "(" ++ rest) with ("d"%char :: "e"%char :: "f"%char :: (SP :: name ++ T "(" ++ rest)).
    cbn [replace_first startswith]. rewrite !bool_decide_false by done. cbn [andb]. rewrite bool_decide_true by done. cbn [andb].
    rewrite (proj2 (startswith_spec (name ++ T "(") (name ++ T "(" ++ rest))); [|exists rest; by rewrite <- app_assoc].
    cbn [length drop]. rewrite (app_assoc name (T "(") rest). by rewrite drop_app. }
  rewrite E. cbn [T list_ascii_of_string app]. rewrite <- !app_assoc. done.
Qed.
Print Assumptions C31_only_header_renamed.
(** The three names used for this are new: none of them is the function's name, and they are different from each other. *)
Theorem C31_names_distinct : forall name hash,
  tmp_name name hash <> name /\ kwargs_var name hash <> name /\ result_var name hash <> name /\
  tmp_name name hash <> kwargs_var name hash /\ result_var name hash <> kwargs_var name hash /\ result_var name hash <> tmp_name name hash.
Proof.
  intros name hash. unfold tmp_name, kwargs_var, result_var. split_and!; try done.
  - intros H. apply (f_equal length) in H. rewrite !app_length in H. cbn in H. lia.
  - intros H. apply (f_equal length) in H. rewrite !app_length in H. cbn in H. lia.
  - intros H. apply (f_equal length) in H. rewrite !app_length in H. cbn in H. lia.
Qed.
Print Assumptions C31_names_distinct.
Lemma get_update (d u : dict text binding) k : dict_get k (dict_update d u) = match dict_get k (rev u) with Some v => Some v | None => dict_get k d end.
Proof.
  unfold dict_update. revert d. induction u as [|[k' v] u IH]; intros d; [done|]. cbn [fold_left rev]. rewrite IH.
  assert (H : forall (a b : dict text binding), dict_get k (a ++ b) = match dict_get k a with Some x => Some x | None => dict_get k b end).
  { clear. induction a as [|[k1 v1] a IH]; intros b; [done|]. cbn [app dict_get]. destruct (decide (k = k1)); [done|]. apply IH. }
  rewrite H. destruct (dict_get k (rev u)); [done|]. cbn [dict_get]. rewrite dict_get_set. by destruct (decide (k = k')).
Qed.
(** So in the namespace the body runs in, the function's own name denotes the wrapper object (ordinary functions) ... *)
Theorem C31_recursion_uses_wrapper : forall module_names name hash, name <> T "pth" ->
  dict_get name (namespace (ordinary_names module_names name) name hash) = Some BSelf.
Proof.
  intros * Hn. unfold namespace, ordinary_names. rewrite !dict_get_set. destruct (C31_names_distinct name hash) as (_ & H & _).
  rewrite decide_False by done. rewrite decide_False by done. destruct (decide _); [done|]. by rewrite decide_True.
Qed.
Print Assumptions C31_recursion_uses_wrapper.
(** ... or the registered function of the island, like every dependency (autonomous and pure functions). *)
Theorem C31_dependencies_use_island : forall module_names name hash deps n, n ∈ deps -> n <> kwargs_var name hash ->
  dict_get n (namespace (autonomous_names module_names name deps) name hash) = Some (BIsland n).
Proof.
  intros * Hin Hn. unfold namespace, autonomous_names. rewrite dict_get_set, decide_False by done. rewrite get_update.
  assert (E : dict_get n (rev (map (fun x => (x, BIsland x)) deps)) = Some (BIsland n)); [|by rewrite E].
  rewrite <- map_rev. assert (Hr : n ∈ rev deps) by (apply elem_of_list_In; rewrite <- in_rev; by apply elem_of_list_In). clear Hin.
  induction (rev deps) as [|d l IH]; [by apply elem_of_nil in Hr|]. cbn [map dict_get]. destruct (decide (n = d)) as [->|]; [done|].
  apply IH. by apply elem_of_cons in Hr as [|].
Qed.
Print Assumptions C31_dependencies_use_island.
(** Missing: an ordinary function called pth; inside it the name denotes the package, so recursion does not reach the function. *)
Theorem C31_function_named_pth_refuted : forall module_names hash,
  dict_get (T "pth") (namespace (ordinary_names module_names (T "pth")) (T "pth") hash) = Some BPth.
Proof. intros. unfold namespace, ordinary_names. rewrite !dict_get_set. by rewrite decide_False, decide_True. Qed.
Print Assumptions C31_function_named_pth_refuted.
Example C31_example : source_to_exec (T "f") (T "H") (lines ["def f(x):"; "    return x if x < 2 else f(x=x - 1)"]) =
  lines ["def tmp_func_fH(x):"; "    return x if x < 2 else f(x=x - 1)"; ""; "resultfH = tmp_func_fH(**kwargs_fH)"].
Proof. by vm_compute. Qed.
