(** C126: what outside names mean while an autonomous function runs. *)
From Coq Require Import String Ascii.
From stdpp Require Import gmap.
From Verif Require Import Lib.Py Lib.DictLemmas Model.PyAst Model.Normalizer Model.NamesAnalyzer Model.SourceText Spec.Scoping Spec.NamespaceSpec
  Proofs.PyAstP Proofs.NamesAnalyzerP Properties.P_SourceText Properties.P_Normalizer Properties.P_NamesAnalyzer.
Local Open Scope nat_scope.

Lemma T_inj x y : T x = T y -> x = y.
Proof. intros E. rewrite <- (string_of_list_ascii_of_string x), <- (string_of_list_ascii_of_string y). unfold T in E. by rewrite E. Qed.
Lemma get_mapped (f : text -> binding) (l : list text) k : dict_get k (rev (map (fun n => (n, f n)) l)) = if decide (k ∈ l) then Some (f k) else None.
Proof.
  rewrite <- map_rev. assert (Hr : k ∈ rev l <-> k ∈ l) by (rewrite !elem_of_list_In; symmetry; apply in_rev).
  destruct (decide (k ∈ l)) as [H|H].
  - apply Hr in H. clear Hr. induction (rev l) as [|d r IH]; [by apply elem_of_nil in H|]. cbn [map dict_get]. destruct (decide (k = d)) as [->|]; [done|].
    apply IH. by apply elem_of_cons in H as [|].
  - assert (K : k ∉ rev l) by (by rewrite Hr). clear Hr H. induction (rev l) as [|d r IH]; [done|]. cbn [map dict_get].
    destruct (decide (k = d)) as [->|]; [exfalso; apply K; by left|]. apply IH. intros X. apply K. by right.
Qed.
Lemma T_mem x (l : list string) : T x ∈ map T l <-> x ∈ l.
Proof.
  rewrite !elem_of_list_In, in_map_iff. split; [intros (y & E & H); apply T_inj in E; by subst|]. intros H. by exists x.
Qed.

(** The meaning of every name, exactly: helpers of the island come first (whether or not they are called like a built-in or
    like anything of the library), then pth, self and the function's own name, then the library's globals, then built-ins.
    There is nothing else: globals of the script or notebook in which the function was written are not among them. *)
Theorem C126_exact : forall library builtins name hash deps x, T x <> kwargs_var (T name) hash ->
  meaning_of library builtins name hash deps x =
    if decide (x ∈ deps) then Helper x
    else if decide (x = "pth"%string) then Package
    else if decide (x = "self"%string \/ x = name) then Itself
    else if decide (x ∈ library) then Library x
    else if decide (x ∈ builtins) then BuiltIn x else NameError_.
Proof.
  intros * Hk. unfold meaning_of, namespace, autonomous_names. rewrite dict_get_set, decide_False by done. rewrite get_update, get_mapped.
  destruct (decide (x ∈ deps)) as [H|H]; [by rewrite decide_True by (by apply T_mem)|]. rewrite decide_False by (by rewrite T_mem).
  unfold ordinary_names. rewrite !dict_get_set, get_update, get_mapped. cbn [dict_get].
  destruct (decide (x = "pth"%string)) as [->|Np]; [by rewrite decide_True by done|]. rewrite decide_False by (intros E; by apply T_inj in E).
  destruct (decide (x = "self"%string)) as [->|Ns]; [by rewrite decide_True, decide_True by (done || by left)|].
  rewrite decide_False by (intros E; by apply T_inj in E).
  destruct (decide (x = name)) as [->|Nn]; [by rewrite decide_True, decide_True by (done || by right)|].
  rewrite decide_False by (intros E; by apply T_inj in E). rewrite (decide_False (P := _ \/ _)) by tauto.
  destruct (decide (x ∈ library)) as [Hl|Hl]; [by rewrite decide_True by (by apply T_mem)|]. by rewrite decide_False by (by rewrite T_mem).
Qed.
Print Assumptions C126_exact.

(** An accepted function finds every name it looks up outside (but for names the analyser misses, C32, and names of
    decorators): in its island, in the runtime, or among the built-ins - in the library only if the name is also a built-in. *)
Theorem C126_accepted_functions_find_their_names_partial : forall library builtins strictly island f name fs s b hash deps,
  f = Node (LFunctionDef false name) fs -> wf (Node LModule [[f]]) = true -> stores_ok f = true ->
  analyze (Node LModule [[f]]) = Ok s -> begin_check s = Ok tt -> complete_check builtins strictly island name s = Ok b ->
  (forall x, x ∈ outside_names f -> x ∈ island -> x ∈ deps) ->
  forall x, x ∈ outside_names f -> x ∉ leaky f -> x ∉ all_decorators -> T x <> kwargs_var (T name) hash ->
  match meaning_of library builtins name hash deps x with
  | Helper _ => x ∈ deps
  | Itself => x = name \/ x = "self"%string
  | Package => x = "pth"%string
  | Library _ => x ∈ library /\ x ∈ builtins
  | BuiltIn _ => x ∈ builtins /\ x ∉ library
  | Arguments | NameError_ => False
  end.
Proof.
  intros * Ef Hw Hso Ha Hb Hc Hd x Hx Hl Hn Hk. rewrite C126_exact by done.
  pose proof (C32_passing_means_autonomous_partial builtins strictly island f name fs s b Ef Hw Hso Ha Hb Hc x Hx Hl) as H.
  destruct (decide (x ∈ deps)) as [|N]; [done|]. destruct (decide _); [done|]. destruct (decide _) as [[->| ->]|]; [by right|by left|].
  assert (x ∈ builtins).
  { destruct H as [H|[H|[H|[H|[H|[_ H]]]]]]; [done|tauto..|]. exfalso. by apply N, Hd. }
  destruct (decide (x ∈ library)); [done|]. by rewrite decide_True.
Qed.
Print Assumptions C126_accepted_functions_find_their_names_partial.

(** Two scripts: what a name means does not depend on anything but the island's helpers; in particular functions that are given the
    same helpers mean the same, whoever calls them and wherever they were defined. *)
Theorem C126_same_helpers_same_meaning : forall library builtins name hash deps deps' x, T x <> kwargs_var (T name) hash ->
  (x ∈ deps <-> x ∈ deps') -> meaning_of library builtins name hash deps x = meaning_of library builtins name hash deps' x.
Proof.
  intros * Hk H. rewrite !C126_exact by done. destruct (decide (x ∈ deps)) as [D|D], (decide (x ∈ deps')) as [D'|D']; try done; tauto.
Qed.
Print Assumptions C126_same_helpers_same_meaning.

(** The full claim fails for names of decorators: def f(): return pure is accepted, and running it raises NameError. *)
Definition reads_decorator : node := sfun "f" [] [sret (sload "pure")] [] [].
Theorem C126_decorator_names_refuted :
  wf (Node LModule [[reads_decorator]]) = true /\ stores_ok reads_decorator = true /\ outside_names reads_decorator = {["pure"%string]} /\ leaky reads_decorator = ∅ /\
  (exists s, analyze (Node LModule [[reads_decorator]]) = Ok s /\ begin_check s = Ok tt /\ complete_check ∅ true ∅ "f" s = Ok true) /\
  forall library builtins hash, "pure"%string ∉ library -> "pure"%string ∉ builtins -> T "pure" <> kwargs_var (T "f") hash ->
    meaning_of library builtins "f" hash ["f"%string] "pure" = NameError_.
Proof.
  split; [bq|]. split; [bq|]. split; [setq|]. split; [setq|]. split.
  - destruct (runs (fun s => begins s && completes ∅ true ∅ "f" true s) reads_decorator) as (s & Hs & H); [bq|].
    apply andb_true_iff in H as [H1 H2]. exists s. split; [done|]. split; [by apply begins_ok|by apply completes_ok].
  - intros * Hl Hb Hk. rewrite C126_exact by done. rewrite !decide_False; [done|done|done|intros [?|?]; done|done|set_solver].
Qed.
Print Assumptions C126_decorator_names_refuted.
(** helper is found in the island, len among the built-ins. *)
Example C126_example : meaning_of ["sys"; "__name__"]%string {["len"; "__name__"]}%string "f" (T "H") ["f"; "helper"]%string "helper" = Helper "helper" /\
  meaning_of ["sys"; "__name__"]%string {["len"; "__name__"]}%string "f" (T "H") ["f"; "helper"]%string "len" = BuiltIn "len" /\
  meaning_of ["sys"; "__name__"]%string {["len"; "__name__"]}%string "f" (T "H") ["f"; "helper"]%string "my_global" = NameError_ /\
  meaning_of ["sys"; "__name__"]%string {["len"; "__name__"]}%string "f" (T "H") ["f"; "helper"]%string "__name__" = Library "__name__".
Proof. split; [|split; [|split]]; vm_compute; reflexivity. Qed.
