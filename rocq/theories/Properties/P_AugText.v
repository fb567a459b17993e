(** The text in which a pure function carries the functions it needs: what a user may rely on.  C113. *)
From Coq Require Import String Ascii.
From Verif Require Import Lib.Py Model.Registry Model.AugText.
From Verif.Spec Require Import AugTextSpec.
From Verif.Proofs Require Import AugTextP.
Local Open Scope string_scope.

(** C113.  The augmented source of a pure function reads back as the functions it was written from: the same decorators, with the
    same islands, strictness and guards, and the same sources (followed by empty lines), in the same order - for all functions whose
    island and guard names contain no quotes, backslashes or line ends and whose sources have no line starting with '@'. *)
Theorem C113_reads_back : forall es, Forall readable es ->
  read_augmented (aug_text es) = Some (map (fun e => (fst e, snd e +:+ NL +:+ NL)) es).
Proof. exact read_augmented_text. Qed.
Print Assumptions C113_reads_back.

(** Hence two augmented sources are equal as texts - which is how the library compares them - exactly if they are made of the same
    functions, which is how Registry.v compares them. *)
Theorem C113_text_tells : forall es es', Forall readable es -> Forall readable es' -> aug_text es = aug_text es' <-> es = es'.
Proof. intros es es' H H'. split; [by apply aug_text_inj|by intros ->]. Qed.
Print Assumptions C113_text_tells.
(** The same for decorators, as texts of functions of one island are compared when a function is defined again. *)
Theorem C113_decorator_tells : forall d d', readable_decor d -> readable_decor d' -> dec_text d = dec_text d' <-> d = d'.
Proof.
  intros d d' H H'. split; [|by intros ->]. intros E. pose proof (read_decorator_text d "" H) as R. rewrite E, (read_decorator_text d' "" H') in R. by injection R as ->.
Qed.
Print Assumptions C113_decorator_tells.

(** What becomes of an island name with backslashes or quotes: the island that is read back is the one that the name means as a Python
    literal, not the name. *)
Theorem C113_island_names_mean_literals : forall strict i v rest, literal_means i v ->
  read_decorator (dec_text (DAut strict i) +:+ NL +:+ rest) = Some (DAut strict v, rest).
Proof. intros b i v rest H. by apply read_decorator_aut. Qed.
Print Assumptions C113_island_names_mean_literals.
Example C113_ex_literal : literal_means ("a" +:+ String backslash "tb" +:+ String backslash "'c" +:+ String backslash "d") ("a" +:+ String (ascii_of_nat 9) "b'c" +:+ String backslash "d").
Proof. repeat first [apply lit_end | apply lit_t | apply lit_quote | apply lit_kept; [unfold kept; apply elem_of_list_In; cbn; tauto|] | apply lit_plain; [done..|]]. Qed.

(** the hypotheses hold of ordinary functions: three functions, one with guards *)
Definition blocks : list entry :=
  [ (DPure "Samos" (Some ["check_gpu"; "f"]), "def f(x):" +:+ NL +:+ "    return g(x) @ h(x)");
    (DAut true "Samos", "def check_gpu():" +:+ NL +:+ "    return True");
    (DAut false "Samos-2 (new)", "def h(x):" +:+ NL +:+ "    return x"); (DPure "Delos" (Some []), "def p(): pass"); (DPure "" None, "def q(): pass") ].
Definition safe_char (c : ascii) : bool := negb (bool_decide (c = quote \/ c = backslash \/ c = nl \/ c = cr)).
Fixpoint all_safe (s : string) : bool := match s with EmptyString => true | String c s' => safe_char c && all_safe s' end.
Lemma all_safe_quotable s : all_safe s = true -> quotable s.
Proof.
  induction s as [|d s IH]; cbn; [intros _ [] ? ?; done|]. rewrite andb_true_iff. intros [H1 H2] a c b. destruct a as [|x a].
  - intros [= <- _]. unfold safe_char in H1. apply negb_true_iff, bool_decide_eq_false_1 in H1. tauto.
  - intros [= _ E]. by apply (IH H2 a c b).
Qed.
Fixpoint no_at (bol : bool) (s : string) : bool :=
  match s with EmptyString => true | String c s' => negb (bol && bool_decide (c = "@"%char)) && no_at (bool_decide (c = nl)) s' end.
Lemma no_at_lines s : no_at true s = true -> no_decorator_line s.
Proof.
  intros H. split; [by intros b ->|]. assert (G : forall a s bol b, no_at bol s = true -> s <> a +:+ String nl (String "@" b)); [|intros a b; by eapply G].
  clear. induction a as [|x a IH]; intros s bol b H ->.
  - rewrite sapp_nil in H. cbn in H. destruct bol; done.
  - rewrite sapp_cons in H. cbn in H. apply andb_true_iff in H as [_ H]. by eapply IH.
Qed.
Example C113_ex_readable : Forall readable blocks.
Proof.
  assert (Q : forall l x, Forall (fun y => all_safe y = true) l -> x ∈ l -> quotable x) by (intros l x Hl Hx; apply all_safe_quotable; by eapply (proj1 (Forall_forall _ _) Hl)).
  unfold blocks, readable. repeat apply Forall_cons_2; try apply Forall_nil_2; (split; [|apply no_at_lines; vm_compute; reflexivity]); cbn [fst readable_decor];
    try (apply all_safe_quotable; vm_compute; reflexivity); (split; [apply all_safe_quotable; vm_compute; reflexivity|]); intros l x [= <-]; apply Q; repeat constructor.
Qed.
Example C113_ex : option_map (map fst) (read_augmented (aug_text blocks)) = Some (map fst blocks).
Proof. vm_compute. reflexivity. Qed.

(** The conditions are needed: an island name with a quote makes the text unreadable, one with a backslash names another island
    after reading back, and text that looks like another function is taken for one. *)
Theorem C113_refuted_in_general :
  read_augmented (aug_text [(DAut false "O'Neill", "def f(): pass")]) = None
  /\ option_map (map fst) (read_augmented (aug_text [(DAut false ("C:" +:+ String backslash "new"), "def f(): pass")])) = Some [DAut false ("C:" +:+ String nl "ew")]
  /\ (exists es es', es <> es' /\ aug_text es = aug_text es').
Proof.
  split; [vm_compute; reflexivity|]. split; [vm_compute; reflexivity|].
  exists [(DAut false "a", "x" +:+ NL +:+ NL +:+ dec_text (DAut true "b") +:+ NL +:+ "y")], [(DAut false "a", "x"); (DAut true "b", "y")]. split; [done|vm_compute; reflexivity].
Qed.
Print Assumptions C113_refuted_in_general.
