(** C119: exactly when the handlers of uncaught exceptions change, and what they record. *)
From Coq Require Import String.
From stdpp Require Import sets list.
From Verif Require Import Lib.Py Model.Logging Model.Hooks Spec.LoggingSpec Spec.HooksSpec Proofs.LoggingP.
Local Open Scope nat_scope.

Lemma after_app es e w : after (es ++ [e]) w = do_event e (after es w).
Proof. unfold after. by rewrite fold_left_app. Qed.
Global Instance hook_eq : EqDecision Logging.hook. Proof. solve_decision. Defined.
Global Instance handler_eq : EqDecision handler. Proof. solve_decision. Defined.
Global Instance ipython_eq : EqDecision ipython. Proof. solve_decision. Defined.
Global Instance event_eq : EqDecision event. Proof. solve_decision. Defined.
Lemma none_since_snoc es e : none_since_reset (es ++ [e]) <-> e = Reset true \/ (e <> NewPortal /\ none_since_reset es).
Proof.
  split.
  - intros H. destruct (decide (e = Reset true)) as [->|Hr]; [by left|]. right. split.
    + intros ->. specialize (H es [] eq_refl). by apply elem_of_nil in H.
    + intros b l ->. specialize (H b (l ++ [e])). rewrite <- app_assoc in H. specialize (H eq_refl).
      apply elem_of_app in H as [H|H]; [done|]. apply elem_of_list_singleton in H. by subst.
  - intros [->|[Hn H]] b l E.
    + destruct l as [|x l _] using rev_ind; [by apply app_inj_tail in E as [_ [=]]|].
      rewrite app_comm_cons, app_assoc in E. apply app_inj_tail in E as [_ <-]. apply elem_of_app. right. by left.
    + destruct l as [|x l _] using rev_ind; [apply app_inj_tail in E as [_ ->]; done|].
      rewrite app_comm_cons, app_assoc in E. apply app_inj_tail in E as [-> <-]. apply elem_of_app. left. by apply (H b).
Qed.
Lemma none_since_nil : none_since_reset []. Proof. intros b l E. by destruct b. Qed.
(** the flag, and the variable that should keep the previous hook *)
Lemma flag_after h i es : (flag (after es (start h i)) = false <-> none_since_reset es) /\ prev (after es (start h i)) = None.
Proof.
  induction es as [|e es [IH IP]] using rev_ind; [split; [|done]; split; [intros; apply none_since_nil|done]|].
  rewrite after_app, none_since_snoc. set (w := after es (start h i)) in *. destruct e as [|[]| | | |]; cbn [do_event].
  - split; [split; [done|intros [[=]|[? _]]; done]|]. destruct (flag w); [done|]. unfold register_handlers, is_executed_in_notebook, set_custom_exc.
    destruct (answer w) as [[]|]; [destruct (shell w) as [|[]]| |destruct (shell w) as [|[]] eqn:E; cbn; rewrite ?E]; done.
  - split; [split; [by left|done]|]. destruct (flag w); [|done]. unfold unregister_handlers. rewrite IP.
    unfold is_executed_in_notebook, set_custom_exc.
    destruct (answer w) as [[]|]; [destruct (shell w) as [|[]]| |destruct (shell w) as [|[]] eqn:E; cbn; rewrite ?E]; done.
  - rewrite IH. split; [|done]. split; [right; done|intros [[=]|[_ ?]]; done].
  - unfold is_executed_in_notebook. destruct (answer w); cbn; rewrite IH; (split; [|done]; split; [right; done|intros [[=]|[_ ?]]; done]).
  - cbn. rewrite IH. split; [|done]. split; [right; done|intros [[=]|[_ ?]]; done].
  - destruct (set_custom_exc _ _) eqn:E; [unfold set_custom_exc in E; destruct (shell w) as [|[]]; [done| |done]; injection E as <-; cbn|];
      rewrite IH; (split; [|done]; split; [right; done|intros [[=]|[_ ?]]; done]).
  - cbn. rewrite IH. split; [|done]. split; [right; done|intros [[=]|[_ ?]]; done].
Qed.
Lemma no_shells_app es e : no_shells (es ++ [e]) -> no_shells es /\ (forall i, e = ShellChange i -> i = NoShell).
Proof. intros H. split; intros i Hi; apply H, elem_of_app; [by left|right; subst; by left]. Qed.
Ltac ask w S := let Ea := fresh "Ea" in destruct (answer w) as [[]|] eqn:Ea; cbn in *; rewrite ?S; cbn in *; rewrite ?S, ?Ea; cbn in *; try done.
Lemma plain_world h es : no_shells es -> shell (after es (start h NoShell)) = NoShell /\ answer (after es (start h NoShell)) <> Some true.
Proof.
  induction es as [|e es IH] using rev_ind; [done|]. intros [H He]%no_shells_app. specialize (IH H) as [S A].
  rewrite after_app. set (w := after es (start h NoShell)) in *. destruct (flag_after h NoShell es) as [_ IP]. fold w in IP.
  destruct e as [|[]| | | |i]; cbn [do_event].
  - destruct (flag w); [done|]. unfold register_handlers, is_executed_in_notebook, set_custom_exc. destruct (answer w) as [[]|] eqn:Ea; [done| |]; cbn; rewrite ?S; cbn; rewrite ?S, ?Ea; done.
  - destruct (flag w); [|done]. unfold unregister_handlers. rewrite IP. unfold is_executed_in_notebook. ask w S.
  - done.
  - unfold is_executed_in_notebook. ask w S.
  - done.
  - unfold set_custom_exc. by rewrite S.
  - cbn. by rewrite (He i eq_refl).
Qed.

(** ** Outside of notebooks: sys.excepthook is what the program assigned last, where creating a portal counts as assigning
    Pythagoras's hook if no portal has been created since the last reset through LoggingPortal or a subclass; nothing else,
    resets included, changes it. *)
Theorem C119_hook_outside_notebooks : forall h es e, no_shells (es ++ [e]) ->
  let now es := hook (after es (start h NoShell)) in
  now [] = h /\
  (forall x, e = UserHook x -> now (es ++ [e]) = x) /\
  (e = NewPortal -> none_since_reset es -> now (es ++ [e]) = PthHook) /\
  ((forall x, e <> UserHook x) -> ~ (e = NewPortal /\ none_since_reset es) -> now (es ++ [e]) = now es).
Proof.
  intros h es e [H He]%no_shells_app now. unfold now. rewrite after_app. destruct (plain_world h es H) as [S A].
  destruct (flag_after h NoShell es) as [F P]. set (w := after es (start h NoShell)) in *. split; [done|].
  split; [intros x ->; done|]. split.
  - intros -> Hn. cbn [do_event]. apply F in Hn. rewrite Hn. unfold register_handlers, is_executed_in_notebook.
    ask w S.
  - intros Hu Hn. destruct e as [|[]| |x| |i]; cbn [do_event].
    + destruct (flag w) eqn:Ef; [done|]. destruct Hn. split; [done|]. by apply F.
    + destruct (flag w); [|done]. unfold unregister_handlers. rewrite P. unfold is_executed_in_notebook. ask w S.
    + done.
    + unfold is_executed_in_notebook. by destruct (answer w).
    + by destruct (Hu x).
    + unfold set_custom_exc. by rewrite S.
    + done.
Qed.
Print Assumptions C119_hook_outside_notebooks.
(** In particular the hook that was there before is never put back (C65). *)
Theorem C119_never_restored : forall h es es', no_shells (es ++ NewPortal :: es') -> none_since_reset es ->
  (forall x, UserHook x ∉ es') -> hook (after (es ++ NewPortal :: es') (start h NoShell)) = PthHook.
Proof.
  intros h es es' H Hn Hu. induction es' as [|e es' IH] using rev_ind.
  - by apply (C119_hook_outside_notebooks h es NewPortal H).
  - rewrite app_comm_cons, app_assoc in H |- *. destruct (C119_hook_outside_notebooks h (es ++ NewPortal :: es') e H) as (_ & _ & H1 & H2).
    assert (hook (after (es ++ NewPortal :: es') (start h NoShell)) = PthHook) as E.
    { apply IH; [exact (proj1 (no_shells_app _ _ H))|]. intros x Hx. apply (Hu x), elem_of_app. by left. }
    destruct (decide (e = NewPortal)) as [->|Hne].
    + destruct (flag (after (es ++ NewPortal :: es') (start h NoShell))) eqn:Ef.
      * rewrite H2; [done|done|]. intros [_ Hx]. apply (flag_after h NoShell) in Hx. congruence.
      * apply H1; [done|]. by apply (flag_after h NoShell).
    + rewrite H2; [done| |by intros [? _]]. intros x ->. apply (Hu x), elem_of_app. right. by left.
Qed.
Print Assumptions C119_never_restored.
(** An exception that ends the program is recorded by no hook, and shown by sys.__excepthook__ when Pythagoras's hook is
    installed: a hook the program had before is not called. *)
Theorem C119_uncaught_outside_notebooks : forall V (place : nat -> nat) e w (s : lstate (V := V)), shell w = NoShell ->
  fst (uncaught place e w s) = s /\ snd (uncaught place e w s) = ByHook (match hook w with PthHook => DefaultHook | x => x end).
Proof. intros * E. unfold uncaught. rewrite E. by destruct (hook w). Qed.
Print Assumptions C119_uncaught_outside_notebooks.

(** ** In a notebook that is never left: sys.excepthook belongs to the program; the handler of the cells is Pythagoras's from the
    first portal to the next reset through LoggingPortal, unless the program sets another. *)
Lemma one_shell_app es e : one_shell (es ++ [e]) -> one_shell es /\ forall i, e <> ShellChange i.
Proof. intros H. split; intros i Hi; apply (H i), elem_of_app; [by left|right; subst; by left]. Qed.
Lemma notebook_world h es : one_shell es -> let w := after es (start h (Shell true)) in shell w = Shell true /\ answer w <> Some false /\ (flag w = true -> answer w = Some true).
Proof.
  induction es as [|e es IH] using rev_ind; [done|]. intros [H He]%one_shell_app. specialize (IH H) as (S & A & B).
  rewrite after_app. destruct (flag_after h (Shell true) es) as [_ P]. set (w := after es (start h (Shell true))) in *.
  destruct e as [|[]| | | |i]; cbn [do_event].
  - destruct (flag w) eqn:Ef; [cbn; auto|]. unfold register_handlers, is_executed_in_notebook, set_custom_exc.
    ask w S.
  - destruct (flag w) eqn:Ef; [|cbn; done]. unfold unregister_handlers. rewrite P. unfold is_executed_in_notebook, set_custom_exc.
    rewrite (B eq_refl), S. cbn. by rewrite (B eq_refl).
  - done.
  - unfold is_executed_in_notebook. ask w S.
  - done.
  - unfold set_custom_exc. rewrite S. cbn. done.
  - by destruct (He i).
Qed.
Theorem C119_handler_in_notebook : forall h es e, one_shell (es ++ [e]) ->
  let w es := after es (start h (Shell true)) in
  (forall x, e = UserHook x -> hook (w (es ++ [e])) = x) /\
  ((forall x, e <> UserHook x) -> hook (w (es ++ [e])) = hook (w es)) /\
  (forall x, e = UserHandler x -> handler_of_shell (w (es ++ [e])) = x) /\
  (e = NewPortal -> none_since_reset es -> handler_of_shell (w (es ++ [e])) = PthHandler) /\
  (e = Reset true -> ~ none_since_reset es -> handler_of_shell (w (es ++ [e])) = PlainHandler) /\
  ((forall x, e <> UserHandler x) -> ~ (e = NewPortal /\ none_since_reset es) -> ~ (e = Reset true /\ ~ none_since_reset es) ->
     handler_of_shell (w (es ++ [e])) = handler_of_shell (w es)).
Proof.
  intros h es e [H He]%one_shell_app w0. unfold w0. rewrite after_app. destruct (notebook_world h es H) as (S & A & B).
  destruct (flag_after h (Shell true) es) as [F P]. set (w := after es (start h (Shell true))) in *.
  assert (flag w = true <-> ~ none_since_reset es) as F' by (rewrite <- F; destruct (flag w); split; congruence).
  assert (Hreg : register_handlers w = set_handler PthHandler (set_answer true w)).
  { unfold register_handlers, is_executed_in_notebook, set_custom_exc. destruct (answer w) as [[]|] eqn:Ea; [|done|].
    - cbn. rewrite S. unfold set_handler, set_answer. cbn. by rewrite ?Ea.
    - cbn. rewrite ?S. cbn. by rewrite ?S. }
  assert (Hun : flag w = true -> unregister_handlers w = set_handler PlainHandler w).
  { intros Ef. unfold unregister_handlers. rewrite P. unfold is_executed_in_notebook, set_custom_exc. rewrite (B Ef). cbn. by rewrite S. }
  assert (forall b : bool, (b = true -> False) <-> b = false) as Hb by (intros []; split; [intros X; by destruct X|done..]).
  split; [intros x ->; done|]. split; [|split; [intros x ->; cbn [do_event]; unfold set_custom_exc; by rewrite S|split; [|split]]].
  - intros Hu. destruct e as [|[]| |x|x|i]; cbn [do_event]; [| | | | | |].
    + destruct (flag w); [done|]. by rewrite Hreg.
    + destruct (flag w) eqn:Ef; [|done]. by rewrite Hun.
    + done.
    + unfold is_executed_in_notebook. by destruct (answer w).
    + by destruct (Hu x).
    + unfold set_custom_exc. by rewrite S.
    + by destruct (He i).
  - intros -> Hn. cbn [do_event]. apply F in Hn. rewrite Hn, Hreg. done.
  - intros -> Hn. cbn [do_event]. apply F' in Hn. rewrite Hn, Hun by done. done.
  - intros Hu Hn Hr. destruct e as [|[]| |x|x|i]; cbn [do_event].
    + destruct (flag w) eqn:Ef; [done|]. destruct Hn. split; [done|]. by apply F.
    + destruct (flag w) eqn:Ef; [|done]. destruct Hr. split; [done|]. by apply F'.
    + done.
    + unfold is_executed_in_notebook. by destruct (answer w).
    + done.
    + by destruct (Hu x).
    + by destruct (He i).
Qed.
Print Assumptions C119_handler_in_notebook.
(** ** Any history: shells may start and end.  What a new portal and a reset do is settled by the answer that was given when
    somebody asked for the first time whether this is a notebook (now, if nobody has asked), and by the shell there is now. *)
Theorem C119_any_history : forall h i es,
  let w es := after es (start h i) in
  let cells := shell (w es) = Shell true /\ answer (w es) <> Some false in
  (none_since_reset es -> cells -> handler_of_shell (w (es ++ [NewPortal])) = PthHandler /\ hook (w (es ++ [NewPortal])) = hook (w es)) /\
  (none_since_reset es -> ~ cells -> hook (w (es ++ [NewPortal])) = PthHook /\ handler_of_shell (w (es ++ [NewPortal])) = handler_of_shell (w es)) /\
  (~ none_since_reset es -> hook (w (es ++ [NewPortal])) = hook (w es) /\ handler_of_shell (w (es ++ [NewPortal])) = handler_of_shell (w es)) /\
  hook (w (es ++ [Reset true])) = hook (w es) /\
  (~ none_since_reset es -> cells -> handler_of_shell (w (es ++ [Reset true])) = PlainHandler) /\
  (none_since_reset es \/ ~ cells -> handler_of_shell (w (es ++ [Reset true])) = handler_of_shell (w es)) /\
  shell (w (es ++ [NewPortal])) = shell (w es) /\ shell (w (es ++ [Reset true])) = shell (w es).
Proof.
  intros h i es w0 cells. subst cells. unfold w0. rewrite !after_app. destruct (flag_after h i es) as [F P].
  set (w := after es (start h i)) in *.
  assert (flag w = true <-> ~ none_since_reset es) as F' by (rewrite <- F; destruct (flag w); split; congruence).
  cbn [do_event]. destruct (flag w) eqn:Ef.
  - assert (~ none_since_reset es) as N by (by apply F').
    unfold unregister_handlers, is_executed_in_notebook, set_custom_exc. rewrite P.
    destruct (answer w) as [[]|] eqn:Ea; destruct (shell w) as [|[]] eqn:S; cbn; rewrite ?S; cbn; rewrite ?S;
      repeat split; intros; try done; try naive_solver.
  - assert (none_since_reset es) as N by (by apply F).
    unfold register_handlers, is_executed_in_notebook, set_custom_exc.
    destruct (answer w) as [[]|] eqn:Ea; destruct (shell w) as [|[]] eqn:S; cbn; rewrite ?S; cbn; rewrite ?S;
      repeat split; intros; try done; try naive_solver.
Qed.
Print Assumptions C119_any_history.
(** What the answer is: whether the first time somebody asks - the first portal, a reset that takes the handlers away, or anything
    else that asks - there is a shell that takes handlers of exceptions (has set_custom_exc). *)
Theorem C119_the_answer : forall h i es e,
  let w es := after es (start h i) in
  answer (w []) = None /\
  (answer (w es) = None -> e = AskNotebook \/ (e = NewPortal /\ none_since_reset es) ->
     answer (w (es ++ [e])) = Some true <-> shell (w es) = Shell true) /\
  (answer (w es) = None -> e = AskNotebook \/ (e = NewPortal /\ none_since_reset es) -> answer (w (es ++ [e])) <> None) /\
  (answer (w es) = None -> e <> AskNotebook -> ~ (e = NewPortal /\ none_since_reset es) -> answer (w (es ++ [e])) = None).
Proof.
  intros h i es e w0. unfold w0. rewrite !after_app. destruct (flag_after h i es) as [F P].
  assert (flag (after es (start h i)) = true -> answer (after es (start h i)) <> None) as FA.
  { clear F P e w0. induction es as [|e es IH] using rev_ind; [done|]. rewrite after_app. destruct (flag_after h i es) as [_ P].
    set (w := after es (start h i)) in *. destruct e as [|[]| | | |j]; cbn [do_event]; try done.
    - destruct (flag w) eqn:Ef; [cbn; auto|]. intros _. unfold register_handlers, is_executed_in_notebook, set_custom_exc.
      destruct (answer w) as [[]|] eqn:Ea; destruct (shell w) as [|[]] eqn:S; cbn; rewrite ?S; cbn; rewrite ?S, ?Ea; done.
    - unfold is_executed_in_notebook. destruct (answer w) as [[]|] eqn:Ea; cbn; rewrite ?Ea; done.
    - unfold set_custom_exc. destruct (shell w) as [|[]]; done. }
  set (w := after es (start h i)) in *. split; [done|].
  assert (flag w = true <-> ~ none_since_reset es) as F' by (rewrite <- F; destruct (flag w); split; congruence).
  assert (none_since_reset es -> flag w = false) as F2 by (apply F).
  split; [|split].
  - intros Ea [->|[-> Hn]]; cbn [do_event]; [|rewrite (F2 Hn); unfold register_handlers, set_custom_exc];
      unfold is_executed_in_notebook; rewrite Ea; destruct (shell w) as [|[]] eqn:S; cbn; rewrite ?S; cbn; rewrite ?S; done.
  - intros Ea [->|[-> Hn]]; cbn [do_event]; [|rewrite (F2 Hn); unfold register_handlers, set_custom_exc];
      unfold is_executed_in_notebook; rewrite Ea; destruct (shell w) as [|[]] eqn:S; cbn; rewrite ?S; cbn; rewrite ?S; done.
  - intros Ea Hne Hn. destruct e as [|[]| | | |j]; cbn [do_event]; try done.
    + destruct (flag w) eqn:Ef; [done|]. destruct Hn. split; [done|]. by apply F.
    + destruct (flag w) eqn:Ef; [|done]. by destruct (FA eq_refl).
    + unfold set_custom_exc. destruct (shell w) as [|[]]; done.
Qed.
Print Assumptions C119_the_answer.
(** Whether this is a notebook is decided once. *)
Theorem C119_decided_once : forall es w b, answer w = Some b -> answer (after es w) = Some b.
Proof.
  induction es as [|e es IH] using rev_ind; [done|]. intros w b Ha. rewrite after_app. specialize (IH w b Ha). set (v := after es w) in *.
  destruct e as [|[]| | | |i]; cbn [do_event]; try done.
  - destruct (flag v); [done|]. unfold register_handlers, is_executed_in_notebook, set_custom_exc. rewrite IH. destruct b; [|done]. destruct (shell v) as [|[]]; done.
  - destruct (flag v); [|done]. unfold unregister_handlers. destruct (prev v); unfold is_executed_in_notebook, set_custom_exc; cbn; rewrite IH; (destruct b; [|done]); cbn; destruct (shell v) as [|[]]; done.
  - unfold is_executed_in_notebook. by rewrite IH.
  - unfold set_custom_exc. destruct (shell v) as [|[]]; done.
Qed.
Print Assumptions C119_decided_once.
(** A cell's exception that nobody has recorded yet is recorded once, in the crash history of every entered portal, by
    Pythagoras's handler, and not again. *)
Theorem C119_uncaught_in_notebook : forall V place, separate place -> forall e w (s : lstate (V := V)) custom,
  shell w = Shell custom -> handler_of_shell w = PthHandler -> log_ok place s -> e < next_exn s ->
  let s' := fst (uncaught place e w s) in
  (e ∉ marked s -> forall q, records place s' e q None = if decide (q ∈ opened s) then 1 else 0) /\
  (e ∈ marked s -> s' = s) /\
  (forall e' q section, e' <> e -> records place s' e' q section = records place s e' q section) /\
  e ∈ marked s' /\ log_ok place s' /\ opened s' = opened s.
Proof.
  intros V place Hs e w s custom Hsh Hh Hok He s'. unfold s', uncaught. rewrite Hsh, Hh. cbn [fst].
  destruct (logger_ok place Hs (Some e) s Hok ltac:(intros e' [= <-]; exact He)) as (s2 & E2 & G2 & O2 & _ & _ & _ & _ & H1 & H2). rewrite E2. cbn [fst].
  destruct (H1 e eq_refl) as [H3 H4]. split; [intros Hm q; exact (H4 Hm q None)|]. split.
  - intros Hm. cbn in E2. unfold persist, needs_processing in E2. rewrite (bool_decide_eq_true_2 _ Hm) in E2. cbn in E2. by injection E2.
  - split; [intros; apply H2; left; congruence|]. split; [done|]. split; [exact (proj1 G2)|done].
Qed.
Print Assumptions C119_uncaught_in_notebook.

(** ** Examples *)
Example outside : hook (after [UserHook (OtherHook 1); NewPortal; NewPortal; Reset true] (start DefaultHook NoShell)) = PthHook
  /\ hook (after [NewPortal; UserHook (OtherHook 1); NewPortal] (start DefaultHook NoShell)) = OtherHook 1
  /\ hook (after [NewPortal; UserHook (OtherHook 1); Reset false; NewPortal] (start DefaultHook NoShell)) = OtherHook 1
  /\ hook (after [NewPortal; UserHook (OtherHook 1); Reset true; NewPortal] (start DefaultHook NoShell)) = PthHook.
Proof. done. Qed.
Example histories_exist : no_shells ([NewPortal; UserHook (OtherHook 1)] ++ [Reset true]) /\ one_shell ([NewPortal; UserHandler (OtherHandler 1)] ++ [Reset true])
  /\ none_since_reset [NewPortal; Reset true] /\ ~ none_since_reset [Reset true; NewPortal].
Proof.
  split; [intros i Hi; set_solver|]. split; [intros i Hi; set_solver|]. split.
  - change [NewPortal; Reset true] with ([NewPortal] ++ [Reset true]). apply none_since_snoc. by left.
  - change [Reset true; NewPortal] with ([Reset true] ++ [NewPortal]). rewrite none_since_snoc. intros [[=]|[? _]]; done.
Qed.
Example in_notebook : handler_of_shell (after [NewPortal] (start DefaultHook (Shell true))) = PthHandler
  /\ handler_of_shell (after [NewPortal; Reset true] (start DefaultHook (Shell true))) = PlainHandler
  /\ hook (after [NewPortal; Reset true] (start DefaultHook (Shell true))) = DefaultHook.
Proof. done. Qed.
(** asked too early: a portal created before the shell starts never gets a handler there *)
Example too_early : handler_of_shell (after [NewPortal; ShellChange (Shell true); Reset true; NewPortal] (start DefaultHook NoShell)) = NoHandler.
Proof. done. Qed.
(** a notebook that has ended: the next portal, after a reset, sets sys.excepthook *)
Example left_notebook : let w := after [NewPortal; Reset true; ShellChange NoShell] (start DefaultHook (Shell true)) in
  answer w = Some true /\ shell w = NoShell /\ hook w = DefaultHook /\ hook (do_event NewPortal w) = PthHook.
Proof. done. Qed.
(** asked in a shell without set_custom_exc: not a notebook, not even when a better shell comes later *)
Example poor_shell : answer (after [AskNotebook] (start DefaultHook (Shell false))) = Some false
  /\ hook (after [AskNotebook; ShellChange (Shell true); NewPortal] (start DefaultHook (Shell false))) = PthHook.
Proof. done. Qed.
