(** C120: what calls leave in the directories of the portals, file by file. *)
From Coq Require Import QArith String.
From stdpp Require Import gmap pretty.
From Verif.Lib Require Import Py.
From Verif.Model Require Import PureAddr PureExec Layout OnFiles.
From Verif.Spec Require Import PureAddrSpec PureExecSpec LayoutSpec OnFilesSpec.
From Verif.Proofs Require Import PureAddrP PureExecP PureExecSysP PureExecSeqP PureAnyP PureCallP LayoutP OnFilesP.
From Verif.Properties Require Import ExampleHash P_PureExec P_PureExecExamples P_CallEffects.
Local Open Scope nat_scope.

(** Where the files are. *)
Theorem C120_file_names : forall digest root_of run_text l n h n' h' r b, good_roots root_of ->
  let root := base_dir (root_of l) in
  val_file digest root_of l (n, h) = root ++ ["value_store"; n; h +:+ ".pkl"]%string /\
  res_file digest root_of l (n, h) = root ++ ["execution_results"; n; h +:+ ".pkl"]%string /\
  req_file digest root_of l (n, h) = root ++ ["execution_requests"; n; h +:+ ".pkl"]%string /\
  hist_file digest root_of run_text l (HAttempt (n', h') r) = root ++ ["run_history"; n'; h'; "attempts"; (run_text r +:+ "_a") +:+ ".json"]%string /\
  hist_file digest root_of run_text l (HResult (n', h') r b) = root ++ ["run_history"; n'; h'; "results"; run_text r +:+ ".pkl"]%string /\
  hist_file digest root_of run_text l (HOutput (n', h') r) = root ++ ["run_history"; n'; h'; "outputs"; (run_text r +:+ "_output") +:+ ".txt"]%string.
Proof.
  intros * [Hd _] root.
  unfold val_file, res_file, req_file, hist_file, at_. rewrite !file_path by apply Hd.
  repeat split.
Qed.
Print Assumptions C120_file_names.

(** One process.  Whatever it does (any tree of accesses), working on files that hold the stores it gets the same answers and
    ends the same way, and the files hold the stores again. *)
Theorem C120_one_process : forall D digest root_of run_text X (t : tree (D := D) X) f σ μ f' μ1 x σ' μ2 y,
  good_roots root_of -> (forall r r', run_text r = run_text r' -> r = r') ->
  holds digest root_of run_text f σ ->
  frun digest root_of run_text t f μ = (f', μ1, x) -> run t σ μ = (σ', μ2, y) ->
  x = y /\ μ1 = μ2 /\ holds digest root_of run_text f' σ'.
Proof.
  intros * Hr Hi H E1 E2. pose proof (run_holds digest root_of run_text Hr Hi t f σ μ H) as K. rewrite E1, E2 in K.
  destruct K as (-> & -> & K). done.
Qed.
Print Assumptions C120_one_process.
(** Any number of processes, in any interleaving, any of them stopping anywhere, starting with empty directories. *)
Theorem C120_many_processes : forall D digest root_of run_text data_prefix hash_of (body : fn_state -> list (string * arg D) -> prog) guards_of xs f ps σ ps',
  good_roots root_of -> (forall r r', run_text r = run_text r' -> r = r') ->
  fsys_run digest root_of run_text data_prefix hash_of body guards_of (∅, []) xs = (f, ps) ->
  sys_run data_prefix hash_of body guards_of (fun _ => empty_store, []) xs = (σ, ps') ->
  ps = ps' /\ holds digest root_of run_text f σ.
Proof.
  intros * Hr Hi E1 E2. pose proof (sys_holds digest root_of run_text Hr Hi data_prefix hash_of body guards_of xs ∅ (fun _ => empty_store) []
    (empty_holds digest root_of run_text)) as K. rewrite E1 in K. destruct (sys_run _ _ _ _ _ _) as [σ2 ps2] eqn:E3 in K.
  pose proof (eq_trans (eq_sym E3) E2) as E. by injection E as -> ->.
Qed.
Print Assumptions C120_many_processes.

(** Nothing else is touched: a file that is different afterwards is one of these four kinds. *)
Definition a_store_file digest root_of run_text (p : path) : Prop := exists l,
  (exists b, p = val_file digest root_of l b) \/ (exists a, p = res_file digest root_of l a) \/ (exists a, p = req_file digest root_of l a) \/
  (exists h, p = hist_file digest root_of run_text l h).
Lemma fperform_only D digest root_of run_text (e : event (D := D)) f μ (p : path) :
  ~ a_store_file digest root_of run_text p -> (fperform digest root_of run_text e f μ).1.1 !! p = f !! p.
Proof.
  intros Hp. destruct e; cbn [fperform fst]; try done.
  - rewrite lookup_insert_ne; [done|]. intros <-. apply Hp. exists l. eauto.
  - rewrite lookup_insert_ne; [done|]. intros <-. apply Hp. exists l. eauto.
  - rewrite lookup_insert_ne; [done|]. intros <-. apply Hp. exists l. eauto.
  - rewrite lookup_delete_ne; [done|]. intros <-. apply Hp. exists l. eauto.
  - rewrite lookup_insert_ne; [done|]. intros <-. apply Hp. exists l. eauto 6.
Qed.
Theorem C120_nothing_else : forall D digest root_of run_text data_prefix hash_of (body : fn_state -> list (string * arg D) -> prog) guards_of xs f ps f' ps' p,
  fsys_run digest root_of run_text data_prefix hash_of body guards_of (f, ps) xs = (f', ps') ->
  ~ a_store_file digest root_of run_text p -> f' !! p = f !! p.
Proof.
  intros * E Hp. revert f ps E. induction xs as [|x xs IH]; intros f ps E; [by injection E as -> _|].
  unfold fsys_run in E. cbn [fold_left] in E. destruct (fsys_step _ _ _ _ _ _ _ (f, ps) x) as [f1 ps1] eqn:E1.
  rewrite (IH _ _ E). clear IH E. destruct x as [j μ|i|l a]; cbn [fsys_step] in E1.
  - by injection E1 as <- _.
  - destruct (ps !! i) as [[j [y|e k] μ]|]; try by injection E1 as <- _.
    pose proof (fperform_only D digest root_of run_text e f μ p Hp) as K.
    destruct (fperform _ _ _ e f μ) as [[f2 μ2] y]. by injection E1 as <- _.
  - injection E1 as <- _. rewrite lookup_delete_ne; [done|]. intros <-. apply Hp. exists l. eauto.
Qed.
Print Assumptions C120_nothing_else.

(** So everything proved of the stores can be read off the files.  A finished call is answered from two files, and leaves all
    results, requests and records as they are: *)
Theorem C120_answered_from_files :
  forall D digest root_of run_text data_prefix hash_of (body : fn_state -> list (string * arg D) -> prog) guards_of ses n p fn kw b v f σ μ,
  good_roots root_of -> (forall r r', run_text r = run_text r' -> r = r') ->
  holds digest root_of run_text f σ ->
  acceptable kw -> pcc ses p = None ->
  f !! res_file digest root_of (loc ses p) (call_addr data_prefix hash_of fn kw) = Some (CAddress b) ->
  f !! val_file digest root_of (loc ses p) b = Some (CValue v) ->
  exists f' μ', frun digest root_of run_text (execute data_prefix hash_of body guards_of ses (S n) p fn kw) f μ = (f', μ', Some (Ok (AVal v))) /\
    forall l, (forall a, f' !! res_file digest root_of l a = f !! res_file digest root_of l a) /\
              (forall a, f' !! req_file digest root_of l a = f !! req_file digest root_of l a).
Proof.
  intros * Hr Hi H Ha Hz Eb Ev. destruct (H (loc ses p)) as (Hv & Hb & _). rewrite Hb in Eb. rewrite Hv in Ev.
  destruct (ress (σ (loc ses p)) !! _) as [b'|] eqn:Eb'; [|done]. injection Eb as ->.
  destruct (vals (σ (loc ses p)) !! b) as [v'|] eqn:Ev'; [|done]. injection Ev as ->.
  destruct (run (execute data_prefix hash_of body guards_of ses (S n) p fn kw) σ μ) as [[σ' μ'] out] eqn:Er.
  pose proof (C115_answer_is_final _ _ _ _ _ (fun _ => True) _ _ _ _ _ _ _ Eb' Ev' (HNow _ _ _ _ _ _) ses p n μ _ _ _ Ha eq_refl Hz Er) as ->.
  destruct (C114_answered _ data_prefix hash_of body guards_of ses n p fn kw b σ μ Ha Hz Eb') as (σ2 & μ2 & o & Er2 & Hs). rewrite Er in Er2.
  injection Er2 as <- <- <-.
  destruct (frun digest root_of run_text (execute data_prefix hash_of body guards_of ses (S n) p fn kw) f μ) as [[f' μ3] o] eqn:Ef.
  destruct (C120_one_process _ _ _ _ _ _ _ _ _ _ _ _ _ _ _ Hr Hi H Ef Er) as (-> & -> & H'). exists f', μ'. split; [done|].
  intros l. destruct (Hs l) as (S1 & S2 & _), (H l) as (_ & H2 & H3 & _), (H' l) as (_ & H2' & H3' & _).
  split; intros a; [by rewrite H2, H2', S1|by rewrite H3, H3', S2].
Qed.
Print Assumptions C120_answered_from_files.
(** A call that returned, with no result file for it in any portal before: its result is on disk, its request is not, and the
    run history has its attempt, its result and its output. *)
Theorem C120_first_call :
  forall D digest root_of run_text data_prefix hash_of (body : fn_state -> list (string * arg D) -> prog) guards_of ses n p fn kw f σ μ f' μ' x,
  good_roots root_of -> (forall r r', run_text r = run_text r' -> r = r') ->
  holds digest root_of run_text f σ ->
  acceptable kw -> p < length (places ses) ->
  let a := call_addr data_prefix hash_of fn kw in let l := loc ses p in
  (forall q, q < length (places ses) -> f !! res_file digest root_of (loc ses q) a = None) ->
  frun digest root_of run_text (execute data_prefix hash_of body guards_of ses n p fn kw) f μ = (f', μ', Some (Ok x)) ->
  (exists b, f' !! res_file digest root_of l a = Some (CAddress b)) /\
  f' !! req_file digest root_of l a = None /\
  exists r, is_Some (f' !! hist_file digest root_of run_text l (HAttempt a r)) /\
            is_Some (f' !! hist_file digest root_of run_text l (HResult a r (addr_of_arg data_prefix hash_of x))) /\
            is_Some (f' !! hist_file digest root_of run_text l (HOutput a r)).
Proof.
  intros * Hr Hi H Ha Hp a l Hn Ef.
  destruct (run (execute data_prefix hash_of body guards_of ses n p fn kw) σ μ) as [[σ' μ2] out] eqn:Er.
  destruct (C120_one_process _ _ _ _ _ _ _ _ _ _ _ _ _ _ _ Hr Hi H Ef Er) as (<- & <- & H').
  assert (forall q, q < length (places ses) -> ress (σ (loc ses q)) !! a = None) as Hn'.
  { intros q Hq. specialize (Hn q Hq). destruct (H (loc ses q)) as (_ & H2 & _). rewrite H2 in Hn. by destruct (ress (σ (loc ses q)) !! a). }
  destruct (C114_executed _ _ _ _ _ _ _ _ _ _ _ _ _ _ _ Ha Hp Hn' Er) as (i0 & rec0 & Hh).
  destruct (H' l) as (_ & H2 & H3 & H4 & _).
  destruct (C114_call_effects _ _ _ _ _ _ _ _ _ _ _ _ _ _ _ Er) as [[Hs _]|(i & records & Hk & (rec' & ->) & Hq & [b Hb])].
  { exfalso. destruct (Hs l) as [_ Hs']. unfold l in Hs'. rewrite Hh in Hs'. apply (f_equal length) in Hs'. rewrite !app_length in Hs'. cbn in Hs'. lia. }
  split; [exists b; rewrite H2; unfold a, l; by rewrite Hb|]. split; [rewrite H3; by rewrite decide_False|].
  exists i. unfold l in *. split; [|split]; apply H4; rewrite Hk; set_solver.
Qed.
Print Assumptions C120_first_call.

(** ** Example: two portals at two directories; wrap("v") called in the first one. *)
Definition dir_of (l : nat) : settings := {| base_dir := ["home"; pretty l]; file_type := "pkl"; immutable := false; digest_len := 0; value_class := None |}.
Definition run_name (r : nat) : string := ("run" +:+ pretty r)%string.
Lemma dirs_good : good_roots dir_of.
Proof.
  split; [done|]. intros l l' Hne. split; intros [k E]; cbn in E; injection E as E _; apply (inj pretty) in E; by subst.
Qed.
Lemma run_name_inj r r' : run_name r = run_name r' -> r = r'.
Proof. unfold run_name. intros E. by apply (inj (String.append "run")), (inj pretty) in E. Qed.
Definition no_digest (n : nat) (s : string) : string := s.
Example wrap_files : exists f μ,
  frun no_digest dir_of run_name (execute demo_prefix demo_hash wrap_body (fun _ => []) (one_portal 0) 1 0 (demo_fn "wrap") (x_is "v")) ∅ fair
    = (f, μ, Some (Ok (AAddr (text_of demo_prefix demo_hash (VData "v"))))) /\
  size f = 8 /\
  let a := call_addr demo_prefix demo_hash (demo_fn "wrap") (x_is "v") in
  f !! (["home"; "0"; "execution_results"; fst a; snd a +:+ ".pkl"])%string = Some (CAddress (text_of demo_prefix demo_hash (VData "v"))).
Proof. do 2 eexists. split; [apply triple_out; by vm_compute|]. split; by vm_compute. Qed.
Example files_hypotheses_met : good_roots dir_of /\ (forall r r', run_name r = run_name r' -> r = r') /\
  holds (D := string) no_digest dir_of run_name ∅ (fun _ => empty_store).
Proof. split; [exact dirs_good|]. split; [exact run_name_inj|]. apply (empty_holds no_digest dir_of run_name). Qed.
