(** C122: the directories of the portals after a power cut: any number of processes that share them, arbitrary functions, every
    process stopped after any of its accesses. *)
From Coq Require Import QArith String.
From stdpp Require Import gmap pretty.
From Verif.Lib Require Import Py.
From Verif.Model Require Import PureAddr PureExec Layout OnFiles.
From Verif.Spec Require Import PureAddrSpec PureExecSpec ConcSpec LayoutSpec OnFilesSpec.
From Verif.Proofs Require Import PureAddrP PureExecP PureExecSysP PureConcP LayoutP OnFilesP.
From Verif.Properties Require Import ExampleHash P_PureExec P_PureExecExamples P_Conc P_OnFiles.
Local Open Scope nat_scope.
Local Arguments val_file : simpl never.
Local Arguments signature_addr : simpl never.

Section Disk.
  Context {D : Type} (data_prefix : D -> string) (hash_of : value D -> string).
  Context (digest : nat -> string -> string) (root_of : nat -> settings) (run_text : nat -> string).
  Notation text_of := (PureAddr.text_of data_prefix hash_of).
  Notation val_file := (val_file digest root_of). Notation res_file := (res_file digest root_of).
  Notation req_file := (req_file digest root_of). Notation hist_file := (hist_file digest root_of run_text).
  (** What is found on the disk: *)
  Definition disk_in_order (f : gmap path (content (D := D))) : Prop :=
    (* a file of a value store holds the value that its name says; *)
    (forall l b c, f !! val_file l b = Some c -> exists v, c = CValue v /\ text_of v = b) /\
    (* a result file holds an address; there is a record of a run of this very call in some directory; and the value is in the
       same directory, unless the record is there too (the run returned an address); *)
    (forall l a c, f !! res_file l a = Some c -> exists b, c = CAddress b /\
       (exists l' r, is_Some (f !! hist_file l' (HResult a r b))) /\
       (is_Some (f !! val_file l b) \/ exists r, is_Some (f !! hist_file l (HResult a r b)))) /\
    (* a request file comes with the files of the signature, the function and the arguments of the call. *)
    (forall l a c, f !! req_file l a = Some c -> c = CTrue /\ exists fn packed,
       let s := VSig (fn_name fn) (text_of (VFn fn)) (island_name fn) (text_of (VArgs packed)) in
       a = (fn_name fn ++ "_" ++ island_name fn, snd (text_of s))%string /\
       f !! val_file l (signature_addr a) = Some (CValue s) /\
       f !! val_file l (text_of (VFn fn)) = Some (CValue (VFn fn)) /\
       f !! val_file l (text_of (VArgs packed)) = Some (CValue (VArgs packed))).
  Lemma held_in_order (f : gmap path (content (D := D))) (σ : @state D) : holds digest root_of run_text f σ -> consistent data_prefix hash_of σ -> disk_in_order f.
  Proof.
    intros H (HV & HQ & HE & HR). split; [|split].
    - intros l b c Hc. destruct (H l) as (H1 & _). rewrite H1 in Hc. destruct (vals (σ l) !! b) as [v|] eqn:Ev; [|done]. injection Hc as <-.
      exists v. split; [done|]. exact (HV l b v Ev).
    - intros l a c Hc. destruct (H l) as (H1 & H2 & _ & H4 & _). rewrite H2 in Hc. destruct (ress (σ l) !! a) as [b|] eqn:Eb; [|done].
      injection Hc as <-. exists b. split; [done|]. split.
      + destruct (HR l a b Eb) as (l' & r & Hr). exists l', r. destruct (H l') as (_ & _ & _ & H4' & _). exact (H4' _ Hr).
      + destruct (HE l a b Eb) as [[v Hv]|[r Hr]]; [left; rewrite H1, Hv; eauto|right; exists r; exact (H4 _ Hr)].
    - intros l a c Hc. destruct (H l) as (H1 & _ & H3 & _). rewrite H3 in Hc. destruct (decide _) as [Ha|]; [|done]. injection Hc as <-.
      split; [done|]. destruct (HQ l a Ha) as (fn & packed & Ea & V1 & V2 & V3). exists fn, packed. rewrite !H1, V1, V2, V3. done.
  Qed.
End Disk.

(** the files of the run history hold what the records say *)
Section HistFiles.
  Context {D : Type} (digest : nat -> string -> string) (root_of : nat -> settings) (run_text : nat -> string).
  Context (Hroots : good_roots root_of) (Hrun : forall r r', run_text r = run_text r' -> r = r').
  Definition hist_held (f : gmap path (content (D := D))) : Prop := forall l h c, f !! hist_file digest root_of run_text l h = Some c ->
    exists h', hist_file digest root_of run_text l h = hist_file digest root_of run_text l h' /\ c = hist_content h'.
  Lemma held_insert f p c : hist_held f -> (forall l h, p = hist_file digest root_of run_text l h -> exists h', p = hist_file digest root_of run_text l h' /\ c = hist_content h') ->
    hist_held (<[p := c]> f).
  Proof.
    intros H Hp l h c' E. destruct (decide (p = hist_file digest root_of run_text l h)) as [Ep|Hne].
    - subst p. rewrite lookup_insert in E. injection E as <-. exact (Hp l h eq_refl).
    - rewrite lookup_insert_ne in E by done. exact (H l h c' E).
  Qed.
  Lemma held_step e f μ : hist_held f -> hist_held (fperform digest root_of run_text e f μ).1.1.
  Proof.
    intros H. destruct e as [| |l b v| | |l a b| |l a|l a|l h| | | |]; cbn [fperform fst]; try done.
    - apply held_insert; [done|]. intros l' h E. by apply (val_hist digest root_of run_text Hroots) in E.
    - apply held_insert; [done|]. intros l' h E. by apply (res_hist digest root_of run_text Hroots) in E.
    - apply held_insert; [done|]. intros l' h E. by apply (req_hist digest root_of run_text Hroots) in E.
    - intros l' h c E. apply lookup_delete_Some in E as [_ E]. exact (H l' h c E).
    - apply held_insert; [done|]. intros l' h' E. destruct (hist_inj (D := D) digest root_of run_text Hroots Hrun _ _ _ _ E) as [<- _]. by exists h.
  Qed.
  Context (data_prefix : D -> string) (hash_of : value D -> string).
  Context (body : fn_state -> list (string * arg D) -> prog (D := D)) (guards_of : fn_state -> list (guard_fn (D := D))).
  Lemma held_run xs s : hist_held (fst s) -> hist_held (fst (fsys_run digest root_of run_text data_prefix hash_of body guards_of s xs)).
  Proof.
    revert s. induction xs as [|x xs IH]; intros s H; [done|]. unfold fsys_run. cbn [fold_left]. apply IH. clear IH.
    destruct s as [f ps]. destruct x as [j μ|i|l a]; cbn [fsys_step fst] in *; [done| |].
    - destruct (ps !! i) as [[j [y|e k] μ]|]; try done. pose proof (held_step e f μ H) as K.
      destruct (fperform digest root_of run_text e f μ) as [[f1 μ1] y]. exact K.
    - intros l' h c E. apply lookup_delete_Some in E as [_ E]. exact (H l' h c E).
  Qed.
  Lemma hist_file_held xs f ps : fsys_run digest root_of run_text data_prefix hash_of body guards_of (∅, []) xs = (f, ps) -> hist_held f.
  Proof.
    intros E. pose proof (held_run xs (∅, [])) as K. rewrite E in K. apply K. intros l h c X. cbn in X. by rewrite lookup_empty in X.
  Qed.
End HistFiles.

(** At every moment the directories are in order. *)
Theorem C122_disk_in_order : forall D digest root_of run_text data_prefix hash_of (body : fn_state -> list (string * arg D) -> prog) guards_of,
  good_roots root_of -> (forall r r', run_text r = run_text r' -> r = r') -> collision_free data_prefix hash_of ->
  forall xs, jobs_ok any_op xs ->
  disk_in_order data_prefix hash_of digest root_of run_text (fst (fsys_run digest root_of run_text data_prefix hash_of body guards_of (∅, []) xs)).
Proof.
  intros * Hr Hi CF xs Hx.
  destruct (fsys_run digest root_of run_text data_prefix hash_of body guards_of (∅, []) xs) as [f ps] eqn:E1.
  destruct (sys_run data_prefix hash_of body guards_of (fun _ => empty_store, []) xs) as [σ ps'] eqn:E2.
  destruct (C120_many_processes D digest root_of run_text data_prefix hash_of body guards_of xs f ps σ ps' Hr Hi E1 E2) as [_ H].
  apply (held_in_order data_prefix hash_of digest root_of run_text f σ H).
  assert (HI : consistent data_prefix hash_of (fun _ => empty_store (D := D))) by (split; [done|split; [intros l a Ha; by apply elem_of_empty in Ha|split; done]]).
  pose proof (C121_stores_stay_consistent D data_prefix hash_of body guards_of CF _ HI xs Hx) as K.
  destruct (sys_run _ _ _ _ _ xs) as [σ' qs] eqn:E3 in K. pose proof (eq_trans (eq_sym E3) E2) as E. by injection E as -> ->.
Qed.
Print Assumptions C122_disk_in_order.

(** Between any two moments: values on the disk stay as they are; results, and the records of runs, stay on the disk; a request
    disappears only when the result of the call is on the disk, or a user withdraws it. *)
Theorem C122_nothing_is_lost : forall D digest root_of run_text data_prefix hash_of (body : fn_state -> list (string * arg D) -> prog) guards_of,
  good_roots root_of -> (forall r r', run_text r = run_text r' -> r = r') -> collision_free data_prefix hash_of ->
  forall xs ys, jobs_ok any_op (xs ++ ys) ->
  let before := fst (fsys_run digest root_of run_text data_prefix hash_of body guards_of (∅, []) xs) in
  let later := fst (fsys_run digest root_of run_text data_prefix hash_of body guards_of (∅, []) (xs ++ ys)) in
  forall l,
  (forall b c, before !! val_file digest root_of l b = Some c -> later !! val_file digest root_of l b = Some c) /\
  (forall a, is_Some (before !! res_file digest root_of l a) -> is_Some (later !! res_file digest root_of l a)) /\
  (forall h, is_Some (before !! hist_file digest root_of run_text l h) -> is_Some (later !! hist_file digest root_of run_text l h)) /\
  (forall a, is_Some (before !! req_file digest root_of l a) -> UserDrop l a ∉ ys ->
     is_Some (later !! req_file digest root_of l a) \/ is_Some (later !! res_file digest root_of l a)).
Proof.
  intros * Hr Hi CF xs ys Hx before later l. subst before later.
  destruct (fsys_run digest root_of run_text data_prefix hash_of body guards_of (∅, []) xs) as [f1 ps1] eqn:E1.
  destruct (fsys_run digest root_of run_text data_prefix hash_of body guards_of (∅, []) (xs ++ ys)) as [f2 ps2] eqn:E2.
  destruct (sys_run data_prefix hash_of body guards_of (fun _ => empty_store, []) xs) as [σ1 qs1] eqn:E3.
  destruct (sys_run data_prefix hash_of body guards_of (fun _ => empty_store, []) (xs ++ ys)) as [σ2 qs2] eqn:E4.
  destruct (C120_many_processes D digest root_of run_text data_prefix hash_of body guards_of xs f1 ps1 σ1 qs1 Hr Hi E1 E3) as [_ H1].
  destruct (C120_many_processes D digest root_of run_text data_prefix hash_of body guards_of (xs ++ ys) f2 ps2 σ2 qs2 Hr Hi E2 E4) as [_ H2].
  assert (HI : consistent data_prefix hash_of (fun _ => empty_store (D := D))) by (split; [done|split; [intros l0 a Ha; by apply elem_of_empty in Ha|split; done]]).
  pose proof (C44_nothing_is_lost D data_prefix hash_of body guards_of CF _ HI xs ys Hx) as K. cbv zeta in K.
  destruct (sys_run _ _ _ _ _ xs) as [σ1' qs1'] eqn:E5 in K. pose proof (eq_trans (eq_sym E5) E3) as E. injection E as -> ->.
  unfold sys_run in E3, E4, K. rewrite fold_left_app in E4. pose proof (eq_trans (f_equal (fun s => fold_left _ ys s) (eq_sym E3)) E4) as E6.
  destruct (fold_left _ ys _) as [σ2' qs2'] eqn:E7 in K. pose proof (eq_trans (eq_sym E7) E6) as E. injection E as -> ->. cbn [fst] in *.
  destruct K as ((G1 & G2 & G3) & G4). destruct (H1 l) as (V1 & R1 & Q1 & A1 & B1), (H2 l) as (V2 & R2 & Q2 & A2 & B2).
  split; [|split; [|split]].
  - intros b c. rewrite V1, V2. destruct (vals (σ1 l) !! b) as [v|] eqn:Ev; [|done]. by rewrite (G1 l b v Ev).
  - intros a. rewrite R1, R2, !fmap_is_Some. apply G2.
  - intros h [c Hc]. destruct (hist_file_held digest root_of run_text Hr Hi data_prefix hash_of body guards_of xs f1 ps1 E1 l h c Hc) as (h' & Eh & ->).
    rewrite Eh in Hc |- *. apply B1 in Hc. apply A2. destruct (G3 l) as [k ->]. apply elem_of_app. by left.
  - intros a. rewrite Q1, Q2. destruct (decide (a ∈ reqs (σ1 l))) as [Ha|]; [|by intros [? [=]]]. intros _ Hd.
    destruct (G4 l a Ha Hd) as [K|K]; [left; rewrite decide_True by done; eauto|right; rewrite R2; by apply fmap_is_Some].
Qed.
Print Assumptions C122_nothing_is_lost.

(** A process that starts later finds the function and the arguments of every request in the directory of its portal. *)
Theorem C122_requests_can_be_resumed : forall D digest root_of run_text data_prefix hash_of (body : fn_state -> list (string * arg D) -> prog) guards_of,
  good_roots root_of -> (forall r r', run_text r = run_text r' -> r = r') -> collision_free data_prefix hash_of ->
  forall xs, jobs_ok any_op xs ->
  let f := fst (fsys_run digest root_of run_text data_prefix hash_of body guards_of (∅, []) xs) in
  forall ses p a μ, is_Some (f !! req_file digest root_of (loc ses p) a) ->
  exists fn packed,
    a = (fn_name fn ++ "_" ++ island_name fn,
         snd (text_of data_prefix hash_of (VSig (fn_name fn) (text_of data_prefix hash_of (VFn fn)) (island_name fn) (text_of data_prefix hash_of (VArgs packed)))))%string /\
    frun digest root_of run_text (load_function ses p a) f μ = (f, μ, Some (Ok fn)) /\
    frun digest root_of run_text (load_arguments ses p a) f μ = (f, μ, Some (Ok (as_args packed))).
Proof.
  intros * Hr Hi CF xs Hx f ses p a μ [c Hc].
  destruct (C122_disk_in_order D digest root_of run_text data_prefix hash_of body guards_of Hr Hi CF xs Hx) as (_ & _ & H).
  fold f in H. destruct (H (loc ses p) a c Hc) as (_ & fn & packed & Ea & V1 & V2 & V3). exists fn, packed. split; [exact Ea|].
  split.
  - unfold load_function, resolve. cbn. rewrite V1. cbn. rewrite V2. done.
  - unfold load_arguments, resolve. cbn. rewrite V1. cbn. rewrite V3. done.
Qed.
Print Assumptions C122_requests_can_be_resumed.

(** ** Example: the two directories of P_OnFiles.v; a process calls wrap("v") and is killed in the middle of it. *)
Definition cut_schedule (n : nat) : list (action (D := string)) :=
  Spawn (Job (one_portal 0) 0 3 (OCall (demo_fn "wrap") (x_is "v"))) fair :: repeat (Sched 0) n.
Definition cut (n : nat) := fst (fsys_run no_digest dir_of run_name demo_prefix demo_hash wrap_body (fun _ => []) (∅, []) (cut_schedule n)).
Example cut_anywhere : forall n, disk_in_order demo_prefix demo_hash no_digest dir_of run_name (cut n).
Proof.
  intros n. apply C122_disk_in_order; [exact dirs_good|exact run_name_inj|exact demo_collision_free|].
  intros j μ Hin. apply elem_of_cons in Hin as [Hin|Hin]; [injection Hin as -> _; split; exact I|]. by apply elem_of_list_In, repeat_spec in Hin.
Qed.
(** after 15 accesses the request is on the disk and the result is not; after 21 it is the other way round *)
Example cut_in_the_middle : let a := call_addr demo_prefix demo_hash (demo_fn "wrap") (x_is "v") in
  is_Some (cut 15 !! req_file no_digest dir_of 0 a) /\ cut 15 !! res_file no_digest dir_of 0 a = None /\
  cut 21 !! req_file no_digest dir_of 0 a = None /\ is_Some (cut 21 !! res_file no_digest dir_of 0 a).
Proof. split; [eexists; by vm_compute|]. split; [by vm_compute|]. split; [by vm_compute|]. eexists. by vm_compute. Qed.
