(** C83: swarm_grid and run_grid. *)
From Verif.Lib Require Import Py.
From Verif.Model Require Import PureAddr PureExec Grid.
From Verif.Spec Require Import PureAddrSpec PureExecSpec GridSpec.
From Verif.Proofs Require Import PureAddrP PureExecP PureExecSysP PureExecSeqP GridP.
From Verif.Properties Require Import P_PureAddr P_PureExec ExampleHash P_PureExecExamples.
From stdpp Require Import gmap sorting.
Local Open Scope nat_scope.

(** a grid as it is written: a dictionary of sequences *)
Definition written {X} (items : list (string * list X)) : list (string * gvalues X) := map (fun '(k, l) => (k, GSeq l)) items.

(** The list of argument dictionaries is exactly the list of all combinations, each once, in the order of the values, the
    alphabetically first parameter varying slowest; there are as many as the product of the numbers of values. *)
Theorem C83_combinations : forall X (items sorted : list (string * list X)), NoDup (map fst items) -> alphabetical items sorted ->
  Forall (fun x => snd x <> []) items ->
  exists kws, parameter_grid (written items) = Ok kws /\ all_combinations sorted kws /\ length kws = how_many items.
Proof.
  intros X items sorted Hn Ha Hne. unfold parameter_grid. rewrite (proj2 (check_ok (written items) items) (conj eq_refl Hne)). cbn.
  rewrite (sort_alphabetical items sorted Hn Ha). eexists. split; [done|]. split; [apply grid_combinations|].
  rewrite map_length, product_length, map_map. unfold how_many. destruct Ha as [Hp _]. clear -Hp. induction Hp; cbn; [done|lia|lia|lia].
Qed.
Print Assumptions C83_combinations.

(** swarm_grid: the addresses of these calls, in this order; each is then requested or available. *)
Theorem C83_swarm_grid :
  forall D (data_prefix : D -> string) hash_of, collision_free data_prefix hash_of ->
  forall σ ses shuffle1 p f items sorted μ σ' μ' out, stores_sound data_prefix hash_of σ -> (forall l, shuffle1 l ≡ₚ l) ->
  NoDup (map fst items) -> alphabetical items sorted -> Forall (fun x => snd x <> []) items ->
  run (swarm_grid data_prefix hash_of ses shuffle1 p f (written items)) σ μ = (σ', μ', Some (Ok out)) ->
  exists kws, all_combinations sorted kws /\ map fst out = map (call_addr data_prefix hash_of f) kws /\
  forall a, a ∈ map fst out -> a ∈ reqs (σ' (loc ses p)) \/ is_Some (ress (σ' (loc ses p)) !! a).
Proof.
  intros * CF * HS Hsh Hn Ha Hne Hr. destruct (C83_combinations _ items sorted Hn Ha Hne) as (kws & Hg & Hc & _).
  unfold swarm_grid in Hr. rewrite Hg in Hr. cbn in Hr. exists kws. split; [done|].
  exact (C48_swarm_list D data_prefix hash_of CF σ ses shuffle1 p f kws μ σ' μ' out HS Hsh Hr).
Qed.
Print Assumptions C83_swarm_grid.

(** run_grid: the same addresses; all are available afterwards. *)
Theorem C83_run_grid :
  forall D data_prefix hash_of (body : fn_state -> list (string * arg D) -> prog) guards_of,
  collision_free data_prefix hash_of -> (forall f kw, returns_values (body f kw)) ->
  forall σ ses shuffle1 shuffle2 n p f items sorted μ σ' μ' out, stores_sound data_prefix hash_of σ ->
  (forall l, shuffle1 l ≡ₚ l) -> (forall l, shuffle2 l ≡ₚ l) ->
  NoDup (map fst items) -> alphabetical items sorted -> Forall (fun x => snd x <> []) items ->
  run (run_grid data_prefix hash_of body guards_of ses shuffle1 shuffle2 n p f (written items)) σ μ = (σ', μ', Some (Ok out)) ->
  exists kws, all_combinations sorted kws /\ map fst out = map (call_addr data_prefix hash_of f) kws /\
  forall a, a ∈ map fst out -> is_Some (ress (σ' (loc ses p)) !! a).
Proof.
  intros * CF RV * HS Hs1 Hs2 Hn Ha Hne Hr. destruct (C83_combinations _ items sorted Hn Ha Hne) as (kws & Hg & Hc & _).
  unfold run_grid in Hr. rewrite Hg in Hr. cbn in Hr. exists kws. split; [done|].
  exact (C48_run_list D data_prefix hash_of body guards_of CF RV σ ses shuffle1 shuffle2 n p f kws μ σ' μ' out HS Hs1 Hs2 Hr).
Qed.
Print Assumptions C83_run_grid.

(** The combinations listed are exactly the argument dictionaries that give every parameter one of its values (up to the
    order of the keywords, which does not matter: C23). *)
Theorem C83_nothing_else_nothing_missing : forall X (items sorted : list (string * list X)) kws, NoDup (map fst items) ->
  alphabetical items sorted -> all_combinations sorted kws ->
  (forall kw, kw ∈ kws -> combination items kw) /\
  (forall kw, combination items kw -> exists kw', kw' ∈ kws /\ kw' ≡ₚ kw).
Proof. exact @combinations_complete. Qed.
Print Assumptions C83_nothing_else_nothing_missing.

(** The order in which the parameters are written makes no difference. *)
Theorem C83_parameter_order_irrelevant : forall X (items items' : list (string * list X)), NoDup (map fst items) -> items ≡ₚ items' ->
  Forall (fun x => snd x <> []) items -> parameter_grid (written items) = parameter_grid (written items').
Proof.
  intros X items items' Hn Hp Hne. unfold parameter_grid.
  rewrite (proj2 (check_ok (written items) items) (conj eq_refl Hne)).
  rewrite (proj2 (check_ok (written items') items')); [|split; [done|by rewrite <- Hp]]. cbn. by rewrite (sort_ext items items' Hn Hp).
Qed.
Print Assumptions C83_parameter_order_irrelevant.

(** A grid is refused exactly if some parameter's values are not a sequence or are empty; then nothing is stored or
    requested, by either function. *)
Theorem C83_refused :
  forall D data_prefix hash_of (body : fn_state -> list (string * arg D) -> prog) guards_of ses shuffle1 shuffle2 n p f g σ μ,
  ((exists k, (k, GOther) ∈ g \/ (k, GSeq []) ∈ g) <-> is_ok (parameter_grid g) = false) /\
  (is_ok (parameter_grid g) = false -> exists e,
    (e = TypeError /\ (exists k, (k, GOther) ∈ g) \/ e = ValueError /\ (exists k, (k, GSeq []) ∈ g)) /\
    run (swarm_grid data_prefix hash_of ses shuffle1 p f g) σ μ = (σ, μ, Some (Err e)) /\
    run (run_grid data_prefix hash_of body guards_of ses shuffle1 shuffle2 n p f g) σ μ = (σ, μ, Some (Err e))).
Proof.
  intros. unfold parameter_grid. split.
  - destruct (check_grid g) as [items|e] eqn:E; cbn.
    + split; [|done]. intros (k & H). apply check_ok in E as [-> Hf]. rewrite Forall_forall in Hf.
      destruct H as [H|H]; apply elem_of_list_fmap in H as ([k' l] & Heq & Hin); [done|]. injection Heq as -> <-. by destruct (Hf _ Hin).
    + split; [done|]. intros _. destruct (check_err g e E) as [[_ [k H]]|[_ [k H]]]; eauto.
  - intros H. destruct (check_grid g) as [items|e] eqn:E; cbn in H; [done|]. exists e. split; [|split].
    + destruct (check_err g e E) as [[-> H1]|[-> H1]]; [left|right]; done.
    + unfold swarm_grid, parameter_grid. by rewrite E.
    + unfold run_grid, parameter_grid. by rewrite E.
Qed.
Print Assumptions C83_refused.

(** With ordinary values swarm_grid succeeds; run_grid stores for every combination the value plain evaluation gives, or
    raises an exception that plain evaluation of one of the combinations gives. *)
Theorem C83_values :
  forall D data_prefix hash_of (body : fn_state -> list (string * arg D) -> prog) guards_of,
  collision_free data_prefix hash_of -> ordinary_functions data_prefix hash_of body guards_of ->
  forall σ ses shuffle1 shuffle2 n p f items sorted, stores_ordinary data_prefix hash_of body guards_of σ ->
  (forall l, shuffle1 l ≡ₚ l) -> (forall l, shuffle2 l ≡ₚ l) ->
  NoDup (map fst items) -> alphabetical items sorted -> Forall (fun x => snd x <> []) items ->
  (forall k l x, (k, l) ∈ items -> x ∈ l -> ordinary_value x) ->
  (forall μ, exists σ' μ' out, run (swarm_grid data_prefix hash_of ses shuffle1 p f (written items)) σ μ = (σ', μ', Some (Ok out))) /\
  (forall μ σ' μ' r, run (run_grid data_prefix hash_of body guards_of ses shuffle1 shuffle2 n p f (written items)) σ μ = (σ', μ', Some r) ->
   match r with
   | Ok out => forall kw, combination items kw -> exists v, evaluates data_prefix hash_of body guards_of f kw (Ok (AVal v)) /\
                 ress (σ' (loc ses p)) !! call_addr data_prefix hash_of f kw = Some (text_of data_prefix hash_of v)
   | Err e => exists kw, combination items kw /\ evaluates data_prefix hash_of body guards_of f kw (Err e)
   end).
Proof.
  intros * CF OF * HS Hs1 Hs2 Hn Ha Hne Ho. destruct (C83_combinations _ items sorted Hn Ha Hne) as (kws & Hg & Hc & _).
  destruct (C83_nothing_else_nothing_missing _ items sorted kws Hn Ha Hc) as [Hk1 Hk2].
  assert (Hord : forall kw, combination items kw -> ordinary_args kw).
  { intros kw [H1 H2]. split; [by rewrite H1|]. intros k x Hin. destruct (H2 k x Hin) as (l & H3 & H4). by eapply Ho. }
  assert (Hkw : Forall ordinary_args kws) by (apply Forall_forall; auto).
  assert (HI : Inv data_prefix hash_of body guards_of true σ) by (by apply Inv_ordinary).
  split.
  - intros μ. unfold swarm_grid. rewrite Hg. cbn.
    destruct (run (swarm_list data_prefix hash_of ses shuffle1 p f kws) σ μ) as [[σ' μ'] r] eqn:Hr.
    destruct (wp_here data_prefix hash_of CF body guards_of true _ (fun σ' r => exists m, r = Some (Ok m)) _ _ _ _ _ HI Hr) as ([m ->] & _); [|eauto].
    apply (swarm_list_spec data_prefix hash_of body guards_of CF true true ses OF); [done|done|done|]. intros σ1 [[m|e]|]; eauto; done.
  - intros μ σ' μ' r Hr. unfold run_grid in Hr. rewrite Hg in Hr. cbn in Hr. destruct r as [out|e].
    + destruct (wp_here data_prefix hash_of CF body guards_of true _ (fun σ' r => match r with
       | Some (Ok m) => Forall2 (elem_info data_prefix hash_of true ses σ' p f) kws m /\ (forall ac, ac ∈ m -> in_res σ' (loc ses p) ac.1)
       | _ => True end) _ _ _ _ _ HI Hr) as ([H1 H2] & HI' & _).
      { apply (run_list_spec data_prefix hash_of body guards_of CF true true ses OF); [done|done|done|done|]. intros σ1 [[m|e]|]; done. }
      intros kw Hkw'. destruct (Hk2 kw Hkw') as (kw' & Hin & Hp).
      assert (Hea : call_addr data_prefix hash_of f kw' = call_addr data_prefix hash_of f kw).
      { rewrite !call_addr_canonical by (apply ordinary_acceptable; apply Hord; auto). apply canonical_perm; [|done]. apply Hord; auto. }
      assert (Hres : in_res σ' (loc ses p) (call_addr data_prefix hash_of f kw)).
      { apply elem_of_list_lookup in Hin as [i Hi]. destruct (Forall2_lookup_l _ _ _ _ _ H1 Hi) as (ac & Hac & Hinfo).
        rewrite <- Hea. rewrite <- (proj1 Hinfo). apply H2. by eapply elem_of_list_lookup_2. }
      destruct Hres as [b Hb]. destruct (proj2 (proj2 (proj2 (proj2 HI')) eq_refl) _ f kw b (Hord _ Hkw') Hb) as (v & -> & He). eauto.
    + destruct (C48_run_list_exception D data_prefix hash_of body guards_of CF OF σ ses shuffle1 shuffle2 n p f kws μ σ' μ' e HS Hs1 Hs2 Hkw Hr) as (kw & Hin & He).
      exists kw. auto.
Qed.
Print Assumptions C83_values.

(** two parameters, written in the wrong order: x varies slowest *)
Example C83_example : let g := written [("y", [data "1"; data "2"]); ("x", [data "a"; data "b"])]%string in
  parameter_grid g = Ok [[("x", data "a"); ("y", data "1")]; [("x", data "a"); ("y", data "2")];
                         [("x", data "b"); ("y", data "1")]; [("x", data "b"); ("y", data "2")]]%string /\
  alphabetical [("y", [data "1"; data "2"]); ("x", [data "a"; data "b"])]%string [("x", [data "a"; data "b"]); ("y", [data "1"; data "2"])]%string.
Proof. split; [by vm_compute|]. split; [apply Permutation_swap|]. repeat constructor. Qed.
Example C83_run_example :
  match run (run_grid demo_prefix demo_hash demo_body demo_guards (one_portal 0) (@rev _) (fun l => l) 3 0 (demo_fn "shout") (written [("x"%string, [data "a"; data "b"])]))
    nothing_stored fair with
  | (σ, _, Some (Ok out)) => map fst out = [call_addr demo_prefix demo_hash (demo_fn "shout") (x_is "a"); call_addr demo_prefix demo_hash (demo_fn "shout") (x_is "b")]
  | _ => False
  end.
Proof. by vm_compute. Qed.
