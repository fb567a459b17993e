(** C116, C117, C118: where a portal keeps its data. *)
From Coq Require Import QArith.
From stdpp Require Import gmap.
From Verif Require Import Lib.Py Model.Portals Model.Layout Spec.LayoutSpec Proofs.LayoutP.
Local Open Scope nat_scope.

(** ** C116: every item has its own file *)
(** Whatever was given as root_dict: the stores have the documented directories, kinds of files and protection, and the parts
    of a key are used as they are.  Only the class that values must belong to is taken over from a given dictionary. *)
Theorem C116_settings : forall digest home a st,
  store_settings digest (root_dict home a) st =
  {| base_dir := match a with NoRoot => home | DirRoot p => p | DictRoot s => base_dir s end ++ [directory st];
     file_type := kind st;
     immutable := bool_decide (write_once st);
     digest_len := 0;
     value_class := if bool_decide (texts_only st) then Some "str"%string
                    else match a with DictRoot s => value_class s | _ => None end |}.
Proof. intros. rewrite settings_of by done. by destruct a. Qed.
Print Assumptions C116_settings.
(** Two items of a portal, of one store or of two, never have the same file; it is where one expects it. *)
Theorem C116_own_files : forall digest home a st st' k k', k <> [] -> k' <> [] ->
  file_of digest (store_settings digest (root_dict home a) st) k = file_of digest (store_settings digest (root_dict home a) st') k' ->
  st = st' /\ k = k'.
Proof. intros *. by apply file_inj. Qed.
Print Assumptions C116_own_files.
Theorem C116_file_name : forall digest home a st k x,
  file_of digest (store_settings digest (root_dict home a) st) (k ++ [x])
  = base_dir (root_dict home a) ++ [directory st] ++ k ++ [(x +:+ "." +:+ kind st)%string].
Proof. intros. rewrite file_path by done. rewrite item_path_snoc, map_id_part. done. Qed.
Print Assumptions C116_file_name.
(** An assignment or deletion changes its own item and nothing else: no other item of any store of the portal, *)
Theorem C116_one_item_at_a_time : forall V digest (belongs : V -> string -> bool) home a o f st k, k <> [] -> op_key o <> [] ->
  (st, k) <> (op_store o, op_key o) ->
  store_get digest (root_dict home a) st k (do_op digest belongs (root_dict home a) o f) = store_get digest (root_dict home a) st k f.
Proof.
  intros * Hk Ho Hne. unfold store_get, fd_get. rewrite op_other; [done|]. intros E. apply file_inj in E as [-> E]; [|done..].
  by rewrite E in Hne.
Qed.
Print Assumptions C116_one_item_at_a_time.
(** and no file outside of the directory of the store. *)
Theorem C116_inside_directory : forall V digest (belongs : V -> string -> bool) home a o f p,
  ~ (base_dir (root_dict home a) ++ [directory (op_store o)]) `prefix_of` p ->
  do_op digest belongs (root_dict home a) o f !! p = f !! p.
Proof. intros * Hp. apply op_other. intros ->. apply Hp. by apply file_below. Qed.
Print Assumptions C116_inside_directory.
(** What an assignment does: *)
Theorem C116_set : forall V digest (belongs : V -> string -> bool) home a st k v (f : gmap path V),
  let r := root_dict home a in
  let acceptable := match value_class (store_settings digest r st) with Some c => belongs v c = true | None => True end in
  let '(f', out) := store_set digest belongs r st k v f in
  (* a new item, or an item of a store that is not write-once, gets the value if the value has the right class *)
  (acceptable -> write_once st -> store_get digest r st k f = Err KeyError -> out = Ok tt /\ store_get digest r st k f' = Ok v) /\
  (acceptable -> ~ write_once st -> out = Ok tt /\ store_get digest r st k f' = Ok v) /\
  (* a present item of a write-once store stays as it is *)
  (forall w, write_once st -> store_get digest r st k f = Ok w -> f' = f) /\
  (* an error changes nothing *)
  (out <> Ok tt -> f' = f).
Proof.
  intros. unfold acceptable, r. destruct (store_set _ _ _ _ _ _ _) as [f' out] eqn:E. revert E. unfold store_set, store_get, fd_get, fd_set, fd_in.
  rewrite (settings_of digest (root_dict home a) st eq_refl). cbn [value_class immutable].
  set (s := Settings _ _ _ _ _). set (c := if bool_decide (texts_only st) then _ else _).
  assert (exists b, match c with Some c0 => negb (belongs v c0) | None => false end = b) as [b Hb] by eauto. rewrite Hb.
  assert (match c with Some c0 => belongs v c0 = true | None => True end -> b = false) as Hacc.
  { intros Ha. rewrite <- Hb. destruct c; [by rewrite Ha|done]. }
  destruct (f !! file_of digest s k) as [w|] eqn:Ef.
  - rewrite (bool_decide_eq_true_2 (is_Some (Some w))) by eauto.
    destruct (decide (write_once st)) as [Hw|Hw].
    + rewrite (bool_decide_eq_true_2 _ Hw). cbn [andb]. intros E.
      assert (f' = f) as -> by (destruct (first_entry st), b; congruence).
      repeat split; try done; intros; try done.
    + rewrite (bool_decide_eq_false_2 _ Hw). cbn [andb]. intros E. assert (first_entry st = false) as Hfe by (destruct st; cbn in *; tauto).
      rewrite Hfe in E. split; [done|]. split; [|split; [done|]].
      * intros Ha _. rewrite (Hacc Ha) in E. injection E as <- <-. by rewrite lookup_insert.
      * intros Ho. destruct b; injection E as <- <-; done.
  - rewrite (bool_decide_eq_false_2 (is_Some None)) by (by intros [? [=]]). rewrite andb_false_r.
    intros E. assert ((if b then (f, Err TypeError)
       else (<[file_of digest s k:=v]> f, Ok ())) = (f', out)) as E' by (destruct (first_entry st); done). clear E.
    split; [|split; [|split]].
    + intros Ha _ _. rewrite (Hacc Ha) in E'. injection E' as <- <-. by rewrite lookup_insert.
    + intros Ha _. rewrite (Hacc Ha) in E'. injection E' as <- <-. by rewrite lookup_insert.
    + done.
    + intros Ho. destruct b; injection E' as <- <-; done.
Qed.
Print Assumptions C116_set.
(** A second assignment to an item of a write-once store: values and execution results silently keep the first value,
    whatever is assigned; the logs and the run history refuse with an error. *)
Theorem C116_second_assignment : forall V digest (belongs : V -> string -> bool) home a st k v w (f : gmap path V),
  let r := root_dict home a in
  write_once st -> store_get digest r st k f = Ok w ->
  (st = ValueStore \/ st = ExecutionResults -> store_set digest belongs r st k v f = (f, Ok tt)) /\
  (st <> ValueStore -> st <> ExecutionResults -> exists e, store_set digest belongs r st k v f = (f, Err e)).
Proof.
  intros * Hw Hg. revert Hg. unfold r, store_set, store_get, fd_get, fd_set, fd_in.
  rewrite (settings_of digest (root_dict home a) st eq_refl). cbn [value_class immutable].
  rewrite (bool_decide_eq_true_2 _ Hw). set (s := Settings _ _ _ _ _).
  destruct (f !! file_of digest s k) as [x|] eqn:Ef; [|done]. intros _.
  rewrite (bool_decide_eq_true_2 (is_Some (Some x))) by eauto. cbn [andb]. split.
  - by intros [-> | ->].
  - intros H1 H2. destruct st; try done; cbn [first_entry]; destruct (match _ with Some _ => _ | None => _ end); eauto.
Qed.
Print Assumptions C116_second_assignment.
(** What a deletion does: items of write-once stores stay, others go. *)
Theorem C116_delete : forall V digest home a st k (f : gmap path V),
  let r := root_dict home a in
  let '(f', out) := store_del digest r st k f in
  (write_once st -> out = Err KeyError /\ f' = f) /\
  (forall v, ~ write_once st -> store_get digest r st k f = Ok v -> out = Ok tt /\ store_get digest r st k f' = Err KeyError) /\
  (out <> Ok tt -> f' = f).
Proof.
  intros. unfold r. destruct (store_del _ _ _ _ _) as [f' out] eqn:E. revert E. unfold store_del, store_get, fd_get, fd_del, fd_in.
  rewrite (settings_of digest (root_dict home a) st eq_refl). cbn [immutable]. set (s := Settings _ _ _ _ _).
  destruct (decide (write_once st)) as [Hw|Hw].
  - rewrite (bool_decide_eq_true_2 _ Hw). intros E. assert (f' = f /\ out = Err KeyError) as [-> ->] by (destruct (first_entry st); split; congruence). done.
  - rewrite (bool_decide_eq_false_2 _ Hw). assert (first_entry st = false) as -> by (destruct st; cbn in *; tauto).
    intros E. split; [done|]. destruct (f !! file_of digest s k) as [w|] eqn:Ef.
    + rewrite bool_decide_eq_true_2 in E by eauto. injection E as <- <-. split; [|done]. intros. split; [done|]. by rewrite lookup_delete.
    + rewrite bool_decide_eq_false_2 in E by (by intros [? [=]]). injection E as <- <-. split; [|done]. intros; done.
Qed.
Print Assumptions C116_delete.
(** Portals given the same directory, however it was given, share all items; *)
Theorem C116_same_directory : forall digest home home' a b st k,
  base_dir (root_dict home a) = base_dir (root_dict home' b) ->
  file_of digest (store_settings digest (root_dict home a) st) k = file_of digest (store_settings digest (root_dict home' b) st) k.
Proof. intros * E. by rewrite !file_path, E. Qed.
Print Assumptions C116_same_directory.
(** portals with separate directories share none: whatever one of them does, the other does not notice. *)
Theorem C116_separate_directories : forall V digest (belongs : V -> string -> bool) home home' a b o f st k,
  separate (base_dir (root_dict home a)) (base_dir (root_dict home' b)) ->
  store_get digest (root_dict home a) st k (do_op digest belongs (root_dict home' b) o f) = store_get digest (root_dict home a) st k f /\
  store_len digest (root_dict home a) st (do_op digest belongs (root_dict home' b) o f) = store_len digest (root_dict home a) st f.
Proof.
  intros * Hs. split.
  - unfold store_get, fd_get. rewrite op_other; [done|]. intros E. eapply separate_files; [exact Hs| |].
    + by apply (file_below_root digest _ st k).
    + rewrite E. by apply file_below_root.
  - apply store_len_ext; [done|]. intros p Hp. apply op_other. intros ->. eapply separate_files; [exact Hs|exact Hp|]. by apply file_below_root.
Qed.
Print Assumptions C116_separate_directories.
(** Items of write-once stores are final, whatever this and any number of other portals do afterwards, as long as no portal's
    directory is inside another's. *)
Theorem C116_final : forall V digest (belongs : V -> string -> bool) home a f f' st k v,
  let ok r := (exists home' b, r = root_dict home' b) /\ (base_dir r = base_dir (root_dict home a) \/ separate (base_dir (root_dict home a)) (base_dir r)) in
  k <> [] -> write_once st -> store_get digest (root_dict home a) st k f = Ok v ->
  by_portals digest belongs ok f f' -> store_get digest (root_dict home a) st k f' = Ok v.
Proof.
  intros * Hk Hw Hg Hb. induction Hb as [f|f f' r o Hb IH [[home' [b ->]] Hr]]; [done|]. specialize (IH Hg). clear Hg.
  unfold store_get, fd_get in IH |- *. set (p := file_of digest (store_settings digest (root_dict home a) st) k) in *.
  assert (f' !! p = Some v) as Hp by (destruct (f' !! p); [by injection IH as ->|done]). clear IH.
  destruct (decide (p = file_of digest (store_settings digest (root_dict home' b) (op_store o)) (op_key o))) as [E|E];
    [|rewrite op_other, Hp; done].
  destruct Hr as [Hr|Hr].
  - assert (op_store o = st) as Ho.
    { rewrite file_path in E by done. unfold p in E. rewrite file_path in E by done. rewrite Hr in E. apply app_inv_head in E.
      assert (directory st = directory (op_store o) /\ item_path id_part (kind st) k = item_path id_part (kind (op_store o)) (op_key o)) as [E1 E2] by (split; congruence).
      destruct (op_key o) as [|x k'] eqn:Ek.
      - destruct (rev_case k) as [->|(y & q & ->)]; [done|]. rewrite item_path_snoc in E2. destruct q as [|z q]; [|by destruct q].
        cbn in E2. injection E2 as E2. change ("." +:+ kind (op_store o))%string with ("" +:+ "." +:+ kind (op_store o))%string in E2.
        apply ending_inj in E2 as [_ E2]; [|apply kind_dot_free..]. symmetry. by apply same_kind_dir.
      - apply item_path_inj in E2 as [E2 _]; [|apply kind_dot_free..|done|done]. symmetry. by apply same_kind_dir. }
    rewrite E. subst st. rewrite (op_same digest belongs (root_dict home' b) o f' v); [done|done|done|]. by rewrite <- E.
  - exfalso. eapply (separate_files _ _ p Hr); [by apply file_below_root|]. rewrite E. by apply file_below_root.
Qed.
Print Assumptions C116_final.

(** The hypotheses are met, and that directories are not nested is needed: a portal in the directory of another portal's values
    overwrites one of them. *)
Definition plain_digest (n : nat) (s : string) : string := s.
Definition outer := root_dict ["home"] (DirRoot ["data"]).
Definition inner := root_dict ["home"] (DirRoot ["data"; "value_store"]).
Definition other := root_dict ["home"] NoRoot.
Definition all_values (v : string) (c : string) : bool := true.
Definition one_value : gmap path string := do_op plain_digest all_values outer (SetItem ValueStore ["execution_requests"; "k"] "v") ∅.
Example outer_has_it : store_get plain_digest outer ValueStore ["execution_requests"; "k"] one_value = Ok "v"%string.
Proof. by vm_compute. Qed.
Example other_is_separate : separate (base_dir outer) (base_dir other) /\ ["execution_requests"; "k"] <> [] /\ write_once ValueStore.
Proof. split; [|done]. split; intros [k [=]]. Qed.
Theorem C116_nested_directories_needed :
  store_get plain_digest outer ValueStore ["execution_requests"; "k"]
    (do_op plain_digest all_values inner (SetItem ExecutionRequests ["k"] "w") one_value) = Ok "w"%string.
Proof. by vm_compute. Qed.
(** A portal given a dictionary for values of one class cannot store other values, nor record events. *)
Theorem C116_class_of_values_inherited : forall V digest (belongs : V -> string -> bool) home s c st k v f,
  value_class s = Some c -> belongs v c = false -> ~ texts_only st -> store_get digest (root_dict home (DictRoot s)) st k f = Err KeyError ->
  store_set digest belongs (root_dict home (DictRoot s)) st k v f = (f, Err TypeError).
Proof.
  intros * Hc Hb Ht Hg. unfold store_set, fd_set. rewrite (settings_of digest (root_dict home (DictRoot s)) st eq_refl). cbn [value_class immutable].
  rewrite (bool_decide_eq_false_2 _ Ht). cbn [root_dict value_class]. rewrite Hc, Hb. cbn [negb].
  unfold store_get, fd_get in Hg. rewrite (settings_of digest (root_dict home (DictRoot s)) st eq_refl) in Hg.
  rewrite (bool_decide_eq_false_2 _ Ht) in Hg. cbn [root_dict value_class base_dir] in Hg |- *. rewrite Hc in Hg.
  destruct (first_entry st); [|done]. unfold fd_in. rewrite bool_decide_eq_false_2; [done|]. intros [w E]. by rewrite E in Hg.
Qed.
Print Assumptions C116_class_of_values_inherited.

(** ** C118: the counts shown by describe() *)
(** len(store), which describe() shows as "Values, total", "Cached execution results" and "Execution queue size", is the number
    of items in the store. *)
Theorem C118_counts_items : forall V digest home a st (f : gmap path V),
  exists keys, NoDup keys /\
    (forall k, k ∈ keys <-> k <> [] /\ exists v, store_get digest (root_dict home a) st k f = Ok v) /\
    store_len digest (root_dict home a) st f = length keys.
Proof.
  intros. destruct (store_len_keys digest (root_dict home a) st f eq_refl) as (ks & N & M & L). exists ks. split; [done|]. split; [|done].
  intros k. rewrite M. unfold store_get, fd_get. split; (intros [Hk Hv]; split; [done|]).
  - destruct Hv as [v ->]. eauto.
  - destruct Hv as [v Hv]. destruct (f !! _); [eauto|done].
Qed.
Print Assumptions C118_counts_items.
(** A new item adds one, a repeated assignment nothing, a deletion takes one away; the counts of the other stores stay. *)
Theorem C118_counts_change : forall V digest (belongs : V -> string -> bool) home a o (f : gmap path V) st, op_key o <> [] ->
  let r := root_dict home a in let f' := do_op digest belongs r o f in
  let present f := bool_decide (is_Some (f !! file_of digest (store_settings digest r (op_store o)) (op_key o))) in
  store_len digest r st f' + (if decide (st = op_store o) then Nat.b2n (present f) else 0)
  = store_len digest r st f + (if decide (st = op_store o) then Nat.b2n (present f') else 0).
Proof.
  intros * Hk. cbv zeta. set (r := root_dict home a). set (f' := do_op digest belongs r o f).
  destruct (store_len_keys digest r st f eq_refl) as (ks & N & M & ->). destruct (store_len_keys digest r st f' eq_refl) as (ks' & N' & M' & ->).
  set (p := file_of digest (store_settings digest r (op_store o)) (op_key o)).
  assert (forall q, q <> p -> f' !! q = f !! q) as Hq by (intros; by apply op_other).
  destruct (decide (st = op_store o)) as [->|Hn].
  - set (k := op_key o) in *.
    assert (forall l (g : gmap path V), NoDup l -> (forall k', k' ∈ l <-> k' <> [] /\ is_Some (g !! file_of digest (store_settings digest r (op_store o)) k')) ->
      length l = length (List.filter (fun k' => negb (bool_decide (k' = k))) l) + Nat.b2n (bool_decide (is_Some (g !! p)))) as Hl.
    { intros l g Hd Hm. assert (is_Some (g !! p) <-> k ∈ l) as Hp by (rewrite Hm; tauto). clear Hm.
      rewrite (bool_decide_ext _ _ Hp). clear Hp. induction l as [|x l IH]; [done|]. apply NoDup_cons in Hd as [Hx Hd]. cbn [List.filter length].
      rewrite (IH Hd). destruct (decide (x = k)) as [->|Hne].
      - rewrite (bool_decide_eq_true_2 (k = k)), (bool_decide_eq_false_2 (k ∈ l)), (bool_decide_eq_true_2 (k ∈ k :: l)) by (done || by left). cbn. lia.
      - rewrite (bool_decide_eq_false_2 (x = k)) by done. cbn [negb length]. rewrite (bool_decide_ext (k ∈ x :: l) (k ∈ l)); [lia|].
        rewrite elem_of_cons. split; [intros [->|]; done|by right]. }
    pose proof (Hl ks f N M) as L1. pose proof (Hl ks' f' N' M') as L2. clear Hl. unfold key in *.
    assert (length (List.filter (fun k' => negb (bool_decide (k' = k))) ks) = length (List.filter (fun k' => negb (bool_decide (k' = k))) ks')) as L3; [|lia].
    assert (forall l : list key, NoDup l -> NoDup (List.filter (fun k' => negb (bool_decide (k' = k))) l)) as Hf.
    { intros l. induction l as [|x l IH]; [done|]. intros Hd. apply NoDup_cons in Hd as [Hx Hd]. cbn [List.filter].
      destruct (negb _); [|auto]. apply NoDup_cons. split; [|auto]. rewrite elem_of_list_In, filter_In, <- elem_of_list_In. tauto. }
    apply Permutation_length, NoDup_Permutation; [auto..|]. intros k'. rewrite !elem_of_list_In, !filter_In, <- !elem_of_list_In, M, M'.
    rewrite negb_true_iff, bool_decide_eq_false. split; intros [[H1 H2] H3]; (split; [split; [done|]|done]); [rewrite Hq|rewrite <- Hq]; try done;
      intros E; apply file_inj in E as [_ E]; done.
  - rewrite !Nat.add_0_r. apply Permutation_length, NoDup_Permutation; [done..|]. intros k'. rewrite M, M'.
    split; (intros [H1 H2]; split; [done|]); [rewrite <- Hq|rewrite Hq]; try done; intros E; apply file_inj in E as [E _]; done.
Qed.
Print Assumptions C118_counts_change.
Example counts : map (fun st => store_len plain_digest outer st one_value) [ValueStore; ExecutionResults; ExecutionRequests] = [1; 0; 0].
Proof. by vm_compute. Qed.
(** In a directory inside another portal's, items are counted by both. *)
Theorem C118_nested_directories_needed :
  store_len plain_digest outer ValueStore (do_op plain_digest all_values inner (SetItem ExecutionResults ["k"] "w") one_value) = 2.
Proof. by vm_compute. Qed.

(** ** C117: a portal rebuilt from its parameters *)
(** A portal made from get_params() of a portal (of any class but DefaultLocalPortal) is the same portal: same class, same
    directory, same options; whatever the home directory and the random numbers are where it is made. *)
Theorem C117_rebuilt : forall home rid home' rid' registered c kw P,
  c <> DefaultLocalPortal -> registered c = true -> open home rid c kw = Ok P ->
  exists P', rebuild home' rid' registered P = Ok P' /\
    class P' = c /\ root P' = root P /\ checks P' = checks P /\ island P' = island P /\ workers P' = workers P /\
    (instance_of c SwarmingPortal = true -> runtime P' = runtime P) /\
    (forall draw, check_made (results_checks P') draw = check_made (results_checks P) draw) /\
    get_params P' = get_params P.
Proof.
  intros * Hc Hr. unfold open. destruct (takes c kw) eqn:Ht; [|done]. intros [= <-]. unfold rebuild. cbn [class]. rewrite Hr.
  destruct kw as [kr kc ki kn kt]. assert (forall q draw, check_made (Some 0%Q) draw = check_made None draw /\ check_made (Some q) draw = check_made (Some q) draw) as Hz by done.
  destruct c; try done; unfold takes in Ht; cbn [instance_of rank Nat.leb orb andb kw_root kw_checks kw_island kw_workers kw_runtime] in Ht;
    repeat rewrite ?andb_true_iff, ?bool_decide_eq_true in Ht; destruct_and?; simplify_eq; (eexists; split; [reflexivity|]); cbn;
    destruct kr as [[| |s]|]; cbn; repeat (split; try done); destruct kc as [[q|]|]; cbn; done.
Qed.
Print Assumptions C117_rebuilt.
(** What a constructor is given is what the portal gets (and get_params() shows, by the theorem above). *)
Theorem C117_given_arguments_count : forall home rid c kw P, open home rid c kw = Ok P -> class P = c /\
  (forall i, kw_island kw = Some i -> island P = i) /\ (forall n, kw_workers kw = Some n -> workers P = n) /\
  (forall q, kw_checks kw = Some (Some q) -> checks P = Some q /\ results_checks P = Some q) /\
  (forall dir, kw_root kw = Some (DirRoot dir) -> base_dir (root P) = dir) /\ (forall r, kw_runtime kw = Some (Some r) -> runtime P = r).
Proof.
  intros *. unfold open. destruct (takes c kw) eqn:Ht; [|done]. intros [= <-]. split; [done|]. destruct kw as [kr kc ki kn kt]. cbn in *.
  split; [by intros i ->|]. split; [by intros n ->|]. split; [|split; [by intros dir ->|by intros r ->]].
  intros q ->. split; [done|]. destruct c; try done. unfold takes in Ht. cbn in Ht. rewrite !andb_true_iff, !bool_decide_eq_true in Ht. by destruct Ht as [[[[_ Ht] _] _] _].
Qed.
Print Assumptions C117_given_arguments_count.
(** The portal of a background worker of a SwarmingPortal: the same stores and options, the identifier of its parent, no workers. *)
Theorem C117_worker : forall home rid home' rid' registered kw P,
  registered SwarmingPortal = true -> open home rid SwarmingPortal kw = Ok P ->
  exists W, worker_portal home' rid' registered P = Ok W /\
    class W = SwarmingPortal /\ root W = root P /\ island W = island P /\ checks W = checks P /\ runtime W = runtime P /\ workers W = 0%Z /\
    (forall digest st k, file_of digest (store_settings digest (root W) st) k = file_of digest (store_settings digest (root P) st) k).
Proof.
  intros * Hr. unfold open. destruct (takes SwarmingPortal kw) eqn:Ht; [|done]. intros [= <-]. unfold worker_portal. cbn [class]. rewrite Hr.
  destruct kw as [kr kc ki kn kt]. (eexists; split; [reflexivity|]). cbn. destruct kc as [[q|]|]; cbn; done.
Qed.
Print Assumptions C117_worker.
(** The full claim fails for the default portal: its constructor takes no parameters, so that it cannot be rebuilt, and none of
    the three background workers it starts ever gets a portal. *)
Theorem C117_default_portal_refuted : forall home rid home' rid' registered P,
  open home rid DefaultLocalPortal no_kwargs = Ok P ->
  workers P = 3%Z /\
  (forall P', rebuild home' rid' registered P <> Ok P') /\ (forall W, worker_portal home' rid' registered P <> Ok W).
Proof.
  intros * [= <-]. unfold rebuild, worker_portal. cbn [class]. split; [done|]. split; intros ?; destruct (registered _); done.
Qed.
Print Assumptions C117_default_portal_refuted.
Example island_and_checks_given : exists P, open ["home"] 7 SwarmingPortal (Kwargs (Some (DirRoot ["data"])) (Some (Some 1%Q)) (Some "Ithaca"%string) (Some 2%Z) (Some (Some 9))) = Ok P /\
  workers P = 2%Z /\ runtime P = 9 /\ base_dir (root P) = ["data"] /\ island P = "Ithaca"%string /\ checks P = Some 1%Q.
Proof. by eexists. Qed.
Example swarming_portal : exists P, open ["home"] 7 SwarmingPortal (Kwargs (Some (DirRoot ["data"])) None None (Some 2%Z) None) = Ok P /\
  workers P = 2%Z /\ runtime P = 7 /\ base_dir (root P) = ["data"] /\ island P = "Samos"%string.
Proof. by eexists. Qed.
