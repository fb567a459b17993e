(** C85: a result address leads back to its call. *)
From Verif.Lib Require Import Py.
From Verif.Model Require Import PureAddr PureExec AddrAccess.
From Verif.Spec Require Import PureAddrSpec PureExecSpec.
From Verif.Proofs Require Import PureAddrP PureExecP PureExecSysP PureExecSeqP AddrAccessP.
From Verif.Properties Require Import P_PureAddr P_PureExec ExampleHash P_PureExecExamples.
From stdpp Require Import gmap.
Local Open Scope nat_scope.

(** what an accessor returns; it changes no result, request or record *)
Definition tells {D X} (m : @M D X) (σ : state (D := D)) (x : X) : Prop :=
  forall μ, exists σ', run m σ μ = (σ', μ, Some (Ok x)) /\
    forall l, ress (σ' l) = ress (σ l) /\ reqs (σ' l) = reqs (σ l) /\ hist (σ' l) = hist (σ l) /\
      forall b v, vals (σ l) !! b = Some v -> vals (σ' l) !! b = Some v.

(** An address is made in some session by get_address (as swarm, run and every call do first).  At any later moment - after
    any operations of any processes, dying anywhere -, the address text read in any session that knows a portal over
    the same place, even through another portal q, gives back the function with its name, island and source, and the
    arguments of the call, sorted by name. *)
Theorem C85_address_leads_back :
  forall D data_prefix hash_of (body : fn_state -> list (string * arg D) -> prog) guards_of,
  collision_free data_prefix hash_of -> (forall f kw, returns_values (body f kw)) ->
  forall σ ses p f kw μ σ1 μ1 a cached, stores_sound data_prefix hash_of σ -> NoDup (map fst kw) ->
  run (get_address data_prefix hash_of ses p f kw) σ μ = (σ1, μ1, Some (Ok (a, cached))) ->
  forall σ2, history data_prefix hash_of body guards_of any_op σ1 σ2 ->
  forall ses2 q q0, q0 < length (places ses2) -> loc ses2 q0 = loc ses p ->
  tells (addr_function ses2 q a) σ2 f /\
  tells (addr_fn_name ses2 q a) σ2 (fn_name f) /\
  tells (addr_island_name ses2 q a) σ2 (island_name f) /\
  tells (addr_source ses2 q a) σ2 (fn_source f) /\
  ((forall k x, (k, x) ∈ kw -> exists v, x = AVal v) -> tells (addr_kwargs ses2 q a) σ2 (sort_keys kw)).
Proof.
  intros * CF RV * HS Hnd Hr σ2 Hh ses2 q q0 Hq0 Hl.
  assert (HI : Inv data_prefix hash_of body guards_of false σ) by (by apply Inv_sound).
  unfold get_address in Hr. rewrite run_pbind in Hr. destruct (sorted_kwargs kw) as [s|e] eqn:Es; [|done]. cbn [mres run] in Hr.
  pose proof (sorted_kwargs_ok _ _ Es) as ->.
  rewrite run_pbind in Hr. destruct (pack_run data_prefix hash_of CF ses p (sort_keys kw) σ μ (proj1 HS)) as (σ3 & E3 & C3 & S3). rewrite E3 in Hr.
  rewrite run_pbind in Hr. set (pk := pack data_prefix hash_of (sort_keys kw)) in *.
  assert (Hsk : sort_keys (as_args pk : list (string * arg D)) = as_args pk).
  { rewrite sort_as_args. f_equal. unfold pk. rewrite pack_sort. apply sort_sort. by rewrite keys_pack. }
  assert (Esk : sorted_kwargs (as_args pk : list (string * arg D)) = Ok (as_args pk)).
  { rewrite sorted_as_args. by rewrite <- sort_as_args, Hsk. }
  destruct (result_address_run data_prefix hash_of CF ses p f (as_args pk) (as_args pk) σ3 μ) as (σ4 & E4 & C4 & Hf & Hargs & Hsig & _).
  { by apply C3, (proj1 HS). }
  { done. }
  rewrite pack_as_args in *. rewrite E4 in Hr. cbn in Hr. injection Hr as <- _ <- _.
  assert (HI4 : Inv data_prefix hash_of body guards_of false σ4).
  { assert (Hr' : run (get_address data_prefix hash_of ses p f kw) σ μ = (σ4, μ, Some (Ok ((fn_name f ++ "_" ++ island_name f)%string, hash_of (VSig (fn_name f) (text_of data_prefix hash_of (VFn f)) (island_name f) (text_of data_prefix hash_of (VArgs pk))), as_args pk)))).
    { unfold get_address. rewrite run_pbind, Es. cbn [mres run]. rewrite run_pbind, E3. rewrite run_pbind. fold pk. by rewrite E4. }
    destruct (wp_here data_prefix hash_of CF body guards_of false _ (fun _ _ => True) _ _ _ _ _ HI Hr') as (_ & HI' & _); [|done].
    apply (get_address_spec data_prefix hash_of body guards_of CF false true ses RV p f kw kw); [done|by apply ordargs_refl|done]. }
  destruct (history_ok data_prefix hash_of CF body guards_of false any_op σ4 σ2 RV ltac:(done) HI4 Hh) as (HI2 & Hg & _).
  set (sg := VSig (fn_name f) (text_of data_prefix hash_of (VFn f)) (island_name f) (text_of data_prefix hash_of (VArgs pk))) in *.
  assert (Hheld : call_held data_prefix hash_of ses2 σ2 ((fn_name f ++ "_" ++ island_name f)%string, hash_of sg) f pk).
  { split; [apply HI2|]. split; [done|]. split; [|split]; exists q0; (split; [done|]); rewrite Hl; by apply Hg. }
  assert (Htells : forall X (m : @M D X) x, (forall μ, exists σ', run m σ2 μ = (σ', μ, Some (Ok x)) /\ copied data_prefix hash_of σ2 σ') -> tells m σ2 x).
  { intros X m x H μ0. destruct (H μ0) as (σ' & E & A & B & _). exists σ'. split; [done|]. intros l. destruct (B l) as (B1 & B2 & B3). auto. }
  split; [|split; [|split; [|split]]]; try (intros Hplain); apply Htells; intros μ0.
  - exact (load_function_run data_prefix hash_of CF ses2 q _ f pk σ2 μ0 Hheld).
  - exact (fn_name_run data_prefix hash_of CF ses2 q _ f pk σ2 μ0 Hheld).
  - unfold addr_island_name, addr_function. rewrite run_pbind. destruct (load_function_run data_prefix hash_of CF ses2 q _ f pk σ2 μ0 Hheld) as (σ' & -> & C). by exists σ'.
  - unfold addr_source, addr_function. rewrite run_pbind. destruct (load_function_run data_prefix hash_of CF ses2 q _ f pk σ2 μ0 Hheld) as (σ' & -> & C). by exists σ'.
  - unfold addr_kwargs, addr_arguments. rewrite run_pbind.
    destruct (load_arguments_run data_prefix hash_of CF ses2 q _ f pk σ2 μ0 Hheld) as (σ' & -> & C).
    destruct (unpack_run data_prefix hash_of CF ses2 q (sort_keys kw) σ' μ0) as (σ'' & E & C'); [by apply C, (proj1 Hheld)| |].
    { intros k x Hin. rewrite sort_perm in Hin. destruct (Hplain k x Hin) as [v ->]. exists v. split; [done|].
      exists q0. split; [done|]. rewrite Hl. apply C. apply Hg. apply C4. eapply (S3 k). by rewrite sort_perm. }
    exists σ''. split; [exact E|by eapply copied_trans].
Qed.
Print Assumptions C85_address_leads_back.

(** shout(x="hi") addressed at place 0; read in a session whose portal 1 is at place 0, through its portal 0 *)
Example C85_example :
  match run (get_address demo_prefix demo_hash (one_portal 0) 0 (demo_fn "shout") (x_is "hi")) nothing_stored fair with
  | (σ, _, Some (Ok (a, _))) =>
      out_of (run (addr_kwargs (Session [5; 0] (fun _ => None)) 0 a) σ fair) = Some (Ok (x_is "hi")) /\
      out_of (run (addr_function (Session [5; 0] (fun _ => None)) 0 a) σ fair) = Some (Ok (demo_fn "shout")) /\
      out_of (run (addr_function (Session [5] (fun _ => None)) 0 a) σ fair) = Some (Err KeyError)
  | _ => False
  end.
Proof. vm_compute. auto. Qed.
