(** C86: calls whose bodies see the same arguments share one stored result. *)
From Verif.Lib Require Import Py.
From Verif.Model Require Import PureAddr PureExec Ordinarity.
From Verif.Spec Require Import PureAddrSpec PureExecSpec OrdinaritySpec.
From Verif.Proofs Require Import PureAddrP OrdinarityP PureExecP PureExecSysP PureExecSeqP.
From Verif.Properties Require Import P_PureAddr P_PureExec ExampleHash P_PureExecExamples.
From Coq Require Import QArith.
From stdpp Require Import gmap.
Local Open Scope nat_scope.

(** what the body of a function with parameters [ps] sees of a call of the pure function (C78, C79: pure functions sort the
    keywords): None if Python refuses the call; for each parameter the given value, the word 'default', or the rest *)
Definition seen {V} (ps : list param) (kw : list (string * V)) : option (list (string * slot V)) :=
  match bind ps (sort_keys kw) with Ok b => Some b | Err _ => None end.
(** the values of the parameters, when the defaults are [dflt] *)
Definition value_in {V} (dflt : string -> V) (x : string * slot V) : string * slot V :=
  match x with (p, Default) => (p, Given (dflt p)) | _ => x end.

Lemma get_in {V} (kw : list (string * V)) k v : NoDup (map fst kw) -> dict_get k kw = Some v <-> (k, v) ∈ kw.
Proof.
  induction kw as [|[k' v'] kw IH]; cbn; intros Hn; [split; [done|by intros ?%elem_of_nil]|]. apply NoDup_cons in Hn as [Hx Hn].
  destruct (decide (k = k')) as [->|Hk]; rewrite elem_of_cons.
  - split; [intros [= ->]; auto|]. intros [[= ->]|H]; [done|]. destruct Hx. apply elem_of_list_fmap. by exists (k', v).
  - rewrite IH by done. split; [auto|]. intros [[= -> _]|H]; [done|auto].
Qed.
Lemma bound_sub {V} ps (kw kw' : list (string * V)) b : NoDup (map fst kw) -> NoDup (map fst kw') ->
  bind ps kw = Ok b -> bind ps kw' = Ok b -> forall k v, (k, v) ∈ kw -> (k, v) ∈ kw'.
Proof.
  intros Hn Hn' Hb Hb' k v Hin.
  destruct (bind_exact ps kw) as [[[_ Hf] E]|[_ E]]; rewrite E in Hb; [|done].
  destruct (bind_exact ps kw') as [[_ E']|[_ E']]; rewrite E' in Hb'; [|done].
  rewrite <- Hb' in Hb. injection Hb as Hb.
  assert (Hpt : forall p, p ∈ ps -> bound_value (unclaimed ps kw) kw p = bound_value (unclaimed ps kw') kw' p).
  { clear -Hb. revert Hb. generalize (unclaimed ps kw) (unclaimed ps kw'). intros r r' Hb p Hp.
    induction ps as [|p0 ps IH]; [by apply elem_of_nil in Hp|]. cbn in Hb. injection Hb as H1 H2. apply elem_of_cons in Hp as [->|Hp]; auto. }
  destruct (decide (k ∈ keyword_names ps)) as [Hk|Hk].
  - unfold keyword_names in Hk. apply elem_of_list_fmap in Hk as (p & -> & Hp). apply elem_of_list_In, filter_In in Hp as [Hp Hkp].
    apply elem_of_list_In in Hp. specialize (Hpt p Hp). unfold bound_value, by_keyword in *.
    rewrite (proj2 (get_in kw _ v Hn) Hin) in Hpt. apply (get_in kw' _ v Hn').
    destruct (p_kind p); try done; destruct (dict_get (p_name p) kw'); congruence.
  - destruct Hf as [Hf|(p & Hp & Hv)]; [by destruct Hk; eapply Hf|].
    specialize (Hpt p Hp). unfold bound_value in Hpt. rewrite Hv in Hpt. injection Hpt as Hpt.
    assert (H : (k, v) ∈ unclaimed ps kw).
    { unfold unclaimed. apply elem_of_list_In, filter_In. split; [by apply elem_of_list_In|]. cbn. by rewrite bool_decide_false. }
    rewrite Hpt in H. unfold unclaimed in H. by apply elem_of_list_In, filter_In, proj1, elem_of_list_In in H.
Qed.
Lemma seen_perm {V} ps (kw kw' : list (string * V)) b : NoDup (map fst kw) -> NoDup (map fst kw') ->
  seen ps kw = Some b -> seen ps kw' = Some b -> kw ≡ₚ kw'.
Proof.
  intros Hn Hn' Hb Hb'. unfold seen in *. destruct (bind ps (sort_keys kw)) eqn:E; [|done]. destruct (bind ps (sort_keys kw')) eqn:E'; [|done].
  injection Hb as ->. injection Hb' as ->.
  assert (Hm : NoDup (map fst (sort_keys kw))) by (by rewrite sort_perm). assert (Hm' : NoDup (map fst (sort_keys kw'))) by (by rewrite sort_perm).
  rewrite <- (sort_perm kw), <- (sort_perm kw'). apply NoDup_Permutation; [by eapply NoDup_fmap_1|by eapply NoDup_fmap_1|].
  intros [k v]. split; by apply (bound_sub ps _ _ b).
Qed.

(** Two accepted calls of one function have the same result address exactly if the body sees the same in both. *)
Theorem C86_same_address_iff_same_view : forall D data_prefix hash_of, collision_free data_prefix hash_of ->
  forall f ps (kw kw' : list (string * arg D)), acceptable kw -> acceptable kw' -> plain kw -> plain kw' ->
  seen ps kw <> None -> seen ps kw' <> None ->
  PureAddr.get_address data_prefix hash_of f kw = PureAddr.get_address data_prefix hash_of f kw' <-> seen ps kw = seen ps kw'.
Proof.
  intros * CF f ps kw kw' Ha Ha' Hp Hp' Hs Hs'. rewrite (C25_addresses_distinguish_calls _ _ _ CF f f kw kw' Ha Ha' Hp Hp'). split.
  - intros [_ H]. unfold seen. by rewrite (sort_ext kw kw') by (apply Ha || done).
  - intros H. split; [done|]. destruct (seen ps kw) as [b|] eqn:E; [|done]. apply (seen_perm ps kw kw' b); [apply Ha|apply Ha'|done|done].
Qed.
Print Assumptions C86_same_address_iff_same_view.
(** For functions without default values: exactly if the parameters have the same values.
    MISSING: with default values this fails, see below. *)
Theorem C86_same_values_share_partial : forall D data_prefix hash_of, collision_free data_prefix hash_of ->
  forall f ps (kw kw' : list (string * arg D)) dflt, acceptable kw -> acceptable kw' -> plain kw -> plain kw' ->
  (forall p, p ∈ ps -> p_default p = false) -> seen ps kw <> None -> seen ps kw' <> None ->
  PureAddr.get_address data_prefix hash_of f kw = PureAddr.get_address data_prefix hash_of f kw' <->
  map (value_in dflt) <$> seen ps kw = map (value_in dflt) <$> seen ps kw'.
Proof.
  intros * CF f ps kw kw' dflt Ha Ha' Hp Hp' Hd Hs Hs'. rewrite (C86_same_address_iff_same_view _ _ _ CF f ps kw kw' Ha Ha' Hp Hp' Hs Hs').
  assert (Hid : forall l b, seen ps l = Some b -> map (value_in dflt) b = b).
  { intros l b Hb. unfold seen in Hb. destruct (bind ps (sort_keys l)) as [b0|] eqn:E; [|done]. injection Hb as ->.
    destruct (bind_exact ps (sort_keys l)) as [[[Hr _] E']|[_ E']]; rewrite E' in E; [|done]. injection E as <-. rewrite map_map.
    apply map_ext_in. intros p Hin%elem_of_list_In. unfold value_in. destruct (bound_value _ _ p) eqn:Eb; try done. exfalso.
    unfold bound_value in Eb. destruct (Hr p Hin) as [Hk Hg]. { split; [by apply Hd|]. by destruct (p_kind p); try done. }
    unfold keyword_param in Hk. destruct (p_kind p); try (by destruct Hk); by destruct (dict_get _ _). }
  destruct (seen ps kw) as [b|] eqn:E; [|done]. destruct (seen ps kw') as [b'|] eqn:E'; [|done]. cbn.
  by rewrite (Hid kw b), (Hid kw' b').
Qed.
Print Assumptions C86_same_values_share_partial.
(** When a call has returned, then after any history every call that the body sees the same way returns the stored value
    in every session of a portal at that place (without consistency checks); no body runs, nothing is recorded. *)
Theorem C86_second_call_is_not_run :
  forall D data_prefix hash_of (body : fn_state -> list (string * arg D) -> prog) guards_of,
  collision_free data_prefix hash_of -> (forall f kw, returns_values (body f kw)) ->
  forall σ σ1 σ2 ses p n f ps kw kw' b μ μ1 x, stores_sound data_prefix hash_of σ ->
  acceptable kw -> acceptable kw' -> seen ps kw = Some b -> seen ps kw' = Some b ->
  run (execute data_prefix hash_of body guards_of ses n p f kw) σ μ = (σ1, μ1, Some (Ok x)) ->
  history data_prefix hash_of body guards_of any_op σ1 σ2 ->
  exists v, forall ses' p' n' μ', loc ses' p' = loc ses p -> (pcc ses' p' = None \/ exists q, pcc ses' p' = Some q /\ (q == 0)%Q) ->
  exists σ' μ'', run (execute data_prefix hash_of body guards_of ses' (S n') p' f kw') σ2 μ' = (σ', μ'', Some (Ok (AVal v))) /\
    (forall l', ress (σ' l') = ress (σ2 l') /\ reqs (σ' l') = reqs (σ2 l') /\ hist (σ' l') = hist (σ2 l')) /\
    (forall body' guards', run (execute data_prefix hash_of body' guards' ses' (S n') p' f kw') σ2 μ' = (σ', μ'', Some (Ok (AVal v)))).
Proof.
  intros * CF RV * HS Ha Ha' Hb Hb' Hr Hh.
  destruct (C41_success_is_stored D data_prefix hash_of body guards_of CF RV σ σ1 ses p n f kw μ μ1 x HS Hr) as (b0 & v & H1 & H2).
  assert (Hp : kw ≡ₚ kw') by (apply (seen_perm ps kw kw' b); [apply Ha|apply Ha'|done|done]).
  assert (Hc : call_addr data_prefix hash_of f kw = call_addr data_prefix hash_of f kw') by (unfold call_addr; by rewrite (proj1 (proj2 (C23_argument_order_irrelevant D data_prefix hash_of kw kw' f Ha Hp)))).
  rewrite Hc in H1. exists v. intros ses' p' n' μ' Hl Hz.
  assert (HS1 : stores_sound data_prefix hash_of σ1).
  { apply (Inv_sound _ _ body guards_of) in HS as HI.
    destruct (wp_here data_prefix hash_of CF body guards_of false _ (exec_post data_prefix hash_of body guards_of false true ses n p f kw kw) _ _ _ _ _ HI Hr) as (_ & HI' & _).
    { apply (execute_spec data_prefix hash_of body guards_of CF false true ses RV n p f kw kw); [done|by apply ordargs_refl|done]. }
    by apply Inv_sound in HI'. }
  destruct (C41_stored_result_is_returned D data_prefix hash_of body guards_of CF RV σ1 σ2 (loc ses p) f kw' b0 v HS1 Ha' H1 H2 Hh ses' p' n' μ' Hl Hz) as (σ' & μ'' & E1 & E2 & E3).
  exists σ', μ''. split; [done|]. split; [done|]. intros body' guards'. apply E3.
Qed.
Print Assumptions C86_second_call_is_not_run.
(** Giving the default value explicitly is another call: other address, so the body runs again and the result is stored
    twice. *)
Definition with_default : list param := [Param "x" PosOrKw true].
Theorem C86_explicit_default_refuted : forall D data_prefix hash_of, collision_free data_prefix hash_of ->
  forall f (d : value D), acceptable [("x"%string, AVal d)] ->
  map (value_in (fun _ => AVal d)) <$> seen with_default [] = map (value_in (fun _ => AVal d)) <$> seen with_default [("x"%string, AVal d)] /\
  seen with_default ([] : list (string * arg D)) <> None /\
  PureAddr.get_address data_prefix hash_of f [] <> PureAddr.get_address data_prefix hash_of f [("x"%string, AVal d)].
Proof.
  intros * CF f d Ha. split; [done|]. split; [done|]. intros E.
  apply (C86_same_address_iff_same_view _ _ _ CF f with_default) in E; try done.
  - split; [constructor|]. by intros k m ?%elem_of_nil.
  - by intros k x ?%elem_of_nil.
  - intros k x [= -> ->]%elem_of_list_singleton. eauto.
Qed.
Print Assumptions C86_explicit_default_refuted.
Example C86_example : let ps := [Param "x" PosOrKw false; Param "y" PosOrKw true; Param "rest" VarKw false] in
  let a d : arg string := AVal (VData d) in
  seen ps [("x", a "1"); ("u", a "2"); ("b", a "3")]%string = seen ps [("b", a "3"); ("x", a "1"); ("u", a "2")]%string /\
  seen ps [("x", a "1"); ("u", a "2"); ("b", a "3")]%string <> None /\
  seen ps [("x", a "1"); ("y", a "2")]%string <> seen ps [("x", a "1")]%string.
Proof. by vm_compute. Qed.
