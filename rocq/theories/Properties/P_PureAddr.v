(** C23 - C25: keyword arguments and result addresses.  [data_prefix], [hash_of]: the texts of HashAddr.v. *)
From Verif.Lib Require Import Py.
From Verif.Model Require Import PureAddr.
From Verif.Spec Require Import PureAddrSpec.
From Verif.Proofs Require Import PureAddrP.
From Coq Require Import Ascii.
From stdpp Require Import sets sorting countable.

(** C23: the order of keyword arguments never matters, for packing and for the result address of every route. *)
Theorem C23_argument_order_irrelevant : forall D data_prefix hash_of (l l' : list (string * arg D)) f,
  acceptable l -> l ≡ₚ l' ->
  sorted_kwargs l = sorted_kwargs l' /\
  get_address data_prefix hash_of f l = get_address data_prefix hash_of f l' /\
  call_address data_prefix hash_of f l = call_address data_prefix hash_of f l' /\
  list_address data_prefix hash_of f l = list_address data_prefix hash_of f l'.
Proof.
  intros * [Hn Ha] Hp. pose proof (sorted_kwargs_perm l l' Hn Hp) as Hs. split_and!; [done| | |].
  - unfold get_address. by rewrite Hs.
  - unfold call_address. by rewrite Hs.
  - unfold list_address, result_addr. by rewrite Hs.
Qed.
Print Assumptions C23_argument_order_irrelevant.
(** ... and the sorted arguments are the given ones in name order. *)
Theorem C23_sorted_by_name : forall D (l : list (string * arg D)), acceptable l ->
  exists s, sorted_kwargs l = Ok s /\ s ≡ₚ l /\ in_name_order s.
Proof.
  intros D l Ha. exists (sort_keys l). split; [by apply acceptable_sorted|]. split; [apply sort_perm|].
  intros i j p q Hi Hj Hij. pose proof (sort_sorted l) as Hs. destruct Ha as [Hn _].
  assert (Hn' : NoDup (map fst (sort_keys l))) by (by rewrite sort_perm).
  clear Hn. revert i j Hi Hj Hij. induction Hs as [|x m Hs IH Hf]; intros i j Hi Hj Hij; [done|].
  cbn in Hn'. inversion Hn' as [|? ? Hx Hm]; subst. destruct i as [|i].
  - destruct j as [|j]; [lia|]. cbn in *. injection Hi as ->. apply elem_of_list_lookup_2 in Hj. rewrite Forall_forall in Hf. split; [by apply Hf, elem_of_list_In|].
    intros E. apply Hx. rewrite E. apply elem_of_list_fmap. eauto.
  - destruct j as [|j]; [lia|]. cbn in *. apply (IH Hm i j); [done|done|lia].
Qed.
Print Assumptions C23_sorted_by_name.

(** C24: unpacking the packed arguments returns the original ones (in the order given to pack), whenever the addresses
    resolve to the stored values (C17). *)
Theorem C24_pack_unpack_round_trip : forall D data_prefix hash_of resolve (l : list (string * arg D)),
  plain l -> (forall k v, (k, AVal v) ∈ l -> resolve (text_of data_prefix hash_of v) = Ok v) ->
  unpack resolve (as_args (pack data_prefix hash_of l)) = Ok l.
Proof. intros * Hp Hr. by apply unpack_pack. Qed.
Print Assumptions C24_pack_unpack_round_trip.
(** packing packed arguments changes nothing *)
Theorem C24_pack_idempotent : forall D data_prefix hash_of (l : list (string * arg D)),
  pack data_prefix hash_of (as_args (pack data_prefix hash_of l)) = pack data_prefix hash_of l.
Proof. intros *. apply pack_as_args. Qed.
Print Assumptions C24_pack_idempotent.
(** a value and its address are the same argument *)
Theorem C24_value_or_address : forall D data_prefix hash_of (l l' : list (string * arg D)),
  same_args data_prefix hash_of l l' -> pack data_prefix hash_of l = pack data_prefix hash_of l'.
Proof. intros * Hs. induction Hs; [done| |]; unfold pack in *; cbn [map]; by rewrite IHHs. Qed.
Print Assumptions C24_value_or_address.
(** different arguments pack differently *)
Theorem C24_pack_injective : forall D data_prefix hash_of, collision_free data_prefix hash_of ->
  forall l l' : list (string * arg D), plain l -> plain l' ->
  pack data_prefix hash_of l ≡ₚ pack data_prefix hash_of l' -> l ≡ₚ l'.
Proof. intros * Hc l l'. by apply pack_inj_plain. Qed.
Print Assumptions C24_pack_injective.
(** Finding: the address of a call's RESULT does not stand for the result: it packs like the call's signature object. *)
Theorem C24_result_address_packs_as_signature : forall D data_prefix hash_of f (args : list (string * arg D)) a,
  acceptable args -> result_addr data_prefix hash_of f args = Ok a ->
  addr_of_arg data_prefix hash_of (AResult a) =
  addr_of_arg data_prefix hash_of (AVal (call_signature data_prefix hash_of f (sort_keys args))).
Proof. intros * Ha. unfold result_addr. rewrite (acceptable_sorted args Ha). cbn. by intros [= <-]. Qed.
Print Assumptions C24_result_address_packs_as_signature.

(** C25: all routes give the same address. *)
Theorem C25_all_routes_agree : forall D data_prefix hash_of f (l : list (string * arg D)), acceptable l ->
  exists a, get_address data_prefix hash_of f l = Ok a /\ swarm_address data_prefix hash_of f l = Ok a /\
    run_address data_prefix hash_of f l = Ok a /\ call_address data_prefix hash_of f l = Ok a /\
    list_address data_prefix hash_of f l = Ok a /\ result_addr data_prefix hash_of f l = Ok a /\
    (* the address constructor applied to already packed arguments *)
    result_addr data_prefix hash_of f (as_args (pack data_prefix hash_of l)) = Ok a.
Proof.
  intros * Ha. exists (canonical data_prefix hash_of f l).
  pose proof (get_address_canonical data_prefix hash_of f l Ha) as Hg. pose proof (result_addr_canonical data_prefix hash_of f l Ha) as Hr.
  split_and!; try done.
  assert (Ha' : acceptable (as_args (pack data_prefix hash_of l) : list (string * arg D))).
  { split; [rewrite keys_as_args, keys_pack; apply Ha|]. intros k m (x & Hx & _)%elem_of_list_fmap. destruct x. done. }
  rewrite (result_addr_canonical data_prefix hash_of f _ Ha'). unfold canonical. by rewrite pack_as_args.
Qed.
Print Assumptions C25_all_routes_agree.
(** C25: equal addresses only for equal functions (name, source, island, augmented source with guards and dependencies)
    and equal arguments. *)
Theorem C25_addresses_distinguish_calls : forall D data_prefix hash_of, collision_free data_prefix hash_of ->
  forall f f' (l l' : list (string * arg D)), acceptable l -> acceptable l' -> plain l -> plain l' ->
  get_address data_prefix hash_of f l = get_address data_prefix hash_of f' l' <-> f = f' /\ l ≡ₚ l'.
Proof.
  intros * Hc f f' l l' Ha Ha' Hp Hp'. rewrite !get_address_canonical by done. split.
  - intros [= E1 E2]. assert (canonical data_prefix hash_of f l = canonical data_prefix hash_of f' l') as E by (unfold canonical; congruence).
    apply canonical_inj in E as [-> E]; [|done]. split; [done|]. by eapply pack_inj_plain.
  - intros [-> Hl]. f_equal. apply canonical_perm; [apply Ha|done].
Qed.
Print Assumptions C25_addresses_distinguish_calls.

(** The hypotheses are satisfiable: a collision-free hash exists, for instance on string data.  (Values are encoded as
    trees, trees as positive numbers, numbers as binary digits.) *)
Definition fn_tree (f : fn_state) : string * string * string * string * bool * option (list string) :=
  (fn_name f, fn_source f, island_name f, augmented f, strictly_autonomous f, guards f).
Definition value_code (v : value string) : string + (list (string * addr)) +
    (string * string * string * string * bool * option (list string)) + (string * addr * string * addr) :=
  match v with VData d => inl (inl (inl d)) | VArgs l => inl (inl (inr l)) | VFn f => inl (inr (fn_tree f))
  | VSig a b c d => inr (a, b, c, d) end.
Fixpoint digits (p : positive) : string :=
  match p with xH => "" | xO p => String "0"%char (digits p) | xI p => String "1"%char (digits p) end.
Lemma digits_inj p : forall q, digits p = digits q -> p = q.
Proof. induction p; intros []; cbn; intros [=]; f_equal; auto. Qed.
Example C25_collision_free_hash_exists :
  collision_free (fun d : string => "str"%string) (fun v => digits (encode (value_code v))).
Proof.
  intros v v' [= _ E]. apply digits_inj, (inj encode) in E.
  destruct v as [| |[]|], v' as [| |[]|]; cbn in E; unfold fn_tree in E; cbn in E; congruence.
Qed.
Definition show_addr (a : addr) : string := (String.append (fst a) (String.append "/" (snd a))).
Example C25_example :
  let f := FnState "f" "def f(x,y): ..." "isl" "" true None in
  let h := fun v : value string => match v with
     | VData d => d | VArgs l => String.concat "," (map (fun '(k, a) => String.append k (show_addr a)) l)
     | VFn g => fn_source g | VSig n fa i aa => String.concat ";" [n; show_addr fa; i; show_addr aa] end in
  let args := [("y", AVal (VData "1")); ("x", AAddr ("str", "2"))]%string in
  let args' := [("x", AVal (VData "2")); ("y", AVal (VData "1"))]%string in
  acceptable args /\ get_address (fun _ => "str"%string) h f args = get_address (fun _ => "str"%string) h f args'
  /\ get_address (fun _ => "str"%string) h f args
     = Ok ("f_isl", "f;purefn/def f(x,y): ...;isl;sortedkwargs/xstr/2,ystr/1")%string.
Proof.
  cbn zeta. split; [|by vm_compute]. split; [repeat constructor; set_solver|]. intros k m H. set_solver.
Qed.
Example C24_example : let l := [("b", AVal (VData 1)); ("a", AVal (VData 2))]%string in
  plain l /\ acceptable l /\ sorted_kwargs l = Ok [("a", AVal (VData 2)); ("b", AVal (VData 1))]%string.
Proof.
  cbn zeta. split; [intros k x; set_solver|]. split; [|done]. split; [repeat constructor; set_solver|]. intros k m H. set_solver.
Qed.
