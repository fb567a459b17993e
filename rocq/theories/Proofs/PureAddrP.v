From Verif.Lib Require Import Py.
From Verif.Model Require Import PureAddr.
From Verif.Spec Require Import PureAddrSpec.
From stdpp Require Import sets sorting.
From Coq Require Import Ascii.

Local Arguments Nat.ltb : simpl never.
Local Arguments nat_of_ascii : simpl never.
Lemma str_le_refl a : str_le a a = true.
Proof. induction a as [|x a IH]; cbn; [done|]. by rewrite Nat.ltb_irrefl. Qed.
Lemma str_le_total a : forall b, str_le a b = true \/ str_le b a = true.
Proof.
  induction a as [|x a IH]; intros [|y b]; cbn; auto.
  destruct (Nat.ltb_spec (nat_of_ascii x) (nat_of_ascii y)); [by left|].
  destruct (Nat.ltb_spec (nat_of_ascii y) (nat_of_ascii x)); [by right|]. apply IH.
Qed.
Lemma str_le_antisym a : forall b, str_le a b = true -> str_le b a = true -> a = b.
Proof.
  induction a as [|x a IH]; intros [|y b]; cbn; try done.
  destruct (Nat.ltb_spec (nat_of_ascii x) (nat_of_ascii y)).
  - destruct (Nat.ltb_spec (nat_of_ascii y) (nat_of_ascii x)); [lia|]. done.
  - destruct (Nat.ltb_spec (nat_of_ascii y) (nat_of_ascii x)); [done|]. intros H1 H2. f_equal; [|by apply IH].
    assert (nat_of_ascii x = nat_of_ascii y) as E by lia. rewrite <- (ascii_nat_embedding x), <- (ascii_nat_embedding y). by rewrite E.
Qed.
Lemma str_le_trans a : forall b c, str_le a b = true -> str_le b c = true -> str_le a c = true.
Proof.
  induction a as [|x a IH]; intros [|y b] [|z c]; cbn; try done.
  destruct (Nat.ltb_spec (nat_of_ascii x) (nat_of_ascii y)).
  - destruct (Nat.ltb_spec (nat_of_ascii y) (nat_of_ascii z)).
    + intros _ _. destruct (Nat.ltb_spec (nat_of_ascii x) (nat_of_ascii z)); [done|lia].
    + destruct (Nat.ltb_spec (nat_of_ascii z) (nat_of_ascii y)); [done|]. intros _ _.
      destruct (Nat.ltb_spec (nat_of_ascii x) (nat_of_ascii z)); [done|lia].
  - destruct (Nat.ltb_spec (nat_of_ascii y) (nat_of_ascii x)); [done|]. intros Hab.
    destruct (Nat.ltb_spec (nat_of_ascii y) (nat_of_ascii z)).
    + intros _. destruct (Nat.ltb_spec (nat_of_ascii x) (nat_of_ascii z)); [done|lia].
    + destruct (Nat.ltb_spec (nat_of_ascii z) (nat_of_ascii y)); [done|]. intros Hbc.
      destruct (Nat.ltb_spec (nat_of_ascii x) (nat_of_ascii z)); [done|].
      destruct (Nat.ltb_spec (nat_of_ascii z) (nat_of_ascii x)); [lia|]. by eapply IH.
Qed.

Section Sort.
  Context {X : Type}.
  Implicit Types l : list (string * X).
  Definition kle (p q : string * X) : Prop := str_le p.1 q.1 = true.

  Lemma insert_perm k x l : insert_key k x l ≡ₚ (k, x) :: l.
  Proof.
    induction l as [|[k' x'] l IH]; cbn; [done|]. destruct (str_le k k'); [done|]. rewrite IH. constructor.
  Qed.
  Lemma sort_perm l : sort_keys l ≡ₚ l.
  Proof. induction l as [|[k x] l IH]; cbn [sort_keys fold_right]; [done|]. fold (sort_keys l). rewrite insert_perm. by constructor. Qed.
  Lemma insert_sorted k x l : StronglySorted kle l -> StronglySorted kle (insert_key k x l).
  Proof.
    induction l as [|[k' x'] l IH]; cbn; intros Hs; [repeat constructor|]. inversion Hs as [|? ? Hl Hf]; subst.
    destruct (str_le k k') eqn:E.
    - constructor; [done|]. constructor; [done|]. eapply Forall_impl; [exact Hf|]. intros [k2 x2] H2. unfold kle in *. cbn in *. by eapply str_le_trans.
    - constructor; [by apply IH|]. rewrite insert_perm. constructor; [|done]. unfold kle. cbn.
      destruct (str_le_total k k'); [congruence|done].
  Qed.
  Lemma sort_sorted l : StronglySorted kle (sort_keys l).
  Proof. induction l as [|[k x] l IH]; cbn [sort_keys fold_right]; [constructor|]. by apply insert_sorted. Qed.
  Lemma sorted_unique l1 : forall l2, StronglySorted kle l1 -> StronglySorted kle l2 -> NoDup (map fst l1) -> l1 ≡ₚ l2 -> l1 = l2.
  Proof.
    induction l1 as [|[k1 x1] l1 IH]; intros l2 H1 H2 Hn Hp; [by apply Permutation_nil in Hp|].
    destruct l2 as [|[k2 x2] l2]; [symmetry in Hp; by apply Permutation_nil in Hp|].
    inversion H1 as [|? ? Hl1 Hf1]; subst. inversion H2 as [|? ? Hl2 Hf2]; subst. cbn in Hn. inversion Hn as [|? ? Hk1 Hn1]; subst.
    assert (Hin1 : (k1, x1) ∈ (k2, x2) :: l2) by (rewrite <- Hp; set_solver).
    assert (Hin2 : (k2, x2) ∈ (k1, x1) :: l1) by (rewrite Hp; set_solver).
    assert (k1 = k2).
    { apply elem_of_cons in Hin1 as [[= -> ->]|Hin1]; [done|]. apply elem_of_cons in Hin2 as [[= -> ->]|Hin2]; [done|].
      rewrite Forall_forall in Hf1, Hf2. apply str_le_antisym; [apply (Hf1 _ Hin2)|apply (Hf2 _ Hin1)]. }
    subst k2. assert (x1 = x2).
    { apply elem_of_cons in Hin2 as [[= ->]|Hin2]; [done|]. exfalso. apply Hk1. apply elem_of_list_fmap. by exists (k1, x2). }
    subst x2. f_equal. apply IH; [done..|]. by apply Permutation_cons_inv in Hp.
  Qed.
  Lemma sort_ext l1 l2 : NoDup (map fst l1) -> l1 ≡ₚ l2 -> sort_keys l1 = sort_keys l2.
  Proof.
    intros Hn Hp. apply sorted_unique; [apply sort_sorted..| |by rewrite !sort_perm]. by rewrite sort_perm.
  Qed.
  Lemma sort_id l : StronglySorted kle l -> NoDup (map fst l) -> sort_keys l = l.
  Proof. intros Hs Hn. symmetry. apply sorted_unique; [done|apply sort_sorted|done|by rewrite sort_perm]. Qed.
End Sort.
Lemma sort_map {X Y} (f : X -> Y) (l : list (string * X)) :
  sort_keys (map (fun '(k, x) => (k, f x)) l) = map (fun '(k, x) => (k, f x)) (sort_keys l).
Proof.
  induction l as [|[k x] l IH]; cbn [sort_keys fold_right map]; [done|]. fold (sort_keys (map (fun '(k, x) => (k, f x)) l)).
  fold (sort_keys l). rewrite IH. generalize (sort_keys l) as m. induction m as [|[k' x'] m IHm]; cbn; [done|].
  destruct (str_le k k'); cbn; [done|]. by rewrite IHm.
Qed.

Section P.
  Context {D : Type} (data_prefix : D -> string) (hash_of : value D -> string).
  Notation text_of := (text_of data_prefix hash_of).
  Notation pack := (pack data_prefix hash_of).
  Notation get_address := (get_address data_prefix hash_of).
  Notation result_addr := (result_addr data_prefix hash_of).
  Notation addr_of_arg := (addr_of_arg data_prefix hash_of).
  Implicit Types (l : list (string * arg D)) (f : fn_state).

  Lemma keys_pack l : map fst (pack l) = map fst l.
  Proof. unfold pack. rewrite map_map. apply map_ext. by intros []. Qed.
  Lemma keys_as_args (m : list (string * addr)) : map fst (as_args m : list (string * arg D)) = map fst m.
  Proof. unfold as_args. rewrite map_map. apply map_ext. by intros []. Qed.
  Lemma pack_as_args (m : list (string * addr)) : pack (as_args m) = m.
  Proof. unfold pack, as_args. rewrite map_map. rewrite <- (map_id m) at 2. apply map_ext. by intros []. Qed.
  Lemma pack_sort l : pack (sort_keys l) = sort_keys (pack l).
  Proof. unfold pack. symmetry. apply (sort_map (fun x => addr_of_arg x)). Qed.
  Lemma sort_as_args (m : list (string * addr)) : sort_keys (as_args m : list (string * arg D)) = as_args (sort_keys m).
  Proof. apply (sort_map (fun a => AAddr a)). Qed.
  Lemma sort_sort {X} (m : list (string * X)) : NoDup (map fst m) -> sort_keys (sort_keys m) = sort_keys m.
  Proof. intros Hn. apply sort_id; [apply sort_sorted|by rewrite sort_perm]. Qed.

  Lemma sorted_kwargs_ok l s : sorted_kwargs l = Ok s -> s = sort_keys l.
  Proof. unfold sorted_kwargs. destruct (forallb _ l); [by intros [= <-]|done]. Qed.
  Lemma forallb_perm {X} (p : X -> bool) (a b : list X) : a ≡ₚ b -> forallb p a = forallb p b.
  Proof. induction 1; cbn; [done|by rewrite IHPermutation| |congruence]. destruct (p x), (p y); done. Qed.
  Lemma sorted_kwargs_perm l l' : NoDup (map fst l) -> l ≡ₚ l' -> sorted_kwargs l = sorted_kwargs l'.
  Proof.
    intros Hn Hp. unfold sorted_kwargs. rewrite (forallb_perm _ _ _ Hp). by rewrite (sort_ext l l').
  Qed.
  Lemma sorted_as_args (m : list (string * addr)) : sorted_kwargs (as_args m : list (string * arg D)) = Ok (as_args (sort_keys m)).
  Proof.
    unfold sorted_kwargs. rewrite sort_as_args.
    assert (forallb (fun '(_, x) => match x with AVal (VArgs _) => false | _ => true end) (as_args m : list (string * arg D)) = true) as ->; [|done].
    induction m as [|[]]; done.
  Qed.

  (** all routes: the address of the sorted packed arguments *)
  Definition canonical f l : addr :=
    ((fn_name f ++ "_" ++ island_name f)%string,
     hash_of (VSig (fn_name f) (text_of (VFn f)) (island_name f) (text_of (VArgs (sort_keys (pack l)))))).
  Lemma acceptable_sorted l : acceptable l -> sorted_kwargs l = Ok (sort_keys l).
  Proof.
    clear data_prefix hash_of. intros [_ Ha]. unfold sorted_kwargs. assert (forallb (fun '(_, x) => match x with AVal (VArgs _) => false | _ => true end) l = true) as ->; [|done].
    induction l as [|[k [[d|m|g|nm fa isl aa]|a|a]] l IH]; cbn; try (apply IH; set_solver); [done|]. exfalso. apply (Ha k m). left.
  Qed.
  Lemma result_addr_canonical f l : acceptable l -> result_addr f l = Ok (canonical f l).
  Proof. intros Ha. unfold result_addr. rewrite (acceptable_sorted l Ha). cbn. unfold canonical, call_signature. by rewrite pack_sort. Qed.
  Lemma get_address_canonical f l : acceptable l -> get_address f l = Ok (canonical f l).
  Proof.
    intros Ha. unfold get_address, result_addr. rewrite (acceptable_sorted l Ha). cbn [rbind]. rewrite sorted_as_args. cbn [rbind].
    unfold canonical, call_signature. rewrite pack_as_args, pack_sort, sort_sort; [done|]. rewrite keys_pack. apply Ha.
  Qed.
  Lemma canonical_perm f l l' : NoDup (map fst l) -> l ≡ₚ l' -> canonical f l = canonical f l'.
  Proof.
    intros Hn Hp. unfold canonical. rewrite (sort_ext (pack l) (pack l')); [done|by rewrite keys_pack|]. unfold pack. by rewrite Hp.
  Qed.

  Lemma unpack_pack resolve l : (forall k v, (k, AVal v) ∈ l -> resolve (text_of v) = Ok v) -> plain l ->
    unpack resolve (as_args (pack l)) = Ok l.
  Proof.
    intros Hr Hpl. induction l as [|[k x] l IH]; [done|]. destruct (Hpl k x) as [v ->]; [set_solver|].
    cbn [pack as_args map unpack PureAddr.addr_of_arg]. rewrite (Hr k v) by set_solver. cbn [rbind].
    change (map _ (map _ l)) with (as_args (D := D) (pack l)). rewrite IH; [done| |].
    - intros k' v' H'. apply (Hr k'). by right.
    - intros k' v' H'. apply (Hpl k'). by right.
  Qed.

  Hypothesis collision_free : forall v v', text_of v = text_of v' -> v = v'.
  Lemma sig_inj n fa i aa n' fa' i' aa' : hash_of (VSig n fa i aa) = hash_of (VSig n' fa' i' aa') ->
    n = n' /\ fa = fa' /\ i = i' /\ aa = aa'.
  Proof. intros Hh. assert ((VSig n fa i aa : value D) = VSig n' fa' i' aa') as [=]; [|done]. apply collision_free. unfold PureAddr.text_of. by rewrite Hh. Qed.
  Lemma canonical_inj f l f' l' : canonical f l = canonical f' l' -> f = f' /\ pack l ≡ₚ pack l'.
  Proof.
    unfold canonical. intros [= _ Hh]. apply sig_inj in Hh as (_ & Hf & _ & Ha).
    apply collision_free in Hf. apply collision_free in Ha. injection Hf as ->. injection Ha as Ha. split; [done|].
    rewrite <- (sort_perm (pack l)), <- (sort_perm (pack l')). by rewrite Ha.
  Qed.

  Lemma pack_inj_plain l l' : plain l -> plain l' -> pack l ≡ₚ pack l' -> l ≡ₚ l'.
  Proof.
    intros Hpl Hpl' Hp.
    set (g := fun '(k, x) => (k, addr_of_arg x) : string * addr) in *.
    assert (Hinj : forall p q, p ∈ l -> q ∈ l' -> g p = g q -> p = q).
    { intros [k x] [k' x'] H1 H2. destruct (Hpl _ _ H1) as [v ->], (Hpl' _ _ H2) as [v' ->]. cbn. intros E. injection E as -> E1 E2.
      f_equal. f_equal. apply collision_free. unfold PureAddr.text_of. by rewrite E1, E2. }
    unfold pack in Hp. fold g in Hp. clear Hpl Hpl'. revert l' Hp Hinj. induction l as [|p l IH]; intros l' Hp Hinj.
    - cbn in Hp. apply Permutation_nil in Hp. by apply map_eq_nil in Hp as ->.
    - cbn in Hp. assert (Hin : g p ∈ map g l') by (rewrite <- Hp; set_solver). apply elem_of_list_fmap in Hin as (q & Eq & Hq).
      assert (p = q) as <- by (apply Hinj; set_solver). apply elem_of_list_split in Hq as (l1 & l2 & ->).
      rewrite <- Permutation_middle. constructor. apply IH.
      + rewrite <- Permutation_middle in Hp. cbn in Hp. by apply Permutation_cons_inv in Hp.
      + intros a b Ha Hb. apply Hinj; [set_solver|]. rewrite elem_of_app in *. set_solver.
  Qed.

End P.
