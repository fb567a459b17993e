(** Registration of functions: what each operation does to the session. *)
From Coq Require Import String Sorted.
From stdpp Require Import gmap.
From Verif Require Import Lib.Py Lib.DictLemmas Model.PyAst Model.Normalizer Model.NamesAnalyzer Model.CallGraph Model.Registry.
From Verif.Model Require PureAddr.
From Verif.Spec Require Import CallGraphSpec RegistrySpec.
From Verif.Proofs Require Import PureAddrP CallGraphP.
Local Open Scope nat_scope.

(** ** sorted *)
Definition sle (a b : string) : Prop := PureAddr.str_le a b = true.
Lemma insert_str_perm x l : insert_str x l ≡ₚ x :: l.
Proof. induction l as [|y l IH]; cbn; [done|]. destruct (PureAddr.str_le x y); [done|]. rewrite IH. constructor. Qed.
Lemma sorted_perm l : sorted l ≡ₚ l.
Proof. induction l as [|x l IH]; cbn; [done|]. by rewrite insert_str_perm, IH. Qed.
Lemma elem_of_sorted x l : x ∈ sorted l <-> x ∈ l.
Proof. by rewrite sorted_perm. Qed.
Lemma insert_str_sorted x l : StronglySorted sle l -> StronglySorted sle (insert_str x l).
Proof.
  induction 1 as [|y l Hs IH Hf]; cbn; [repeat constructor|].
  destruct (PureAddr.str_le x y) eqn:E.
  - constructor; [by constructor|]. constructor; [done|]. eapply Forall_impl; [exact Hf|]. intros z Hz. by eapply str_le_trans.
  - constructor; [done|]. rewrite insert_str_perm. constructor; [|done].
    destruct (str_le_total x y) as [H'|H']; [congruence|exact H'].
Qed.
Lemma sorted_sorted l : StronglySorted sle (sorted l).
Proof. induction l as [|x l IH]; cbn; [constructor|]. by apply insert_str_sorted. Qed.
Lemma sorted_unique l1 : forall l2, StronglySorted sle l1 -> StronglySorted sle l2 -> l1 ≡ₚ l2 -> l1 = l2.
Proof.
  induction l1 as [|x l1 IH]; intros l2 H1 H2 P.
  - by apply Permutation_nil in P.
  - destruct l2 as [|y l2]; [by apply Permutation_sym, Permutation_nil in P|].
    inversion H1 as [|? ? Hs1 Hf1]; subst. inversion H2 as [|? ? Hs2 Hf2]; subst.
    assert (x = y).
    { assert (Hx : x ∈ y :: l2) by (rewrite <- P; left). assert (Hy : y ∈ x :: l1) by (rewrite P; left).
      apply elem_of_cons in Hx as [?|Hx]; [done|]. apply elem_of_cons in Hy as [?|Hy]; [done|].
      rewrite Forall_forall in Hf1, Hf2. apply str_le_antisym; [exact (Hf1 _ Hy)|exact (Hf2 _ Hx)]. }
    subst y. f_equal. apply IH; [done..|]. by apply Permutation_cons_inv in P.
Qed.
Lemma sorted_ext l1 l2 : l1 ≡ₚ l2 -> sorted l1 = sorted l2.
Proof. intros P. apply sorted_unique; [apply sorted_sorted..|]. by rewrite !sorted_perm. Qed.
Lemma sorted_idemp l : sorted (sorted l) = sorted l.
Proof. apply sorted_ext, sorted_perm. Qed.

(** ** reading the monad *)
Lemma bnd_ok {A B} (m : M A) (k : A -> M B) s s' b : bnd m k s = (s', Ok b) -> exists s1 a, m s = (s1, Ok a) /\ k a s1 = (s', Ok b).
Proof. unfold bnd. destruct (m s) as [s1 [a|e]]; [|done]. intros H. by exists s1, a. Qed.
Lemma bnd_get {B} i (k : fnobj -> M B) s o : heap s !! i = Some o -> bnd (get i) k s = k o s.
Proof. unfold bnd, get. by intros ->. Qed.
Lemma bnd_put {B} i f (k : unit -> M B) s : bnd (put i f) k s = k tt (St (alter f i (heap s)) (known s)).
Proof. done. Qed.
Lemma bnd_ret {A B} (a : A) (k : A -> M B) s : bnd (ret a) k s = k a s.
Proof. done. Qed.
Lemma bnd_raise {A B} e (k : A -> M B) s : bnd (raise e) k s = (s, Err e).
Proof. done. Qed.
Lemma bnd_island {B} key (k : option (dict string nat) -> M B) s : bnd (island_of key) k s = k (dict_get key (known s)) s.
Proof. done. Qed.
Lemma bnd_set_island {B} key d (k : unit -> M B) s : bnd (set_island key d) k s = k tt (St (heap s) (dict_set key d (known s))).
Proof. done. Qed.
Lemma bnd_lift {A B} (r : res A) (k : A -> M B) s : bnd (lift r) k s = match r with Ok a => k a s | Err e => (s, Err e) end.
Proof. unfold bnd, lift. by destruct r. Qed.
Lemma bnd_check {B} c (k : unit -> M B) s : bnd (check c) k s = if c then k tt s else (s, Err AssertionError).
Proof. unfold check. rewrite bnd_lift. by destruct c. Qed.
Lemma bnd_assoc {A B C} (m : M A) (f : A -> M B) (g : B -> M C) s : bnd (bnd m f) g s = bnd m (fun a => bnd (f a) g) s.
Proof. unfold bnd. destruct (m s) as [s1 [a|e]]; done. Qed.
Lemma bnd_alloc {B} o (k : nat -> M B) s : bnd (alloc o) k s = k (List.length (heap s)) (St (heap s ++ [o]) (known s)).
Proof. done. Qed.

Ltac ms := repeat (first [rewrite bnd_assoc | rewrite bnd_ret | rewrite bnd_raise | rewrite bnd_put | rewrite bnd_island
  | rewrite bnd_set_island | rewrite bnd_lift | rewrite bnd_check | rewrite bnd_alloc]; cbn beta iota; cbn [heap known]).

(** the functions of an island *)
Definition enrolled (s : st) (j : nat) : Prop := exists k n, reg s k n = Some j.

Lemma alter_eq_insert {A} (l : list A) i (f : A -> A) x : l !! i = Some x -> alter f i l = <[i := f x]> l.
Proof. revert i. induction l as [|y l IH]; intros [|i] H; cbn in *; try done; [by injection H as ->|]. f_equal. by apply IH. Qed.

(** update, as a function of the two objects *)
Definition finish (m o : fnobj) : fnobj * res unit :=
  match o_kind m with
  | Aut => (m, Ok tt)
  | Pure => match o_kind o with
            | Aut => (m, Err AttributeError)
            | Pure => (set_aug (o_aug o) (set_guards (o_guards o) m), Ok tt)
            end
  end.
Definition upd (me o : fnobj) : fnobj * res unit :=
  let m1 := set_names (o_src o) (o_name o) me in
  if o_full o then
    match o_code o with
    | None => (m1, Err AttributeError)
    | Some c =>
        let m2 := set_place (o_island o) (o_strict o) (set_full true (set_code (Some c) m1)) in
        match o_deps o with
        | None => (m2, Err AttributeError)
        | Some d => finish (set_deps (Some d) m2) o
        end
    end
  else finish (set_place (o_island o) (o_strict o) m1) o.

Lemma list_insert_insert' {A} (l : list A) i x y : <[i := x]> (<[i := y]> l) = <[i := x]> l.
Proof. apply list_insert_insert. Qed.
Lemma alter_insert' {A} (l : list A) i (f : A -> A) x : alter f i (<[i := x]> l) = <[i := f x]> l.
Proof. revert i. induction l as [|y l IH]; intros [|i]; cbn; try done. f_equal. apply IH. Qed.

Lemma update_run s self other me o : heap s !! self = Some me -> heap s !! other = Some o -> self <> other ->
  update self other s = (St (<[self := (upd me o).1]> (heap s)) (known s), (upd me o).2).
Proof.
  intros Hm Ho Hne. unfold update. rewrite (bnd_get other _ s o Ho). rewrite bnd_put. cbn [heap known].
  rewrite (alter_eq_insert _ _ _ me Hm).
  assert (Hlt : self < List.length (heap s)) by (by apply lookup_lt_Some in Hm).
  unfold upd, finish. destruct (o_full o).
  - destruct (o_code o) as [c|]; cbn [or_raise]; ms; [|done]. rewrite !alter_insert'.
    destruct (o_deps o) as [d|]; cbn [or_raise]; ms; [|done]. rewrite alter_insert'.
    erewrite bnd_get by (cbn [heap]; by apply list_lookup_insert).
    destruct me as [kd ? ? ? ? ? ? ? ? ? ?]. cbn [o_kind set_deps set_place set_full set_code set_names].
    destruct kd; [done|]. destruct (o_kind o); [done|]. ms. unfold put. cbn [heap known]. by rewrite !alter_insert'.
  - ms. rewrite alter_insert'.
    erewrite bnd_get by (cbn [heap]; by apply list_lookup_insert).
    destruct me as [kd ? ? ? ? ? ? ? ? ? ?]. cbn [o_kind set_deps set_place set_full set_code set_names].
    destruct kd; [done|]. destruct (o_kind o); [done|]. ms. unfold put. cbn [heap known]. by rewrite !alter_insert'.
Qed.

Definition wf_known (s : st) : Prop :=
  NoDup (dict_keys (known s)) /\ forall k isl, dict_get k (known s) = Some isl -> NoDup (dict_keys isl).
Definition alive (s : st) : Prop := forall k n j, reg s k n = Some j -> is_Some (heap s !! j).

Lemma reg_set h kn k isl k' n' : reg (St h (dict_set k isl kn)) k' n' = if decide (k' = k) then dict_get n' isl else reg (St h kn) k' n'.
Proof. unfold reg. cbn [known]. rewrite dict_get_set. by destruct (decide (k' = k)). Qed.
Lemma reg_heap h h' kn k n : reg (St h kn) k n = reg (St h' kn) k n.
Proof. done. Qed.

Lemma dict_set_NoDup {K V} `{EqDecision K} k (v : V) (d : dict K V) : NoDup (dict_keys d) -> NoDup (dict_keys (dict_set k v d)).
Proof.
  intros H. rewrite dict_keys_set. destruct (decide (k ∈ dict_keys d)); [done|]. apply NoDup_app. split; [done|]. split; [|apply NoDup_singleton].
  intros x Hx Hs. apply elem_of_list_singleton in Hs. by subst.
Qed.
Lemma wf_set h kn k isl : wf_known (St h kn) -> NoDup (dict_keys isl) -> wf_known (St h (dict_set k isl kn)).
Proof.
  intros [H1 H2] H3. split; cbn [known] in *; [by apply dict_set_NoDup|].
  intros k' isl' E. rewrite dict_get_set in E. destruct (decide (k' = k)); [by injection E as <-|]. by eapply H2.
Qed.

Lemma size_difference_all (X : gset string) (l : list string) m : size (X ∖ list_to_set l) = size X -> m ∈ X -> m ∈ l -> False.
Proof.
  intros Hsz Hm Hin. assert (Hlt' : size (X ∖ list_to_set l) < size X); [|lia]. apply subset_size. split; [set_solver|]. intros Hsub. specialize (Hsub m Hm).
  rewrite elem_of_difference, elem_of_list_to_set in Hsub. tauto.
Qed.

Section Runs.
  Variable normalise : bool -> string -> res string.
  Variable names_of : string -> res ana.
  Variable name_of : string -> res string.
  Variable builtins : gset string.
  Variable ord : nat -> gset string -> list string.
  Variable default_island : nat -> string.
  Notation begin_registration := (begin_registration normalise names_of).
  Notation analyse := (analyse normalise names_of).

  Definition same_definition (a b : fnobj) : bool :=
    bool_decide (o_src a = o_src b) && bool_decide (decorator a = decorator b) && bool_decide (o_kind a = o_kind b).
  Definition fit (src : string) : res unit := let? a := analyse src in begin_check a.

  Inductive begun (s : st) (self : nat) (me : fnobj) : st -> res unit -> Prop :=
  | begun_same j o : reg s (home me) (o_name me) = Some j -> heap s !! j = Some o -> same_definition me o = true ->
      begun s self me (St (<[self := (upd (set_full false me) o).1]> (heap s)) (known s)) (upd (set_full false me) o).2
  | begun_other j o : reg s (home me) (o_name me) = Some j -> heap s !! j = Some o -> same_definition me o = false ->
      begun s self me (St (<[self := set_full false me]> (heap s)) (known s)) (Err AssertionError)
  | begun_unfit kn e : reg s (home me) (o_name me) = None -> fit (o_src me) = Err e ->
      (forall k n, reg (St (heap s) kn) k n = reg s k n) -> (wf_known s -> wf_known (St (heap s) kn)) ->
      begun s self me (St (<[self := set_full false me]> (heap s)) kn) (Err e)
  | begun_new kn : reg s (home me) (o_name me) = None -> fit (o_src me) = Ok tt ->
      (forall k n, reg (St (heap s) kn) k n = if decide (k = home me /\ n = o_name me) then Some self else reg s k n) ->
      (wf_known s -> wf_known (St (heap s) kn)) ->
      begun s self me (St (<[self := set_full false me]> (heap s)) kn) (Ok tt).

  Lemma begin_run s self me s' r : heap s !! self = Some me -> ~ enrolled s self -> alive s ->
    begin_registration self s = (s', r) -> begun s self me s' r.
  Proof.
    intros Hm Hne Hal. unfold Registry.begin_registration. ms. rewrite (alter_eq_insert _ _ _ me Hm).
    assert (Hlt : self < List.length (heap s)) by (by apply lookup_lt_Some in Hm).
    erewrite bnd_get by (cbn [heap]; by apply list_lookup_insert). cbn [set_full o_portal o_island o_src o_name].
    ms. fold (home me).
    set (h' := <[self := _]> (heap s)) at 1.
    assert (Hk : exists isl kn, dict_get (home me) kn = Some isl /\ (forall k n, reg (St (heap s) kn) k n = reg s k n)
       /\ (wf_known s -> wf_known (St (heap s) kn)) /\ (wf_known s -> NoDup (dict_keys isl))
       /\ (reg s (home me) (o_name me) <> None -> kn = known s)
       /\ dict_get (o_name me) isl = reg s (home me) (o_name me)
       /\ forall B (k : _ -> M B), bnd (match dict_get (home me) (known s) with Some _ => ret tt | None => set_island (home me) [] end) k (St h' (known s)) = k tt (St h' kn)).
    { unfold reg. destruct (dict_get (home me) (known s)) as [isl|] eqn:E.
      - exists isl, (known s). repeat split; try done; [apply H|apply H|]. intros H. by eapply H.
      - exists [], (dict_set (home me) [] (known s)). split; [by rewrite dict_get_set, decide_True|]. split.
        { intros k n. cbn [known]. rewrite dict_get_set. destruct (decide (k = home me)) as [->|]; [by rewrite E|done]. }
        split; [intros Hwf; destruct s; apply wf_set; [done|constructor]|]. split; [constructor|]. by split. }
    destruct Hk as (isl & kn & Hkn & Hreg & Hwf & Hnd & Hsome & Hget & Hrun).
    rewrite Hrun. ms. rewrite Hkn. cbn [or_raise]. ms. rewrite Hget.
    destruct (reg s (home me) (o_name me)) as [j|] eqn:Ej.
    - assert (kn = known s) as -> by (by apply Hsome). destruct (Hal _ _ _ Ej) as [o Ho].
      assert (self <> j) by (intros ->; apply Hne; by exists (home me), (o_name me)).
      erewrite bnd_get by (cbn [heap]; unfold h'; by rewrite list_lookup_insert_ne).
      ms. assert (Hd : decorator (set_full false me) = decorator me) by (by destruct me).
      change (FnObj _ _ _ _ _ _ _ _ _ _ _) with (set_full false me) in *.
      destruct (same_definition me o) eqn:Esame.
      + pose proof Esame as Esame'. unfold same_definition in Esame'. apply andb_true_iff in Esame' as [Es E3]. apply andb_true_iff in Es as [E1 E2].
        rewrite E1. ms. unfold decorator in Hd. 
        match goal with |- context [bool_decide (decorator ?x = _)] => change (decorator x) with (decorator me) end.
        rewrite E2. ms. 
        match goal with |- context [bool_decide (o_kind ?x = _)] => change (o_kind x) with (o_kind me) end.
        rewrite E3.
        rewrite (update_run _ self j (set_full false me) o); [|by apply list_lookup_insert|cbn [heap]; unfold h'; by rewrite list_lookup_insert_ne|done].
        intros [= <- <-]. cbn [heap known]. unfold h'. rewrite list_insert_insert. by eapply begun_same.
      + intros H'. assert (s' = St h' (known s) /\ r = Err AssertionError) as [-> ->].
        { revert H'. change (o_kind (set_full false me)) with (o_kind me). change (decorator (set_full false me)) with (decorator me). unfold same_definition in Esame.
          destruct (bool_decide (o_src me = o_src o)); [|by intros [= <- <-]]. ms.
          match goal with |- context [bool_decide (decorator ?x = _)] => change (decorator x) with (decorator me) end.
          destruct (bool_decide (decorator me = decorator o)); [|by intros [= <- <-]]. ms.
          match goal with |- context [bool_decide (o_kind ?x = _)] => change (o_kind x) with (o_kind me) end.
          destruct (bool_decide (o_kind me = o_kind o)); [done|by intros [= <- <-]]. }
        by eapply begun_other.
    - ms. unfold fit. destruct (analyse (o_src me)) as [a|e] eqn:Ea.
      + ms. destruct (begin_check a) as [[]|e] eqn:Eb.
        * unfold set_island. cbn [heap known]. intros [= <- <-]. eapply begun_new; [done|unfold fit; by rewrite Ea| |].
          -- intros k n. rewrite reg_set. destruct (decide (k = home me)) as [->|Hk].
             ++ rewrite dict_get_set. destruct (decide (n = o_name me)) as [->|]; [by rewrite decide_True|].
                rewrite decide_False by (by intros [? ?]). rewrite <- Hreg. unfold reg. cbn [known]. by rewrite Hkn.
             ++ rewrite decide_False by (by intros [? ?]). apply Hreg.
          -- intros Hw. apply wf_set; [by apply Hwf|]. apply dict_set_NoDup. by apply Hnd.
        * intros [= <- <-]. eapply begun_unfit; [done|unfold fit; by rewrite Ea|done|done].
      + intros [= <- <-]. eapply begun_unfit; [done|unfold fit; by rewrite Ea|done|done].
  Qed.

  Definition enrolled_ok (s : st) : Prop := forall k n j, reg s k n = Some j ->
    exists o, heap s !! j = Some o /\ k = home o /\ n = o_name o /\ name_of (o_src o) = Ok n /\ fit (o_src o) = Ok tt.
  Lemma enrolled_alive s : enrolled_ok s -> alive s.
  Proof. intros H k n j E. destruct (H _ _ _ E) as (o & -> & _). by eexists. Qed.

  Lemma mapm_get l s : (forall j, j ∈ l -> is_Some (heap s !! j)) -> exists os, mapm get l s = (s, Ok os) /\ Forall2 (fun j o => heap s !! j = Some o) l os.
  Proof.
    induction l as [|j l IH]; intros H; cbn [mapm]; [by eexists|].
    destruct (H j) as [o Ho]; [left|]. rewrite (bnd_get _ _ _ _ Ho). destruct IH as (os & E & F); [intros; apply H; by right|].
    exists (o :: os). unfold bnd at 1. rewrite E. split; [done|by constructor].
  Qed.

  Lemma analyse_ok src a : analyse src = Ok a -> normalise false src = Ok src /\ names_of src = Ok a.
  Proof.
    unfold Registry.analyse. destruct (normalise false src) as [n|]; cbn [rbind]; [|done]. destruct (names_of n) eqn:E; cbn [rbind]; [|done].
    unfold passert. destruct (bool_decide_reflect (src = n)); cbn [rbind]; [|done]. subst n. intros [= ->]. done.
  Qed.
  Lemma fit_ok src : fit src = Ok tt -> exists a, analyse src = Ok a /\ normalise false src = Ok src /\ names_of src = Ok a /\ begin_check a = Ok tt.
  Proof. unfold fit. destruct (analyse src) as [a|] eqn:E; cbn [rbind]; [|done]. intros H. exists a. split; [done|]. destruct (analyse_ok _ _ E). done. Qed.

  Hypothesis ord_perm : forall t X, ord t X ≡ₚ elements X.
  Hypothesis function_name : forall src n a, normalise false src = Ok src -> name_of src = Ok n -> names_of src = Ok a -> a_function a = Some n.

  Notation refers := (refers names_of).

  Lemma dict_get_In {K V} `{EqDecision K} (d : dict K V) k v : NoDup (dict_keys d) -> dict_get k d = Some v <-> (k, v) ∈ d.
  Proof.
    induction d as [|[k1 v1] d IH]; cbn; intros Hnd; [split; [done|intros H; inversion H]|].
    apply NoDup_cons in Hnd as [Hni Hnd]. destruct (decide (k = k1)) as [->|Hne].
    - split; [intros [= ->]; left|]. intros H. apply elem_of_cons in H as [[= ->]|H]; [done|].
      exfalso. apply Hni. apply elem_of_list_fmap. by exists (k1, v).
    - rewrite IH by done. split; [by right|]. intros H. apply elem_of_cons in H as [[= -> _]|H]; done.
  Qed.
  Lemma dict_keys_get {K V} `{EqDecision K} (d : dict K V) k : k ∈ dict_keys d <-> is_Some (dict_get k d).
  Proof. rewrite <- not_eq_None_Some, dict_get_None. split; [intros H1 H2; by apply H2|]. intros H. destruct (decide (k ∈ dict_keys d)); done. Qed.

  (** the records of an island *)
  Lemma records_ok s k : enrolled_ok s -> forall isl os, (forall n j, (n, j) ∈ isl -> reg s k n = Some j) ->
    Forall2 (fun j o => heap s !! j = Some o) (dict_values isl) os ->
    exists rs, names_records normalise names_of (map o_src os) = Ok rs
      /\ Forall2 (fun e r => n_function r = e.1 /\ exists o, heap s !! e.2 = Some o /\ (forall m, mentions r m <-> mentions_name names_of (o_src o) m)) isl rs.
  Proof.
    intros Hen. induction isl as [|[n j] isl IH]; intros os Hreg HF; cbn in HF; inversion HF as [|? o ? os' Ho HF']; subst; cbn [map names_records].
    - by exists [].
    - destruct (IH os') as (rs & E & F); [intros; apply Hreg; by right|done|].
      destruct (Hen k n j) as (o' & Ho' & Hk & Hn & Hname & Hfit); [apply Hreg; left|]. rewrite Ho' in Ho. injection Ho as ->.
      apply fit_ok in Hfit as (a & Ea & En & Enm & _). unfold names_record at 1. rewrite En. cbn [rbind]. rewrite Enm. cbn [rbind].
      rewrite (function_name _ _ _ En Hname Enm). cbn [rbind]. rewrite E. cbn [rbind]. eexists. split; [done|].
      constructor; [|done]. cbn. split; [done|]. exists o. split; [done|]. intros m. unfold mentions, mentions_name. cbn. split.
      + intros H. exists a. done.
      + intros (a' & Ea' & H). rewrite Enm in Ea'. by injection Ea' as <-.
  Qed.

  Lemma last_def_In rs n r : NoDup (map n_function rs) -> r ∈ rs -> n_function r = n -> last_def n rs = Some r.
  Proof.
    induction rs as [|r1 rs IH]; intros Hnd Hin Hn; cbn; [inversion Hin|]. cbn in Hnd. apply NoDup_cons in Hnd as [Hni Hnd].
    apply elem_of_cons in Hin as [<-|Hin].
    - assert (last_def n rs = None) as ->; [|by rewrite decide_True].
      destruct (last_def n rs) as [g|] eqn:E; [|done]. exfalso. apply Hni. rewrite Hn. clear -E.
      induction rs as [|r2 rs IH]; cbn in *; [done|]. destruct (last_def n rs); [right; by apply IH|]. destruct (decide (n_function r2 = n)) as [<-|]; [left|done].
    - by rewrite IH.
  Qed.
  Lemma last_def_Some rs n r : last_def n rs = Some r -> r ∈ rs /\ n_function r = n.
  Proof.
    induction rs as [|r1 rs IH]; cbn; [done|]. destruct (last_def n rs) as [g|].
    - intros [= ->]. destruct IH; [done|]. split; [by right|done].
    - destruct (decide (n_function r1 = n)); [|done]. intros [= ->]. split; [left|done].
  Qed.

  Lemma island_dependencies_run s k isl name j : enrolled_ok s -> wf_known s -> dict_get k (known s) = Some isl -> dict_get name isl = Some j ->
    exists D : gset string, island_dependencies normalise names_of ord isl name s = (s, Ok (sorted (elements D)))
      /\ forall m, m ∈ D <-> rtc (refers s k) name m.
  Proof.
    intros Hen Hwf Hk Hj. assert (Hnd : NoDup (dict_keys isl)) by (by eapply Hwf).
    assert (Hreg : forall n j, (n, j) ∈ isl <-> reg s k n = Some j). { intros n j'. unfold reg. rewrite Hk. symmetry. by apply dict_get_In. }
    unfold island_dependencies. destruct (mapm_get (dict_values isl) s) as (os & E & F).
    { intros j' Hj'. apply elem_of_list_fmap in Hj' as ([n j2] & -> & Hin). apply Hreg in Hin. apply (enrolled_alive _ Hen _ _ _ Hin). }
    unfold bnd at 1. rewrite E.
    destruct (records_ok s k Hen isl os) as (rs & Er & HF); [intros; by apply Hreg|done|]. rewrite Er. ms.
    destruct (deep_exact ord ord_perm rs) as (d & Ed & Hkeys & Hd). rewrite Ed. ms.
    assert (Hfn : map n_function rs = dict_keys isl).
    { unfold dict_keys. clear -HF. induction HF as [|e r isl rs [H _] _ IH]; cbn; [done|]. by rewrite H, IH. }
    destruct (Hd name) as (S & ES & HS). { rewrite Hfn. apply dict_keys_get. by eexists. }
    rewrite ES. cbn [or_raise]. ms.
    assert (Hrefs : forall a b, references rs a b <-> refers s k a b).
    { intros a b. assert (Hbb : b ∈ map n_function rs <-> reg s k b <> None).
      { rewrite Hfn, dict_keys_get. unfold reg. rewrite Hk. symmetry. apply not_eq_None_Some. }
      unfold references, RegistrySpec.refers. split.
      - intros (r & Hl & Hm & Hb). split; [|by apply Hbb]. apply last_def_Some in Hl as [Hin Hn].
        apply elem_of_list_lookup in Hin as (i & Hi). destruct (Forall2_lookup_r _ _ _ _ _ HF Hi) as ([n' j'] & Hi' & Hn' & o & Ho & Hmm).
        cbn in *. exists (o_src o). split; [|by apply Hmm]. assert (Hin : (a, j') ∈ isl) by (rewrite <- Hn, Hn'; by eapply elem_of_list_lookup_2).
        apply Hreg in Hin. unfold source_of, definition_of. by rewrite Hin, Ho.
      - intros ((src & Hsrc & Hm) & Hb). unfold source_of, definition_of in Hsrc. destruct (reg s k a) as [ja|] eqn:Ea; [|done].
        destruct (heap s !! ja) as [o|] eqn:Eo; [|done]. cbn in Hsrc. injection Hsrc as <-.
        apply Hreg in Ea. apply elem_of_list_lookup in Ea as (i & Hi). destruct (Forall2_lookup_l _ _ _ _ _ HF Hi) as (r & Hi' & Hn' & o' & Ho & Hmm).
        cbn in *. rewrite Eo in Ho. injection Ho as <-. exists r. split; [|split; [by apply Hmm|by apply Hbb]].
        apply last_def_In; [by rewrite Hfn|by eapply elem_of_list_lookup_2|done]. }
    assert (HS' : forall m, m ∈ S <-> rtc (refers s k) name m).
    { intros m. rewrite HS. split; intros H; (eapply rtc_subrel; [|exact H]); intros x y; by apply Hrefs. }
    assert (bool_decide (S = ∅) = false) as ->. { apply bool_decide_eq_false. intros HE. assert (Hin : name ∈ S) by (apply HS'; constructor). rewrite HE in Hin. by apply not_elem_of_empty in Hin. }
    cbn [negb]. exists S. done.
  Qed.

  Notation required := (required_names builtins).
  Notation complete_autonomous := (complete_autonomous normalise names_of builtins ord).

  Definition built (src : string) (strictly : bool) (o : fnobj) : fnobj := set_place (o_island o) strictly (set_code (Some src) o).
  Inductive completed_aut (s : st) (self : nat) (me : fnobj) : st -> res unit -> Prop :=
  | ca_full : o_full me = true -> completed_aut s self me s (Ok tt)
  | ca_missing : o_full me = false -> reg s (home me) (o_name me) = None -> completed_aut s self me s (Err AssertionError)
  | ca_diff j o : o_full me = false -> reg s (home me) (o_name me) = Some j -> heap s !! j = Some o -> o_src me <> o_src o ->
      completed_aut s self me s (Err AssertionError)
  | ca_late_aut j o : o_full me = false -> o_kind me = Aut -> reg s (home me) (o_name me) = Some j -> heap s !! j = Some o -> o_src me = o_src o ->
      o_full o = true -> self <> j ->
      completed_aut s self me (St (<[self := (upd me o).1]> (heap s)) (known s)) (upd me o).2
  | ca_late_pure j o : o_full me = false -> o_kind me = Pure -> reg s (home me) (o_name me) = Some j -> heap s !! j = Some o -> o_src me = o_src o ->
      o_full o = true -> completed_aut s self me s (Ok tt)
  | ca_fail j o a b : o_full me = false -> reg s (home me) (o_name me) = Some j -> heap s !! j = Some o -> o_src me = o_src o -> o_full o = false ->
      names_of (o_src me) = Ok a -> required (o_name me) a <> ∅ ->
      ((exists m, m ∈ required (o_name me) a /\ reg s (home me) m = None) \/ o_strict me = true) -> (o_strict me = true -> b = true) ->
      (o_strict me = false -> (b = true <-> forall m, m ∈ required (o_name me) a -> reg s (home me) m = None)) ->
      completed_aut s self me (St (<[self := built (o_src me) b me]> (heap s)) (known s)) (Err AssertionError)
  | ca_done j o a (D : gset string) : o_full me = false -> reg s (home me) (o_name me) = Some j -> heap s !! j = Some o -> o_src me = o_src o -> o_full o = false ->
      names_of (o_src me) = Ok a -> (forall m, m ∈ required (o_name me) a -> reg s (home me) m <> None) ->
      (o_strict me = true -> required (o_name me) a = ∅) ->
      (forall m, m ∈ D <-> rtc (refers s (home me)) (o_name me) m) ->
      completed_aut s self me
        (St (<[self := set_full (bool_decide (o_kind me = Aut)) (set_deps (Some (sorted (elements D))) (built (o_src me) (bool_decide (required (o_name me) a = ∅)) me))]>
              (<[j := set_full (bool_decide (o_kind me = Aut)) (set_deps (Some (sorted (elements D))) o)]> (heap s))) (known s)) (Ok tt).

  Lemma set_full_false_id o : o_full o = false -> set_full false o = o.
  Proof. by destruct o; cbn; intros ->. Qed.

  Lemma complete_aut_run s self me s' r : enrolled_ok s -> wf_known s -> heap s !! self = Some me ->
    complete_autonomous self s = (s', r) -> completed_aut s self me s' r.
  Proof.
    intros Hen Hwf Hm. unfold Registry.complete_autonomous. rewrite (bnd_get _ _ _ _ Hm).
    destruct (o_full me) eqn:Ef; [intros [= <- <-]; by apply ca_full|]. ms. fold (home me).
    destruct (dict_get (home me) (known s)) as [isl|] eqn:Ek; cbn [or_raise]; ms;
      [|intros [= <- <-]; apply ca_missing; [done|]; unfold reg; by rewrite Ek].
    assert (Hreg : forall n, reg s (home me) n = dict_get n isl) by (intros; unfold reg; by rewrite Ek).
    destruct (dict_get (o_name me) isl) as [j|] eqn:Ej; cbn [or_raise]; ms;
      [|intros [= <- <-]; apply ca_missing; [done|]; by rewrite Hreg].
    rewrite <- Hreg in Ej. destruct (Hen _ _ _ Ej) as (o & Ho & Hho & Hno & Hnm & Hfit).
    rewrite (bnd_get _ _ _ _ Ho). ms. destruct (bool_decide_reflect (o_src me = o_src o)) as [Es|Es]; [|intros [= <- <-]; by eapply ca_diff].
    destruct (o_full o) eqn:Efo.
    { destruct (decide (o_kind me = Aut)) as [Ea|Ea].
      - assert (self <> j) by congruence. rewrite (update_run _ _ _ me o Hm Ho H). intros [= <- <-]. by eapply ca_late_aut.
      - intros [= <- <-]. eapply ca_late_pure; try done. by destruct (o_kind me). }
    ms. rewrite (alter_eq_insert _ _ _ me Hm). apply fit_ok in Hfit as (a & Ea & Enz & Enm & Hbc). rewrite Es, Ea. ms.
    assert (Hlt : self < List.length (heap s)) by (by apply lookup_lt_Some in Hm).
    set (req := required (o_name me) a).
    assert (Hstep : exists b ok, (forall B (k : unit -> M B),
        bnd (if o_strict me then check (bool_decide (req = ∅))
             else (if decide (size (req ∖ list_to_set (dict_keys isl)) = size req) then put self (set_place (o_island me) true) else ret tt) ;;
                  check (bool_decide (req ∖ list_to_set (dict_keys isl) = ∅))) k
          (St (<[self := set_code (Some (o_src o)) me]> (heap s)) (known s))
        = (if ok : bool then k tt (St (<[self := built (o_src o) b me]> (heap s)) (known s)) else (St (<[self := built (o_src o) b me]> (heap s)) (known s), Err AssertionError)))
        /\ (ok = true -> b = bool_decide (req = ∅) /\ (forall m, m ∈ req -> reg s (home me) m <> None) /\ (o_strict me = true -> req = ∅))
        /\ (ok = false -> req <> ∅ /\ ((exists m, m ∈ req /\ reg s (home me) m = None) \/ o_strict me = true) /\ (o_strict me = true -> b = true) /\ (o_strict me = false -> (b = true <-> forall m, m ∈ req -> reg s (home me) m = None)))).
    { destruct (o_strict me) eqn:Est.
      - exists true, (bool_decide (req = ∅)). split; [|split].
        + intros B k. ms. assert (built (o_src o) true me = set_code (Some (o_src o)) me) as ->; [unfold built; destruct me; cbn in *; by subst|].
          by destruct (bool_decide (req = ∅)).
        + intros Hok. apply bool_decide_eq_true in Hok. rewrite Hok. split; [by rewrite bool_decide_eq_true_2|]. split; [|done].
          intros m Hmm. by apply not_elem_of_empty in Hmm.
        + intros Hok. apply bool_decide_eq_false in Hok. split; [done|]. split; [by right|]. done.
      - set (rest := req ∖ list_to_set (dict_keys isl)).
        exists (bool_decide (size rest = size req)), (bool_decide (rest = ∅)). split; [|split].
        + intros B k. ms. destruct (decide (size rest = size req)) as [E|E].
          * rewrite (bool_decide_eq_true_2 (size rest = size req)) by done. ms. rewrite alter_insert'. unfold built. cbn [set_code o_island].
            by destruct (bool_decide (rest = ∅)).
          * rewrite (bool_decide_eq_false_2 (size rest = size req)) by done. ms.
            assert (built (o_src o) false me = set_code (Some (o_src o)) me) as ->; [unfold built; destruct me; cbn in *; by subst|].
            by destruct (bool_decide (rest = ∅)).
        + intros Hok. apply bool_decide_eq_true in Hok. split; [|split; [|done]].
          * apply bool_decide_ext. rewrite Hok, size_empty. split; [|by intros ->].
            intros H0. apply leibniz_equiv. symmetry in H0. by apply size_empty_inv in H0.
          * intros m Hmm Hn. rewrite Hreg in Hn. apply dict_get_None in Hn.
            assert (Hin : m ∈ rest) by (apply elem_of_difference; split; [done|]; by rewrite elem_of_list_to_set).
            rewrite Hok in Hin. by apply not_elem_of_empty in Hin.
        + intros Hok. apply bool_decide_eq_false in Hok. split; [intros E; apply Hok; unfold rest; rewrite E; set_solver|].
          split; [|split; [done|]].
          2:{ intros _. rewrite bool_decide_eq_true. split.
              - intros Hsz m Hmm. rewrite Hreg. apply dict_get_None. intros Hin.
                by eapply (size_difference_all req (dict_keys isl)).
              - intros Hall. f_equal. apply leibniz_equiv. intros m. unfold rest. rewrite elem_of_difference, elem_of_list_to_set. split; [by intros [? _]|]. intros Hmm. split; [done|].
                apply dict_get_None. rewrite <- Hreg. by apply Hall. }
          left. apply set_choose_L in Hok as (m & Hmm). apply elem_of_difference in Hmm as [H1 H2]. exists m. split; [done|].
          rewrite Hreg. apply dict_get_None. by rewrite elem_of_list_to_set in H2. }
    destruct Hstep as (b & ok & Hrun & Hok1 & Hok2). rewrite Hrun. destruct ok.
    - destruct (Hok1 eq_refl) as (-> & Hreq & Hstr).
      destruct (island_dependencies_run s (home me) isl (o_name me) j Hen Hwf Ek) as (D & ED & HD); [by rewrite <- Hreg|].
      set (s1 := St (<[self := built (o_src o) (bool_decide (req = ∅)) me]> (heap s)) (known s)).
      (* the island's sources are the same in s1 *)
      assert (ED1 : island_dependencies normalise names_of ord isl (o_name me) s1 = (s1, Ok (sorted (elements D)))).
      { assert (Hh1 : forall i o', heap s !! i = Some o' -> exists o1, heap s1 !! i = Some o1 /\ o_src o1 = o_src o' /\ o_name o1 = o_name o' /\ home o1 = home o').
        { intros i o' Hi. cbn [s1 heap]. destruct (decide (self = i)) as [<-|Hne].
          - rewrite list_lookup_insert by done. rewrite Hm in Hi. injection Hi as <-. eexists. split; [done|]. by destruct me.
          - rewrite list_lookup_insert_ne by done. by exists o'. }
        assert (Hen1 : enrolled_ok s1).
        { intros k n j' Hj'. destruct (Hen k n j' Hj') as (o' & H1 & H2 & H3 & H4 & H5). destruct (Hh1 _ _ H1) as (o1 & H6 & H7 & H8 & H9).
          exists o1. rewrite H9, H8, H7. done. }
        destruct (island_dependencies_run s1 (home me) isl (o_name me) j Hen1 Hwf Ek) as (D1 & -> & HD1); [by rewrite <- Hreg|].
        do 2 f_equal. f_equal. f_equal. apply leibniz_equiv. intros m. rewrite HD1, HD.
        assert (Hrf : forall x y, refers s1 (home me) x y <-> refers s (home me) x y).
        { intros x y. unfold RegistrySpec.refers, source_of, definition_of. cbn [reg s1 known]. change (reg s1) with (reg s).
          destruct (reg s (home me) x) as [jx|] eqn:Ex; [|done]. destruct (enrolled_alive _ Hen _ _ _ Ex) as [ox Hox].
          destruct (Hh1 _ _ Hox) as (o1 & -> & H7 & _). rewrite Hox. cbn. by rewrite H7. }
        split; intros H; (eapply rtc_subrel; [|exact H]); intros x y; by apply Hrf. }
      unfold bnd at 1. rewrite ED1. ms. unfold s1 at 1 2. cbn [heap known].
      intros Hrest.
      assert (HX : s' = St (<[self := set_full (bool_decide (o_kind me = Aut)) (set_deps (Some (sorted (elements D))) (built (o_src me) (bool_decide (req = ∅)) me))]>
              (<[j := set_full (bool_decide (o_kind me = Aut)) (set_deps (Some (sorted (elements D))) o)]> (heap s))) (known s) /\ r = Ok tt).
      { rewrite Es. revert Hrest. destruct (decide (self = j)) as [<-|Hne].
        - rewrite Hm in Ho. injection Ho as <-. rewrite !alter_insert'. rewrite list_insert_insert.
          destruct (decide (o_kind me = Aut)) as [Ea'|Ea'].
          + ms. rewrite !alter_insert'. unfold put. cbn [heap known]. rewrite alter_insert'. intros [= <- <-]. by rewrite (bool_decide_eq_true_2 (o_kind me = Aut)).
          + intros [= <- <-]. rewrite (bool_decide_eq_false_2 (o_kind me = Aut)) by done. rewrite set_full_false_id by (by destruct me). done.
        - rewrite (list_insert_commute _ _ _ _ _ Hne).
          rewrite (alter_eq_insert _ j _ o) by (by rewrite list_lookup_insert_ne).
          rewrite (list_insert_commute _ _ _ _ _ (not_eq_sym Hne)). rewrite alter_insert'.
          destruct (decide (o_kind me = Aut)) as [Ea'|Ea'].
          + ms. rewrite alter_insert'. unfold put. cbn [heap known].
            rewrite (list_insert_commute _ _ _ _ _ Hne), alter_insert', (list_insert_commute _ _ _ _ _ (not_eq_sym Hne)).
            intros [= <- <-]. rewrite (bool_decide_eq_true_2 (o_kind me = Aut)) by done. by rewrite (list_insert_commute _ j self) by done.
          + intros [= <- <-]. rewrite (bool_decide_eq_false_2 (o_kind me = Aut)) by done. rewrite !set_full_false_id; [|by destruct o|by destruct me].
            first [done | by rewrite (list_insert_commute _ j self) by done]. }
      destruct HX as [-> ->]. apply (ca_done _ _ _ j o a D); try done. by rewrite Es.
    - destruct (Hok2 eq_refl) as (Hq1 & Hq2 & Hq3 & Hq4). intros [= <- <-]. rewrite <- Es. eapply ca_fail; try done. by rewrite Es.
  Qed.
End Runs.
