(** Proofs about Model/Layout.v. *)
From Coq Require Import QArith Ascii.
From stdpp Require Import gmap.
From Verif Require Import Lib.Py Model.Portals Model.Layout Spec.LayoutSpec.
Local Open Scope nat_scope.

Definition dot : Ascii.ascii := ".".
Fixpoint dot_free (s : string) : bool := match s with EmptyString => true | String c s' => negb (Ascii.eqb c dot) && dot_free s' end.
Lemma dot_inside y ft : dot_free (y +:+ "." +:+ ft)%string = false.
Proof. induction y as [|c y IH]; [done|]. change (dot_free (String c (y +:+ "." +:+ ft)%string) = false). cbn [dot_free]. rewrite IH. by rewrite andb_false_r. Qed.
Lemma ending_inj x y ft ft' : dot_free ft = true -> dot_free ft' = true ->
  (x +:+ "." +:+ ft = y +:+ "." +:+ ft')%string -> x = y /\ ft = ft'.
Proof.
  intros Hf Hf'. revert y. induction x as [|c x IH]; intros [|c' y] H.
  - by injection H.
  - change (String dot ft = String c' (y +:+ "." +:+ ft')%string) in H. injection H as _ ->. by rewrite dot_inside in Hf.
  - change (String c (x +:+ "." +:+ ft)%string = String dot ft') in H. injection H as _ <-. by rewrite dot_inside in Hf'.
  - change (String c (x +:+ "." +:+ ft)%string = String c' (y +:+ "." +:+ ft')%string) in H. injection H as -> H.
    by destruct (IH y H) as [-> ->].
Qed.
Lemma kind_dot_free st : dot_free (kind st) = true. Proof. by destruct st. Qed.

Lemma rev_case {A} (l : list A) : l = [] \/ exists x q, l = q ++ [x].
Proof. destruct l as [|x q] using rev_ind; [by left|right; eauto]. Qed.
Definition id_part (s : string) : string := s.
Lemma item_path_snoc part ft k x : item_path part ft (k ++ [x]) = map part k ++ [(part x +:+ "." +:+ ft)%string].
Proof. induction k as [|y k IH]; [done|]. cbn [app item_path map]. destruct (k ++ [x]) as [|z l] eqn:E; [by destruct k|]. by rewrite IH. Qed.
Lemma map_id_part k : map id_part k = k. Proof. induction k; cbn; unfold id_part in *; by f_equal. Qed.
Lemma item_path_inj ft ft' k k' : dot_free ft = true -> dot_free ft' = true -> k <> [] -> k' <> [] ->
  item_path id_part ft k = item_path id_part ft' k' -> ft = ft' /\ k = k'.
Proof.
  intros Hf Hf' Hk Hk' H. destruct (rev_case k) as [->|(x & q & ->)]; [done|]. destruct (rev_case k') as [->|(x' & q' & ->)]; [done|].
  rewrite !item_path_snoc, !map_id_part in H. apply app_inj_tail in H as [-> H].
  apply (ending_inj x x') in H as [-> ->]; done.
Qed.

(** the settings, computed *)
Lemma settings_of digest r st : digest_len r = 0 ->
  store_settings digest r st = Settings (base_dir r ++ [directory st]) (kind st) (bool_decide (write_once st)) 0
     (if bool_decide (texts_only st) then Some "str"%string else value_class r).
Proof. destruct r as [b t i d c]. cbn [digest_len]. intros ->. by destruct st. Qed.
Lemma file_path digest r st k : digest_len r = 0 ->
  file_of digest (store_settings digest r st) k = base_dir r ++ directory st :: item_path id_part (kind st) k.
Proof. intros H. rewrite settings_of by done. unfold file_of. cbn [base_dir digest_len file_type]. by rewrite <- app_assoc. Qed.
Lemma same_kind_dir st st' : kind st = kind st' -> directory st = directory st' -> st = st'.
Proof. by destruct st, st'. Qed.
Lemma file_inj digest r st st' k k' : digest_len r = 0 -> k <> [] -> k' <> [] ->
  file_of digest (store_settings digest r st) k = file_of digest (store_settings digest r st') k' -> st = st' /\ k = k'.
Proof.
  intros H Hk Hk' E. rewrite !file_path in E by done. apply app_inv_head in E.
  assert (directory st = directory st' /\ item_path id_part (kind st) k = item_path id_part (kind st') k') as [E1 E2] by (split; congruence).
  apply item_path_inj in E2 as [E2 ->]; auto using kind_dot_free, same_kind_dir.
Qed.
Lemma root_digest home a : digest_len (root_dict home a) = 0. Proof. done. Qed.

Section Frames.
Context {V : Type} (digest : nat -> string -> string) (belongs : V -> string -> bool).
Notation F := (gmap path V).
Lemma fd_set_spec (s : settings) (k : key) (v : V) (f f' : F) o : fd_set digest belongs s k v f = (f', o) ->
  (f' = f /\ o <> Ok tt) \/ (f' = <[file_of digest s k := v]> f /\ o = Ok tt /\ (immutable s = true -> f !! file_of digest s k = None)).
Proof.
  unfold fd_set. destruct (match value_class s with Some c => negb (belongs v c) | None => false end).
  { intros [= <- <-]. by left. }
  destruct (immutable s) eqn:E; cbn [andb]; [|intros [= <- <-]; by right].
  unfold fd_in. case_bool_decide as Hd; intros [= <- <-]; [by left|]. right. split; [done|]. split; [done|]. intros _. by apply eq_None_not_Some.
Qed.
Lemma fd_del_spec (s : settings) (k : key) (f f' : F) o : fd_del digest s k f = (f', o) ->
  (f' = f /\ o <> Ok tt) \/ (f' = delete (file_of digest s k) f /\ o = Ok tt /\ immutable s = false).
Proof.
  unfold fd_del. destruct (immutable s); [intros [= <- <-]; by left|]. destruct (fd_in _ _ _ _); intros [= <- <-]; [by right|by left].
Qed.
(** an operation changes at most the file of its item *)
Lemma op_other (r : settings) (o : store_op (V := V)) (f : F) (p : path) : p <> file_of digest (store_settings digest r (op_store o)) (op_key o) ->
  do_op digest belongs r o f !! p = f !! p.
Proof.
  intros Hp. unfold do_op. destruct o as [st k v|st k]; cbn [op_store op_key] in Hp.
  - unfold store_set. destruct (first_entry st); [destruct (fd_in _ _ _ _); [done|]|];
      (destruct (fd_set _ _ _ _ _ _) as [f' o] eqn:E; cbn [fst]; apply fd_set_spec in E as [[-> _]|(-> & _ & _)]; [done|by rewrite lookup_insert_ne]).
  - unfold store_del. destruct (first_entry st); [done|].
    destruct (fd_del _ _ _ _) as [f' o] eqn:E; cbn [fst]; apply fd_del_spec in E as [[-> _]|(-> & _ & _)]; [done|by rewrite lookup_delete_ne].
Qed.
(** a present item of a write-once store keeps its value *)
Lemma op_same (r : settings) (o : store_op (V := V)) (f : F) (v : V) : digest_len r = 0 -> write_once (op_store o) ->
  let p := file_of digest (store_settings digest r (op_store o)) (op_key o) in
  f !! p = Some v -> do_op digest belongs r o f !! p = Some v.
Proof.
  intros H Hw p Hp. unfold do_op. destruct o as [st k w|st k]; cbn [op_store op_key] in *.
  - assert (fd_in digest (store_settings digest r st) k f = true) as Hi by (unfold fd_in; apply bool_decide_eq_true_2; unfold p in Hp; rewrite Hp; eauto).
    unfold store_set. rewrite Hi. destruct (first_entry st); [done|].
    destruct (fd_set _ _ _ _ _ _) as [f' o] eqn:E; cbn [fst]; apply fd_set_spec in E as [[-> _]|(-> & _ & E)]; [done|].
    rewrite (settings_of digest r st H) in E at 1. cbn [immutable] in E. rewrite (bool_decide_eq_true_2 _ Hw) in E.
    unfold p in Hp. by rewrite E in Hp by done.
  - unfold store_del. destruct (first_entry st); [done|].
    destruct (fd_del _ _ _ _) as [f' o] eqn:E; cbn [fst]; apply fd_del_spec in E as [[-> _]|(-> & _ & E)]; [done|].
    rewrite (settings_of digest r st H) in E. cbn [immutable] in E. by rewrite (bool_decide_eq_true_2 _ Hw) in E.
Qed.
End Frames.

(** ** Separate roots *)
Lemma below_spec d p q : below d p = Some q <-> p = d ++ q.
Proof.
  revert p. induction d as [|x d IH]; intros [|y p]; cbn [below app]; [split; congruence|split; congruence|split; congruence|].
  destruct (String.eqb_spec x y) as [->|Hn].
  - rewrite IH. split; congruence.
  - split; [done|]. intros [=]. by subst.
Qed.
Lemma below_none d p : below d p = None <-> ~ d `prefix_of` p.
Proof.
  split.
  - intros H [q ->]. assert (below d (d ++ q) = Some q) by by apply below_spec. congruence.
  - intros H. destruct (below d p) as [q|] eqn:E; [|done]. apply below_spec in E. destruct H. by exists q.
Qed.
Lemma file_below digest r st k : digest_len r = 0 -> (base_dir r ++ [directory st]) `prefix_of` file_of digest (store_settings digest r st) k.
Proof. intros H. rewrite file_path by done. exists (item_path id_part (kind st) k). by rewrite <- app_assoc. Qed.
Lemma file_below_root digest r st k : digest_len r = 0 -> base_dir r `prefix_of` file_of digest (store_settings digest r st) k.
Proof. intros H. rewrite file_path by done. by eexists. Qed.
Lemma separate_files p q x : separate p q -> p `prefix_of` x -> q `prefix_of` x -> False.
Proof. intros [Hp Hq] H1 H2. destruct (prefix_weak_total p q x H1 H2); eauto. Qed.

(** ** Counting *)
Lemma ends_with_spec suf s : ends_with suf s = true <-> exists x, s = (x +:+ suf)%string.
Proof.
  induction s as [|c s IH]; cbn [ends_with].
  - rewrite orb_false_r, String.eqb_eq. split; [intros ->; by exists ""%string|]. intros [[|c x] H]; [done|discriminate H].
  - rewrite orb_true_iff, String.eqb_eq, IH. split.
    + intros [->|[x ->]]; [by exists ""%string|]. by exists (String c x).
    + intros [[|c' x] H]; [by left|]. right. exists x. change (String c s = String c' (x +:+ suf)%string) in H. by injection H.
Qed.
Lemma last_snoc_list {A} (l : list A) x d : List.last (l ++ [x]) d = x.
Proof. induction l as [|y l IH]; [done|]. cbn [app List.last]. destruct (l ++ [x]) eqn:E; [by destruct l|done]. Qed.
Lemma counted_item digest r st p : digest_len r = 0 ->
  counted (store_settings digest r st) p = true <-> exists k, k <> [] /\ p = file_of digest (store_settings digest r st) k.
Proof.
  intros H. unfold counted. rewrite settings_of by done. cbn [base_dir file_type]. rewrite <- (settings_of digest r st H). split.
  - destruct (below _ p) as [q|] eqn:E; [|done]. apply below_spec in E. rewrite andb_true_iff, negb_true_iff, bool_decide_eq_false.
    intros [Hq He]. destruct (rev_case q) as [->|(x & l & ->)]; [done|]. rewrite last_snoc_list in He. apply ends_with_spec in He as [y ->].
    exists (l ++ [y]). split; [by destruct l|]. rewrite file_path, item_path_snoc, map_id_part by done. rewrite E, <- app_assoc. done.
  - intros (k & Hk & ->). rewrite file_path by done. destruct (below _ _) as [q|] eqn:E.
    + apply below_spec in E. rewrite <- app_assoc in E. apply app_inv_head in E. injection E as <-.
      destruct (rev_case k) as [->|(x & l & ->)]; [done|]. rewrite item_path_snoc, last_snoc_list, map_id_part. apply andb_true_iff. split.
      * apply negb_true_iff, bool_decide_eq_false. by destruct l.
      * apply ends_with_spec. by exists x.
    + apply below_none in E. destruct E. exists (item_path id_part (kind st) k). by rewrite <- app_assoc.
Qed.

Section Count.
Context {V : Type} (digest : nat -> string -> string).
Notation F := (gmap path V).
Lemma preimages {A B} (g : A -> B) (P : A -> Prop) (l : list B) : (forall y, y ∈ l -> exists x, P x /\ y = g x) -> exists ks, Forall P ks /\ l = map g ks.
Proof.
  induction l as [|y l IH]; intros H; [by exists []|]. destruct IH as (ks & Hk & ->); [intros; apply H; by right|].
  destruct (H y) as (x & Hx & ->); [by left|]. exists (x :: ks). by repeat constructor.
Qed.
Lemma store_len_keys (r : settings) (st : store) (f : F) : digest_len r = 0 ->
  exists ks, NoDup ks /\ (forall k, k ∈ ks <-> k <> [] /\ is_Some (f !! file_of digest (store_settings digest r st) k)) /\
    store_len digest r st f = length ks.
Proof.
  intros H. unfold store_len, fd_len. set (s := store_settings digest r st). set (l := List.filter _ _).
  assert (forall p, p ∈ map fst l <-> counted s p = true /\ is_Some (f !! p)) as Hl.
  { intros p. unfold l. rewrite elem_of_list_In, in_map_iff. setoid_rewrite filter_In. setoid_rewrite <- elem_of_list_In. split.
    - intros ([q v] & <- & Hi & Hc). cbn [fst] in *. apply elem_of_map_to_list in Hi. eauto.
    - intros (Hc & v & Hv). exists (p, v). split; [done|]. split; [by apply elem_of_map_to_list|done]. }
  assert (NoDup (map fst l)) as Hn.
  { unfold l. pose proof (NoDup_fst_map_to_list f) as Hd. change (NoDup (map fst (map_to_list f))) in Hd. clear Hl l.
    induction (map_to_list f) as [|[q v] m IH]; [constructor|]. cbn [map fst] in Hd. apply NoDup_cons in Hd as [Hd1 Hd2]. cbn [List.filter].
    destruct (counted s q); [|by apply IH]. cbn [map fst]. apply NoDup_cons. split; [|by apply IH].
    rewrite elem_of_list_In, in_map_iff in *. intros ([q' v'] & E & Hi). cbn in E. subst q'. apply Hd1. exists (q, v'). split; [done|].
    apply filter_In in Hi. tauto. }
  destruct (preimages (file_of digest s) (fun k => k <> []) (map fst l)) as (ks & Hk & Hm).
  { intros p Hp. apply Hl in Hp as [Hc _]. by apply counted_item. }
  exists ks. rewrite Forall_forall in Hk. assert (forall k, k ∈ ks -> file_of digest s k ∈ map fst l) as Hin.
  { intros k Hki. rewrite Hm, elem_of_list_In. apply in_map. by apply elem_of_list_In. }
  split; [|split].
  - rewrite Hm in Hn. clear -Hn. induction ks as [|k ks IH]; [constructor|]. cbn in Hn. apply NoDup_cons in Hn as [H1 H2].
    apply NoDup_cons. split; [|by apply IH]. intros Hi. apply H1. rewrite elem_of_list_In in *. by apply in_map.
  - intros k. split.
    + intros Hi. split; [by apply Hk|]. by apply Hl, Hin.
    + intros [Hne Hs]. assert (file_of digest s k ∈ map fst l) as Hi by (apply Hl; split; [apply counted_item; eauto|done]).
      rewrite Hm, elem_of_list_In, in_map_iff in Hi. destruct Hi as (k' & E & Hi). apply elem_of_list_In in Hi.
      apply file_inj in E as [_ ->]; eauto.
  - transitivity (length (map fst l)); [by rewrite map_length|]. by rewrite Hm, map_length.
Qed.
(** two file systems with the same items of a store have the same count *)
Lemma store_len_ext (r : settings) (st : store) (f f' : F) : digest_len r = 0 ->
  (forall p, base_dir r `prefix_of` p -> f !! p = f' !! p) -> store_len digest r st f = store_len digest r st f'.
Proof.
  intros H E. destruct (store_len_keys r st f H) as (ks & N & M & ->). destruct (store_len_keys r st f' H) as (ks' & N' & M' & ->).
  apply Permutation_length, NoDup_Permutation; [done..|]. intros k. rewrite M, M'. rewrite E; [done|]. by apply file_below_root.
Qed.
End Count.
