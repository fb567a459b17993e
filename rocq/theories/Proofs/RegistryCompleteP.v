(** Registration of functions: completing a registration keeps the invariant. *)
From Coq Require Import String Sorted.
From stdpp Require Import gmap.
From Verif Require Import Lib.Py Lib.DictLemmas Model.PyAst Model.Normalizer Model.NamesAnalyzer Model.CallGraph Model.Registry.
From Verif.Spec Require Import RegistrySpec.
From Verif.Proofs Require Import RegistryP RegistryInvP RegistryOpsP.
Local Open Scope nat_scope.

Lemma blocks_run s k isl fns : dict_get k (known s) = Some isl ->
  (forall es, Forall2 (block s k) fns es -> augmented_blocks isl fns s = (s, Ok es)) /\
  (forall es, augmented_blocks isl fns s = (s, Ok es) -> Forall2 (block s k) fns es).
Proof.
  intros Hk. unfold augmented_blocks. split.
  - induction fns as [|n fns IH]; intros es F; inversion F as [|? e ? es' (j & o & Hj & Ho & ->) F']; subst; cbn [mapm]; [done|].
    unfold reg in Hj. rewrite Hk in Hj. rewrite Hj. cbn [or_raise]. ms. rewrite (bnd_get _ _ _ _ Ho). ms. unfold bnd at 1. by rewrite (IH _ F').
  - induction fns as [|n fns IH]; intros es; cbn [mapm]; [intros [= <-]; constructor|].
    destruct (dict_get n isl) as [j|] eqn:Ej; cbn [or_raise]; ms; [|done].
    unfold bnd at 1, get. destruct (heap s !! j) as [o|] eqn:Eo; [|done]. ms.
    unfold bnd. destruct (mapm _ fns s) as [s1 [bs|e]] eqn:E; [|done].
    assert (s1 = s) as ->. { clear -E. revert E. apply reader_blocks. } intros [= <-]. constructor; [|by apply IH].
    exists j, o. unfold reg. rewrite Hk. done.
Qed.

(** pure_core_classes.py:227-252: the part of PureFn._complete_fn_registration after the base class's *)
Definition tail (self : nat) (me : fnobj) : M unit :=
  let! i := island_of (o_portal me, o_island me) in
  let! isl := or_raise AssertionError i in
  let! deps := dependencies self in
  let fns := sorted ((match o_guards me with Some g => g | None => [] end) ++ deps) in
  let! code := augmented_blocks isl fns in
  let! other := or_raise KeyError (dict_get (o_name me) isl) in
  let! o := get other in
  check (bool_decide (o_kind o = Pure)) ;;
  (match o_aug o with
   | None => put other (set_aug (Some code))
   | Some c => check (bool_decide (c = code))
   end) ;;
  put self (set_aug (Some code)) ;;
  put self (set_full true) ;;
  put other (set_full true).

Definition whole (es : list entry) (o : fnobj) : fnobj := set_full true (set_aug (Some es) o).
Definition tailed (s : st) (self j : nat) (me1 o : fnobj) (es : list entry) : st :=
  St (<[self := whole es me1]> (<[j := whole es o]> (heap s))) (known s).

Lemma set_aug_id es o : o_aug o = Some es -> set_aug (Some es) o = o.
Proof. by destruct o; cbn; intros ->. Qed.

Lemma dependencies_run s self me j o : heap s !! self = Some me -> reg s (home me) (o_name me) = Some j -> heap s !! j = Some o ->
  dependencies self s = (s, match o_deps o with
                            | None => Err AttributeError
                            | Some d => if (1 <=? List.length d) && (negb (o_strict me) || (List.length d =? 1)) then Ok (sorted d) else Err AssertionError
                            end).
Proof.
  intros Hm Hj Ho. unfold dependencies. rewrite (bnd_get _ _ _ _ Hm). ms. unfold home, reg in Hj. destruct (dict_get _ (known s)) as [isl|]; [|done]. cbn [or_raise]. ms.
  rewrite Hj. cbn [or_raise]. ms. rewrite (bnd_get _ _ _ _ Ho). destruct (o_deps o) as [d|]; cbn [or_raise]; ms; [|done].
  destruct (1 <=? List.length d); [|done]. destruct (o_strict me); ms; [|done]. by destruct (List.length d =? 1).
Qed.

Lemma tail_run s self me me1 j o s' r : heap s !! self = Some me1 -> same_identity me me1 ->
  reg s (home me) (o_name me) = Some j -> heap s !! j = Some o -> tail self me s = (s', r) ->
  (s' = s /\ exists e, r = Err e) \/
  (r = Ok tt /\ exists d es, o_deps o = Some d /\ 1 <= List.length d /\ (o_strict me1 = true -> List.length d = 1) /\ o_kind o = Pure
     /\ (o_aug o = None \/ o_aug o = Some es) /\ Forall2 (block s (home me)) (sorted (guard_names me ++ sorted d)) es /\ s' = tailed s self j me1 o es).
Proof.
  intros Hm (I1 & I2 & I3 & I4 & I5 & I6) Hj Ho. unfold tail. ms. fold (home me).
  destruct (dict_get (home me) (known s)) as [isl|] eqn:Ek; [|unfold reg in Hj; by rewrite Ek in Hj]. cbn [or_raise]. ms.
  unfold bnd at 1. rewrite (dependencies_run s self me1 j o Hm) by (unfold home in *; by rewrite <- ?I2, <- ?I4, <- ?I5).
  destruct (o_deps o) as [d|] eqn:Ed; [|intros [= <- <-]; left; eauto].
  destruct (_ && _) eqn:Ec; [|intros [= <- <-]; left; eauto]. apply andb_true_iff in Ec as [Ec1 Ec2]. apply Nat.leb_le in Ec1. cbn zeta. fold (guard_names me).
  unfold bnd at 1. destruct (augmented_blocks isl _ s) as [s1 rb] eqn:Eb. pose proof (reader_blocks _ _ _ _ _ Eb) as ->.
  destruct rb as [es|e]; [|intros [= <- <-]; left; eauto]. apply (blocks_run s (home me) isl _ Ek) in Eb.
  assert (Hj' : dict_get (o_name me) isl = Some j) by (unfold reg in Hj; by rewrite Ek in Hj). rewrite Hj'. cbn [or_raise]. ms. rewrite (bnd_get _ _ _ _ Ho). ms.
  destruct (bool_decide_reflect (o_kind o = Pure)) as [Hp|Hp]; [|intros [= <- <-]; left; eauto].
  assert (Hlj : j < List.length (heap s)) by (by eapply lookup_lt_Some). assert (Hls : self < List.length (heap s)) by (by eapply lookup_lt_Some).
  assert (Hgo : o_aug o = None \/ o_aug o = Some es -> (match o_aug o with Some c => check (bool_decide (c = es)) | None => put j (set_aug (Some es)) end) s = (St (<[j := set_aug (Some es) o]> (heap s)) (known s), Ok tt)).
  { intros [->| E].
    - unfold put. by rewrite (alter_eq_insert _ _ _ o Ho).
    - rewrite E. rewrite (bool_decide_eq_true_2 (es = es)) by done. unfold check, lift. cbn. rewrite (set_aug_id es o E), list_insert_id by done. by destruct s. }
  destruct (o_aug o) as [c|] eqn:Ea; [destruct (decide (c = es)) as [->|Hce]|].
  2:{ ms. rewrite (bool_decide_eq_false_2 (c = es)) by done. intros [= <- <-]. left; eauto. }
  all: unfold bnd at 1; rewrite Hgo by (by eauto); ms; intros Hrest; right; assert (Hfin : r = Ok tt /\ s' = tailed s self j me1 o es).
  1,3: revert Hrest; unfold put, tailed, whole; cbn [heap known];
    destruct (decide (self = j)) as [<-|Hne];
      [rewrite Hm in Ho; injection Ho as <-; rewrite !alter_insert', list_insert_insert; intros [= <- <-]; done
      |rewrite (alter_eq_insert (<[j := _]> (heap s)) self (set_aug (Some es)) me1) by (by rewrite list_lookup_insert_ne by done);
       rewrite alter_insert', (list_insert_commute _ self j _ _ Hne), alter_insert'; intros [= <- <-]; split; [done|];
       by rewrite (list_insert_commute _ j self _ _ (not_eq_sym Hne))].
  all: destruct Hfin as [-> ->]; split; [done|]; exists d, es; do 2 (split; [done|]); split;
    [intros Hs; rewrite Hs in Ec2; by apply Nat.eqb_eq in Ec2|]; split; [done|]; split; [by eauto|]; done.
Qed.

Lemma list_to_gset_len (D : gset string) : List.length (sorted (elements D)) = size D.
Proof. rewrite (Permutation_length (sorted_perm _)). unfold size, set_size. done. Qed.

Section Complete.
  Variable normalise : bool -> string -> res string.
  Variable names_of : string -> res ana.
  Variable name_of : string -> res string.
  Variable builtins : gset string.
  Variable strong : Prop.
  Variable ord : nat -> gset string -> list string.
  Hypothesis ord_perm : forall t X, ord t X ≡ₚ elements X.
  Hypothesis function_name : forall src n a, normalise false src = Ok src -> name_of src = Ok n -> names_of src = Ok a -> a_function a = Some n.
  Hypothesis no_empty : forall n, name_of "" <> Ok n.
  Notation enrolled_ok := (enrolled_ok normalise names_of name_of).
  Notation invx := (invx normalise names_of name_of builtins strong).
  Notation inv := (invx None).
  Notation ev := (ev strong).
  Notation obj_ok := (obj_ok strong).
  Notation deps_ok := (deps_ok names_of builtins strong).
  Notation complete := (complete normalise names_of builtins ord).
  Notation complete_autonomous := (complete_autonomous normalise names_of builtins ord).
  Notation completed_aut := (completed_aut names_of builtins).
  Notation required := (required_names builtins).

  Lemma complete_unfold self me s : heap s !! self = Some me ->
    complete self s = match o_kind me with
                      | Aut => complete_autonomous self s
                      | Pure => if o_full me then (s, Ok tt) else bnd (complete_autonomous self) (fun _ => tail self me) s
                      end.
  Proof. intros H. unfold Registry.complete. rewrite (bnd_get _ _ _ _ H). destruct (o_kind me); [done|]. by destruct (o_full me). Qed.

  Lemma same_identity_built src b o : same_identity o (built src b o).
  Proof. repeat split. Qed.
  Lemma block_shows s k n e : block s k n e -> shows s k n e.
  Proof.
    intros (j & o & Hj & Ho & ->). exists j, o. split; [done|]. split; [done|]. split; [done|]. cbn. unfold decorator. by destruct (o_kind o).
  Qed.
  Lemma refers_refersN s k isl a b : dict_get k (known s) = Some isl ->
    refers names_of s k a b <-> refersN names_of s k (list_to_set (dict_keys isl)) a b.
  Proof.
    intros Hk. unfold refers, refersN. rewrite elem_of_list_to_set, dict_keys_get. unfold reg. rewrite Hk, not_eq_None_Some. done.
  Qed.

  (** the block of a name *)
  Definition shown (s : st) (k : nat * string) (n : string) : entry :=
    match reg s k n with
    | Some j => match heap s !! j with Some o => (decorator o, o_src o) | None => (DAut false "", ""%string) end
    | None => (DAut false "", ""%string)
    end.
  Lemma block_shown s k n e : block s k n e -> e = shown s k n.
  Proof. intros (j & o & Hj & Ho & ->). unfold shown. by rewrite Hj, Ho. Qed.
  Lemma blocks_shown s k l es : Forall2 (block s k) l es -> es = map (shown s k) l.
  Proof. induction 1 as [|n e l es H _ IH]; cbn; [done|]. by rewrite (block_shown _ _ _ _ H), IH. Qed.

  (** the dependencies found, as the invariant states them *)
  Lemma deps_ok_intro s o (D : gset string) a : reg s (home o) (o_name o) <> None ->
    o_deps o = Some (sorted (elements D)) ->
    (forall m, m ∈ D <-> rtc (refers names_of s (home o)) (o_name o) m) ->
    names_of (o_src o) = Ok a -> (forall m, m ∈ required (o_name o) a -> reg s (home o) m <> None) ->
    (strong -> o_kind o = Pure -> required (o_name o) a = ∅ -> size D = 1) ->
    (strong -> o_kind o = Pure -> exists es, o_aug o = Some es /\ Forall2 (block s (home o)) (sorted (guard_names o ++ sorted (elements D))) es) ->
    deps_ok s o.
  Proof.
    intros Hn Hd HD Ha Hreq Hsz Haug. unfold reg in Hn. destruct (dict_get (home o) (known s)) as [isl|] eqn:Hk; [|done].
    exists (list_to_set (dict_keys isl)), D.
    assert (HN : forall m, m ∈ (list_to_set (dict_keys isl) : gset string) <-> reg s (home o) m <> None).
    { intros m. rewrite elem_of_list_to_set, dict_keys_get. unfold reg. by rewrite Hk, not_eq_None_Some. }
    split; [done|]. split; [intros m; apply HN|]. split; [rewrite elem_of_list_to_set, dict_keys_get; by apply not_eq_None_Some|]. split.
    { intros m. rewrite HD. split; intros H; (eapply rtc_subrel; [|exact H]); intros x y Hxy; by apply (refers_refersN s _ isl _ _ Hk). }
    split.
    { intros a' Ha'. rewrite Ha in Ha'. injection Ha' as <-. split; [|done]. intros m Hm. apply HN. by apply Hreq. }
    intros Hst Hp. destruct (Haug Hst Hp) as (es & He & F). pose proof (blocks_shown _ _ _ _ F) as ->. exists (shown s (home o)). split; [done|]. split.
    2:{ intros n Hin. apply elem_of_sorted, elem_of_list_lookup in Hin as (i & Hi). destruct (Forall2_lookup_l _ _ _ _ _ F Hi) as (e & He' & Hb).
        apply list_lookup_fmap_inv in He' as (n' & -> & Hn'). rewrite Hi in Hn'. injection Hn' as <-. by apply block_shows. }
    intros g Hg. apply HN. assert (Hin : g ∈ sorted (guard_names o ++ sorted (elements D))) by (apply elem_of_sorted, elem_of_app; by left).
    apply elem_of_list_lookup in Hin as (i & Hi). destruct (Forall2_lookup_l _ _ _ _ _ F Hi) as (e & _ & (j & oj & Hj & _)). congruence.
  Qed.

  (** states that differ in what is filled in *)
  Lemma refers_same s s' k a b : known s' = known s -> (forall k n j, reg s k n = Some j -> option_map o_src (heap s' !! j) = option_map o_src (heap s !! j)) ->
    refers names_of s' k a b <-> refers names_of s k a b.
  Proof.
    intros Hk Hs. assert (Hr : forall k n, reg s' k n = reg s k n) by (intros; unfold reg; by rewrite Hk). unfold refers, source_of, definition_of. rewrite !Hr.
    destruct (reg s k a) as [j|] eqn:E; [|done]. specialize (Hs _ _ _ E). destruct (heap s' !! j), (heap s !! j); cbn in *; try done. injection Hs as ->. done.
  Qed.

  Lemma deps_ok_whole s o es : deps_ok s o -> o_full o = true -> (strong -> whole es o = o) -> deps_ok s (whole es o).
  Proof.
    intros Hd Hf Hw. pose proof Hd as (N & D & H1 & H2 & H3 & H4 & H5 & H6). exists N, D. do 5 (split; [done|]). intros Hst. rewrite (Hw Hst). by apply H6.
  Qed.
  Lemma enrolled_not_blank s k n j o p : enrolled_ok s -> reg s k n = Some j -> heap s !! j = Some o -> o_src o <> o_src (blank Aut p).
  Proof. intros Hen Hj Ho E. destruct (Hen _ _ _ Hj) as (o1 & Ho1 & _ & _ & Hnm & _). rewrite Ho in Ho1. injection Ho1 as <-. rewrite E in Hnm. by apply no_empty in Hnm. Qed.

  (** completing an autonomous function *)
  Lemma complete_aut_ok s self me s' r : inv s -> heap s !! self = Some me -> o_kind me = Aut -> complete_autonomous self s = (s', r) -> inv s' /\ ev s s'.
  Proof.
    intros Hinv Hm Ek Hrun.
    pose proof (inv_enrolled _ _ _ _ _ _ _ Hinv) as Hen. pose proof (inv_wf _ _ _ _ _ _ _ Hinv) as Hwf.
    assert (Hokm : obj_ok s me) by (by eapply inv_obj).
    assert (Hsame : inv s /\ ev s s) by (split; [done|apply ev_refl]).
    pose proof (complete_aut_run normalise names_of name_of builtins ord ord_perm function_name s self me s' r Hen Hwf Hm Hrun) as Hc.
    destruct Hc as [Hf|Hf Hn|j o Hf Hj Ho Hd|j o Hf Hk Hj Ho Hs Hfo Hne|j o Hf Hk Hj Ho Hs Hfo|j o a b Hf Hj Ho Hs Hfo Ha Hreq Hwhy Hb|j o a D Hf Hj Ho Hs Hfo Ha Hreq Hstr HD]; try done.
    - (* late *)
      destruct (Hen _ _ _ Hj) as (o1 & Ho1 & Hho & Hno & Hnm & _). rewrite Ho in Ho1. injection Ho1 as <-.
      assert (Hnen : ~ enrolled s self).
      { intros (k & n & Hr). destruct (Hen _ _ _ Hr) as (om & Hom & Hhm & Hnm' & _). rewrite Hm in Hom. injection Hom as <-. subst k n. congruence. }
      destruct (upd_kind me o) as (K1 & K2 & K3 & K4).
      assert (Hisl : o_island (upd me o).1 = o_island me).
      { unfold home in Hho. injection Hho as _ Hho. unfold upd, finish. rewrite Hfo. destruct (o_code o); [|done]. destruct (o_deps o); cbn; rewrite ?Ek; cbn; congruence. }
      destruct (upd_aut me o Ek) as [Ug Ua].
      assert (Hid : same_identity me (upd me o).1).
      { unfold same_identity. rewrite K1, K2, K3, K4, Hisl, Ug. repeat split; congruence. }
      destruct (inv_put normalise names_of name_of builtins strong None s self (upd me o).1 (known s)) as [_ P]; [done|by left|done|by destruct s|done|].
      split.
      + apply P. split; [|split; [|split]].
        * split; [apply upd_code; [eapply (inv_obj _ _ _ _ _ _ _ Hinv j); done|]; intros c Hc; rewrite <- Hs; by apply Hokm|]. rewrite Ug. apply Hokm.
        * intros _. rewrite Ug, Ua. by apply Hokm.
        * rewrite K1, Ek. done.
        * intros Hst _. right. destruct Hokm as (_ & _ & _ & Hl). destruct (Hl Hst Ek) as [Hb|(j' & o' & Hj' & Ho' & Hk' & Hs' & Hf')].
          { exfalso. eapply (enrolled_not_blank _ _ _ _ _ (o_portal me) Hen Hj Ho). rewrite <- Hs, Hb. done. }
          exists j', o'. unfold home. rewrite K2, K4, Hisl, <- Hno, K3. assert (o' = o) as -> by congruence. do 4 (split; [done|]). intros _. exact Hfo.
      + split; [|done]. intros i oi Hi. cbn. destruct (decide (i = self)) as [->|Hni].
        * rewrite Hm in Hi. injection Hi as <-. rewrite list_lookup_insert by (by eapply lookup_lt_Some). eexists. split; [done|]. split; [done|]. split; [congruence|done].
        * rewrite list_lookup_insert_ne by done. exists oi. split; [done|]. split; [apply same_identity_refl|]. split; [apply kept_refl|done].
    - (* failed *)
      eapply (inv_touch normalise names_of name_of builtins strong s); [done|done|]. intros i. cbn. destruct (decide (i = self)) as [->|Hni].
      + right. exists me, (built (o_src me) b me). split; [done|]. split; [apply list_lookup_insert; by eapply lookup_lt_Some|].
        split; [apply same_identity_built|]. split; [done|]. split; [done|]. split; [cbn; congruence|]. split; [intros _; by apply Hokm|].
        split; [|done]. intros p ->. by eapply (enrolled_not_blank _ _ _ _ _ p Hen Hj Ho).
      + left. by rewrite list_lookup_insert_ne.
    - (* done *)
      rewrite (bool_decide_eq_true_2 (o_kind me = Aut)) by done.
      destruct (Hen _ _ _ Hj) as (o1 & Ho1 & Hho & Hno & Hnm & _). rewrite Ho in Ho1. injection Ho1 as <-.
      assert (Hoko : obj_ok s o) by (by eapply inv_obj).
      set (me' := set_full true (set_deps (Some (sorted (elements D))) (built (o_src me) (bool_decide (required (o_name me) a = ∅)) me))).
      set (o' := if decide (self = j) then me' else set_full true (set_deps (Some (sorted (elements D))) o)).
      assert (Hhp : <[self:=me']> (<[j:=set_full true (set_deps (Some (sorted (elements D))) o)]> (heap s)) = <[self:=me']> (<[j := o']> (heap s))).
      { unfold o'. destruct (decide (self = j)) as [<-|]; [|done]. by rewrite !list_insert_insert. }
      rewrite Hhp.
      assert (Hko : strong -> o_kind o = Aut).
      { intros Hst. destruct Hokm as (_ & _ & _ & Hl). destruct (Hl Hst Ek) as [Hb|(j' & oj & Hj' & Ho' & Hk' & _)]; [|congruence].
        exfalso. eapply (enrolled_not_blank _ _ _ _ _ (o_portal me) Hen Hj Ho). rewrite <- Hs, Hb. done. }
      assert (Hio : same_identity o o').
      { unfold o'. destruct (decide (self = j)) as [<-|]; [|done]. assert (o = me) as -> by congruence. done. }
      assert (Hdo : o_deps o' = Some (sorted (elements D)) /\ o_full o' = true). { unfold o'. by destruct (decide (self = j)). }
      destruct Hdo as [Hdo Hfo']. pose proof Hio as (I1 & I2 & I3 & I4 & I5 & I6). assert (Hh' : home o' = home me) by (rewrite Hho; unfold home; congruence).
      apply (inv_complete normalise names_of name_of builtins strong s j o o' self me me'); try done; try congruence.
      + apply (deps_ok_intro s o' D a); rewrite ?Hh', <- ?I4, <- ?I3, <- ?Hno, <- ?Hs, <- ?I1; try done; [congruence|..]; intros Hst Hp; exfalso; specialize (Hko Hst); congruence.
      + unfold o'. destruct (decide (self = j)) as [<-|]; [cbn; congruence|]. cbn. by apply Hoko.
      + unfold o'. destruct (decide (self = j)) as [<-|]; [intros _; by apply Hokm|]. by apply Hoko.
      + unfold o'. intros <-. by rewrite decide_True.
      + cbn. congruence.
      + intros _. by apply Hokm.
      + intros Hst _. rewrite <- I1. auto.
      + unfold o'. destruct (decide (self = j)) as [<-|]; [|done]. assert (o = me) as -> by congruence. cbn. intros Hs1. apply bool_decide_eq_true_2, Hstr, Hs1.
  Qed.

  (** completing a pure function *)
  Lemma complete_pure_ok s self me s' r : inv s -> heap s !! self = Some me -> o_kind me = Pure -> o_full me = false ->
    bnd (complete_autonomous self) (fun _ => tail self me) s = (s', r) -> inv s' /\ ev s s'.
  Proof.
    intros Hinv Hm Ek Hfm Hrun.
    pose proof (inv_enrolled _ _ _ _ _ _ _ Hinv) as Hen. pose proof (inv_wf _ _ _ _ _ _ _ Hinv) as Hwf.
    assert (Hokm : obj_ok s me) by (by eapply inv_obj).
    assert (Hsame : inv s /\ ev s s) by (split; [done|apply ev_refl]).
    unfold bnd in Hrun. destruct (complete_autonomous self s) as [s1 r1] eqn:E1.
    pose proof (complete_aut_run normalise names_of name_of builtins ord ord_perm function_name s self me s1 r1 Hen Hwf Hm E1) as Hc.
    assert (Hpo : exists j o, reg s (home me) (o_name me) = Some j /\ heap s !! j = Some o /\ o_src o = o_src me /\ o_guards o = o_guards me /\ o_kind o = Pure).
    { destruct Hokm as (_ & _ & HP & _). destruct (HP Ek) as (j & o & H1 & H2 & H3 & H4 & H5 & _). by exists j, o. }
    destruct Hpo as (j0 & o0 & Hj0 & Ho0 & Hs0 & Hg0 & Hk0).
    destruct (Hen _ _ _ Hj0) as (o1 & Ho1 & Hho & Hno & Hnm & _). rewrite Ho0 in Ho1. injection Ho1 as <-.
    assert (Hoko : obj_ok s o0) by (by eapply inv_obj).
    destruct Hc as [Hf|Hf Hn|j o Hf Hj Ho Hd|j o Hf Hk Hj Ho Hs Hfo Hne|j o Hf Hk Hj Ho Hs Hfo|j o a b Hf Hj Ho Hs Hfo Ha Hreq Hwhy Hb|j o a D Hf Hj Ho Hs Hfo Ha Hreq Hstr HD]; try congruence.
    - (* the registered one is complete *)
      assert (j = j0) as -> by congruence. assert (o = o0) as -> by congruence.
      destruct (tail_run s self me me j0 o0 s' r Hm (same_identity_refl me) Hj Ho Hrun) as [[-> _]|(-> & d & es & Hd & Hl1 & Hst1 & Hkp & Haug & Hbl & ->)]; [done|].
      pose proof (inv_reg _ _ _ _ _ _ _ Hinv _ _ _ _ Hj Ho Hfo) as Hdeps.
      assert (Hwhole : strong -> whole es o0 = o0).
      { intros Hst. destruct Hdeps as (N & D & _ & _ & _ & _ & _ & H6). destruct (H6 Hst Hkp) as (es' & E & _ & _). destruct Haug as [Haug|Haug]; [congruence|].
        unfold whole. rewrite (set_aug_id _ _ Haug). destruct o0; cbn in *. by rewrite Hfo. }
      apply (inv_complete normalise names_of name_of builtins strong s j0 o0 (whole es o0) self me (whole es me)); try done.
      + intros _. split; [done|]. do 3 (split; [done|]). split; [|done]. destruct Haug as [H|H]; [right; done|left; by rewrite H].
      + by apply deps_ok_whole.
      + apply Hoko.
      + cbn. congruence.
      + congruence.
      + apply Hokm.
      + cbn. congruence.
      + congruence.
    - (* failed *)
      injection Hrun as <- <-. eapply (inv_touch normalise names_of name_of builtins strong s); [done|done|]. intros i. cbn. destruct (decide (i = self)) as [->|Hni].
      + right. exists me, (built (o_src me) b me). split; [done|]. split; [apply list_lookup_insert; by eapply lookup_lt_Some|].
        split; [apply same_identity_built|]. split; [done|]. split; [done|]. split; [cbn; congruence|]. split; [cbn; congruence|].
        split; [|done]. intros p ->. done.
      + left. by rewrite list_lookup_insert_ne.
    - (* done *)
      assert (j = j0) as -> by congruence. assert (o = o0) as -> by congruence.
      revert Hrun E1. rewrite (bool_decide_eq_false_2 (o_kind me = Aut)) by congruence.
      set (me1 := set_full false (set_deps (Some (sorted (elements D))) (built (o_src me) (bool_decide (required (o_name me) a = ∅)) me))).
      set (o1 := if decide (self = j0) then me1 else set_full false (set_deps (Some (sorted (elements D))) o0)).
      set (s1 := St _ _). intros Hrun _.
      assert (Hlj : j0 < List.length (heap s)) by (by eapply lookup_lt_Some). assert (Hls : self < List.length (heap s)) by (by eapply lookup_lt_Some).
      assert (Hm1 : heap s1 !! self = Some me1) by (cbn; apply list_lookup_insert; by rewrite insert_length).
      assert (Ho1 : heap s1 !! j0 = Some o1).
      { unfold o1. destruct (decide (self = j0)) as [->|Hne]; [done|]. cbn. rewrite list_lookup_insert_ne by done. by apply list_lookup_insert. }
      assert (Hoth : forall i, i <> self -> i <> j0 -> heap s1 !! i = heap s !! i) by (intros; cbn; by rewrite !list_lookup_insert_ne).
      assert (Him : same_identity me me1) by done.
      assert (Hio : same_identity o0 o1). { unfold o1. destruct (decide (self = j0)) as [<-|]; [|done]. assert (o0 = me) as -> by congruence. done. }
      assert (Hdo : o_deps o1 = Some (sorted (elements D)) /\ o_full o1 = false). { unfold o1. by destruct (decide (self = j0)). }
      destruct Hdo as [Hdo Hfo1].
      assert (Hco : forall c, o_code o1 = Some c -> c = o_src o1). { unfold o1. destruct (decide (self = j0)); [cbn; congruence|]. cbn. apply Hoko. }
      pose proof Hio as (I1 & I2 & I3 & I4 & I5 & I6).
      assert (Hinv1 : inv s1 /\ ev s s1).
      { apply (inv_touch normalise names_of name_of builtins strong s); [done|done|]. intros i. destruct (decide (i = self)) as [->|Hns].
        - right. exists me, me1. split; [done|]. split; [done|]. split; [done|]. split; [done|]. split; [done|]. split; [cbn; congruence|]. split; [cbn; congruence|]. split; [intros p ->; done|]. cbn. intros Hs1. apply bool_decide_eq_true_2, Hstr, Hs1.
        - destruct (decide (i = j0)) as [->|Hnj]; [|left; by apply Hoth]. right. exists o0, o1. split; [done|]. split; [done|]. split; [done|]. split; [done|]. split; [done|].
          split; [done|]. split; [congruence|]. split; [intros p ->; done|]. unfold o1. destruct (decide (self = j0)) as [<-|]; [|done].
          assert (o0 = me) as -> by congruence. cbn. intros Hs1. apply bool_decide_eq_true_2, Hstr, Hs1. }
      destruct Hinv1 as [Hinv1 Hev1].
      assert (Hj1 : reg s1 (home me) (o_name me) = Some j0) by done.
      destruct (tail_run s1 self me me1 j0 o1 s' r Hm1 Him Hj1 Ho1 Hrun) as [[-> _]|(-> & d & es & Hd & Hl1 & Hst1 & Hkp & Haug & Hbl & ->)]; [done|].
      rewrite Hdo in Hd. injection Hd as <-.
      assert (Hh1 : home o1 = home me) by (rewrite Hho; unfold home; congruence).
      assert (Hg1 : guard_names o1 = guard_names me) by (unfold guard_names; by rewrite <- I6, Hg0).
      assert (Hfin : inv (tailed s1 self j0 me1 o1 es) /\ ev s1 (tailed s1 self j0 me1 o1 es)).
      { assert (Hdk : deps_ok s1 (whole es o1)).
        { apply (deps_ok_intro s1 (whole es o1) D a).
          + change (home (whole es o1)) with (home o1). change (o_name (whole es o1)) with (o_name o1). rewrite Hh1, <- I4, <- Hno. congruence.
          + done.
          + intros m. rewrite HD. change (home (whole es o1)) with (home o1). change (o_name (whole es o1)) with (o_name o1). rewrite Hh1, <- I4, <- Hno.
            assert (Hrf : forall x y, refers names_of s1 (home me) x y <-> refers names_of s (home me) x y).
            { intros x y. apply refers_same; [done|]. intros k n i Hi. destruct (decide (i = self)) as [->|Hns]; [by rewrite Hm1, Hm|].
              destruct (decide (i = j0)) as [->|Hnj]; [rewrite Ho1, Ho0; cbn; by rewrite I3|]. by rewrite Hoth. }
            split; intros H; (eapply rtc_subrel; [|exact H]); intros x y; by apply Hrf.
          + change (o_src (whole es o1)) with (o_src o1). rewrite <- I3, <- Hs. done.
          + change (home (whole es o1)) with (home o1). change (o_name (whole es o1)) with (o_name o1). rewrite Hh1, <- I4, <- Hno. done.
          + intros _ _. change (o_name (whole es o1)) with (o_name o1). rewrite <- I4, <- Hno. intros Hq. rewrite list_to_gset_len in Hst1. apply Hst1. cbn. by apply bool_decide_eq_true_2.
          + intros _ _. exists es. split; [done|]. change (home (whole es o1)) with (home o1). change (guard_names (whole es o1)) with (guard_names o1). rewrite Hh1, Hg1.
            rewrite <- (sorted_idemp (elements D)). exact Hbl. }
        apply (inv_complete normalise names_of name_of builtins strong s1 j0 o1 (whole es o1) self me1 (whole es me1)); try done; try congruence;
          first [cbn; congruence|intros E; unfold o1; by rewrite decide_True]. }
      destruct Hfin as [Hf1 Hf2]. split; [done|]. by eapply ev_trans.
  Qed.

  Lemma complete_ok s self me s' r : inv s -> heap s !! self = Some me -> complete self s = (s', r) -> inv s' /\ ev s s'.
  Proof.
    intros Hinv Hm Hrun. rewrite (complete_unfold _ _ _ Hm) in Hrun. destruct (o_kind me) eqn:Ek; [by eapply complete_aut_ok|].
    destruct (o_full me) eqn:Ef; [injection Hrun as <- <-; split; [done|apply ev_refl]|by eapply complete_pure_ok].
  Qed.
End Complete.
