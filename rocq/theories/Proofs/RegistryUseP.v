(** Registration of functions: forward lemmas about definitions. *)
From Coq Require Import String Sorted.
From stdpp Require Import gmap.
From Verif Require Import Lib.Py Lib.DictLemmas Model.PyAst Model.Normalizer Model.NamesAnalyzer Model.CallGraph Model.Registry.
From Verif.Spec Require Import RegistrySpec.
From Verif.Proofs Require Import RegistryP RegistryInvP RegistryOpsP RegistryCompleteP RegistryRunP.
Local Open Scope nat_scope.

Lemma guards_names_run s self me l : heap s !! self = Some me -> is_Some (dict_get (home me) (known s)) -> (forall x, x ∈ l -> reg s (home me) x <> None) ->
  preprocess_guards self (Some (map GName l)) s = (s, Ok (Some (sorted l))).
Proof.
  intros Hm [isl Hk] Hl. unfold preprocess_guards. rewrite (bnd_get _ _ _ _ Hm). ms. fold (home me). rewrite Hk. cbn [or_raise]. ms.
  match goal with |- bnd (mapm ?f0 _) _ _ = _ => set (f := f0) end.
  assert (E : forall l', (forall x, x ∈ l' -> reg s (home me) x <> None) -> mapm f (map GName l') s = (s, Ok l')).
  { induction l' as [|x l' IH]; intros H; cbn [map mapm]; [done|]. unfold f at 1. ms.
    assert (dict_mem x isl = true) as ->. { specialize (H x ltac:(left)). unfold reg in H. rewrite Hk in H. unfold dict_mem. by destruct (dict_get x isl). }
    ms. unfold bnd at 1. rewrite IH by (intros; apply H; by right). done. }
  unfold bnd. rewrite (E l Hl). done.
Qed.

(** what the guards given to a definition stand for *)
Lemma guards_meaning self me gs s s' g : heap s !! self = Some me -> o_strict me = false -> preprocess_guards self gs s = (s', Ok g) ->
  g = option_map (fun l => sorted (map (guard_name s) l)) gs /\ forall f l, gs = Some l -> GFn f ∈ l -> f <> self.
Proof.
  intros Hm Hst. unfold preprocess_guards. destruct gs as [l|]; [|intros H; injection H as <- <-; done]. rewrite (bnd_get _ _ _ _ Hm). ms.
  destruct (dict_get _ _) as [isl|]; cbn [or_raise]; ms; [|done].
  match goal with |- bnd (mapm ?f0 _) _ _ = _ -> _ => set (f := f0) end.
  assert (E : forall l1 ns s1, mapm f l1 s = (s1, Ok ns) -> s1 = s /\ ns = map (guard_name s) l1 /\ forall i, GFn i ∈ l1 -> i <> self).
  { induction l1 as [|x l0 IH]; intros ns s1; cbn [mapm]; [unfold ret; intros H; injection H as <- <-; split; [done|split; [done|]]; intros i Hi; inversion Hi|].
    unfold f at 1. destruct x as [i|x]; ms.
    - unfold bnd at 1, get. destruct (heap s !! i) as [o|] eqn:Ho; [|done]. ms. destruct (o_strict o) eqn:Es; [|done]. ms.
      destruct (bool_decide _); ms; [|done]. destruct (bool_decide _); ms; [|done].
      unfold bnd at 1. destruct (mapm f l0 s) as [s2 [ns'|]]; [|done]. intros [= <- <-]. destruct (IH _ _ eq_refl) as (-> & -> & E).
      split; [done|]. cbn. rewrite Ho. split; [done|]. intros i' Hi. apply elem_of_cons in Hi as [[= ->]|Hi]; [|by apply E]. congruence.
    - destruct (dict_mem x isl); ms; [|done]. unfold bnd at 1. destruct (mapm f l0 s) as [s2 [ns'|]]; [|done]. intros [= <- <-]. destruct (IH _ _ eq_refl) as (-> & -> & E).
      split; [done|]. split; [done|]. intros i' Hi. apply elem_of_cons in Hi as [?|Hi]; [done|by apply E]. }
  unfold bnd. destruct (mapm f l s) as [s2 [ns|]] eqn:El; [|done]. apply E in El. destruct El as (-> & -> & El). intros [= <- <-]. split; [done|]. intros f' l' [= <-]. apply El.
Qed.

Section Use.
  Variable normalise : bool -> string -> res string.
  Variable names_of : string -> res ana.
  Variable name_of : string -> res string.
  Variable builtins : gset string.
  Variable strong : Prop.
  Variable ord : nat -> gset string -> list string.
  Variable default_island : nat -> string.
  Hypothesis ord_perm : forall t X, ord t X ≡ₚ elements X.
  Hypothesis function_name : forall src n a, normalise false src = Ok src -> name_of src = Ok n -> names_of src = Ok a -> a_function a = Some n.
  Hypothesis no_empty : forall n, name_of "" <> Ok n.
  Notation invx := (invx normalise names_of name_of builtins strong).
  Notation inv := (invx None).
  Notation ev := (ev strong).
  Notation begin_registration := (begin_registration normalise names_of).
  Notation new_fn := (new_fn normalise names_of name_of default_island).
  Notation iod := (island_or_default default_island).

  Lemma lookup_snoc {A} (l : list A) x : (l ++ [x]) !! List.length l = Some x.
  Proof. rewrite lookup_app_r by lia. by rewrite Nat.sub_diag. Qed.
  Lemma insert_snoc {A} (l : list A) x y : <[List.length l := x]> (l ++ [y]) = l ++ [x].
  Proof. rewrite insert_app_r_alt by lia. by rewrite Nat.sub_diag. Qed.

  Lemma discard_eq {A B} self p (m1 m2 : M A) (k : A -> M B) s1 s2 : m1 s1 = m2 s2 -> bnd (discard self p m1) k s1 = bnd (discard self p m2) k s2.
  Proof. intros E. unfold bnd, discard. by rewrite E. Qed.

  (** a definition whose source is fine registers the object built from it *)
  Lemma new_fn_eq s k code isl strictly gs p src name g : normalise true code = Ok src -> name_of src = Ok name ->
    let self := List.length (heap s) in let s3 := St (heap s ++ [raw_fn k src name (iod isl p) strictly None p]) (known s) in
    (k = Aut /\ g = None \/ k = Pure /\ preprocess_guards self gs s3 = (s3, Ok g)) ->
    new_fn k code isl strictly gs p s = (discard self p (begin_registration self) ;; ret self) (St (heap s ++ [raw_fn k src name (iod isl p) strictly g p]) (known s)).
  Proof.
    intros Hn Hnm self s3 Hg. assert (Hins : forall (x y : fnobj), <[self := x]> (heap s ++ [y]) = heap s ++ [x]) by (intros; apply insert_snoc). unfold Registry.new_fn. rewrite bnd_alloc. fold self.
    match goal with |- bnd (discard self p ?m0) _ ?s1 = _ => assert (E : m0 s1 = begin_registration self (St (heap s ++ [raw_fn k src name (iod isl p) strictly g p]) (known s))) end.
    { ms. rewrite Hn. ms. rewrite Hnm. ms. rewrite (alter_eq_insert (heap s ++ [blank k p]) self (set_names src name) (blank k p)) by apply lookup_snoc.
      rewrite alter_insert', Hins.
      destruct Hg as [[-> ->]|[-> Hg]]; [done|]. rewrite bnd_assoc.
      change (set_place _ _ _) with (raw_fn Pure src name (iod isl p) strictly None p). fold s3. unfold bnd at 1. rewrite Hg. ms. unfold s3 at 1. cbn [heap].
      rewrite (alter_eq_insert _ self _ (raw_fn Pure src name (iod isl p) strictly None p)) by apply lookup_snoc. rewrite Hins. done. }
    by apply discard_eq.
  Qed.

  (** what a definition does, whatever its outcome *)
  Lemma new_fn_effect s k code isl strictly gs p s' r : inv s -> new_fn k code isl strictly gs p s = (s', r) ->
    inv s' /\ ev s s' /\ (forall i o, heap s !! i = Some o -> heap s' !! i = Some o) /\
    match r with
    | Err _ => forall k n, reg s' k n = reg s k n
    | Ok i => i = List.length (heap s) /\ exists src name me j o, normalise true code = Ok src /\ name_of src = Ok name
        /\ (forall k' n', reg s' k' n' = if decide (k' = (p, iod isl p) /\ n' = name) then Some j else reg s k' n')
        /\ heap s' !! i = Some me /\ heap s' !! j = Some o /\ o_kind me = k /\ o_portal me = p /\ o_src me = src /\ o_name me = name /\ o_island me = iod isl p
        /\ o_kind o = k /\ o_src o = src /\ decorator o = requested s k strictly (iod isl p) gs
        /\ (reg s (p, iod isl p) name = None -> j = i /\ o = raw_fn k src name (iod isl p) strictly (option_map (fun l => sorted (map (guard_name s) l)) gs) p)
        /\ (forall j', reg s (p, iod isl p) name = Some j' -> j' = j)
    end.
  Proof.
    intros Hinv Hrun. pose proof (new_fn_run normalise names_of name_of builtins strong default_island s k code isl strictly gs p s' r Hinv Hrun) as (H1 & H2 & H3 & H4). cbn zeta in H3, H4.
    split; [done|]. split; [done|]. set (self := List.length (heap s)) in *. split.
    { destruct H3 as (B & _ & _). intros i o Hi. assert (i < self) by (by eapply lookup_lt_Some). rewrite B by lia. cbn. by rewrite lookup_app_l. }
    destruct r as [i|e]; [|done]. destruct H4 as (-> & src & name & g & Hn & Hnm & Hgs & Hx & Hne & Hraw & Hb & Hg). split; [done|].
    set (me := raw_fn k src name (iod isl p) strictly g p) in *.
    destruct (begin_ok normalise names_of name_of builtins strong _ self me s' (Ok tt) Hx (lookup_snoc _ _) Hne Hraw Hb) as (_ & _ & me' & j & o & K).
    destruct K as (K1 & K2 & K3 & K4 & K5 & K6 & K7 & K8 & K9 & K10 & K11 & K12 & K13 & K14 & K15 & K16).
    assert (Hgg : k = Pure -> g = option_map (fun l => sorted (map (guard_name s) l)) gs).
    { intros Hk. destruct (Hg Hk) as (s3 & Hp & Hk3 & Hh3 & m3 & Hm3 & Hm3p & Hm3i & Hm3s).
      destruct (guards_meaning self m3 gs s3 s3 g Hm3 Hm3s Hp) as [-> Hf]. destruct gs as [l|]; [|done]. cbn. do 2 f_equal. apply map_ext_in. intros x Hx'. apply elem_of_list_In in Hx'.
      destruct x as [f|x]; [|done]. cbn. specialize (Hf f l eq_refl Hx'). rewrite (Hh3 f Hf). cbn.
      destruct (decide (f < self)) as [Hlt|Hge]; [by rewrite lookup_app_l|]. rewrite lookup_app_r by (unfold self in *; lia).
      rewrite (lookup_ge_None_2 (heap s)) by (unfold self in *; lia).
      destruct (f - List.length (heap s)) eqn:E; [unfold self in *; lia|done]. }
    assert (Hdec : decorator me = requested s k strictly (iod isl p) gs).
    { unfold requested, decorator. destruct k; cbn; [done|]. by rewrite Hgg. }
    exists src, name, me', j, o. do 2 (split; [done|]). split; [exact K13|]. do 2 (split; [done|]). do 5 (split; [done|]). split; [done|]. split; [done|]. split; [by rewrite K14|].
    split.
    - intros Hno. destruct (K15 Hno) as (-> & -> & ->). split; [done|]. unfold me, raw_fn. destruct k; [done|]. by rewrite Hgg.
    - intros j' Hj'. by apply K16.
  Qed.
End Use.
