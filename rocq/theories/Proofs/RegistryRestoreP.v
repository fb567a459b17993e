(** Registration of functions: restoring a pickled pure function in a session that knows nothing of its island. *)
From Coq Require Import String Sorted.
From stdpp Require Import gmap.
From Verif Require Import Lib.Py Lib.DictLemmas Model.PyAst Model.Normalizer Model.NamesAnalyzer Model.CallGraph Model.Registry.
From Verif.Spec Require Import RegistrySpec.
From Verif.Proofs Require Import RegistryP RegistryInvP RegistryOpsP RegistryCompleteP RegistryRunP RegistryUseP RegistryFrameP RegistryPureP.
Local Open Scope nat_scope.

Section Restore.
  Variable normalise : bool -> string -> res string.
  Variable names_of : string -> res ana.
  Variable name_of : string -> res string.
  Variable builtins : gset string.
  Variable strong : Prop.
  Variable ord : nat -> gset string -> list string.
  Variable default_island : nat -> string.
  Hypothesis ord_perm : forall t X, ord t X ≡ₚ elements X.
  Hypothesis function_name : forall src n a, normalise false src = Ok src -> name_of src = Ok n -> names_of src = Ok a -> a_function a = Some n.
  Hypothesis no_empty : forall n, name_of "" <> Ok n.
  Notation enrolled_ok := (enrolled_ok normalise names_of name_of).
  Notation fit := (fit normalise names_of).
  Notation invx := (invx normalise names_of name_of builtins strong).
  Notation inv := (invx None).
  Notation ev := (ev strong).
  Notation required := (required_names builtins).
  Notation begin_registration := (begin_registration normalise names_of).
  Notation complete := (complete normalise names_of builtins ord).
  Notation new_fn := (new_fn normalise names_of name_of default_island).
  Notation process_augmented := (process_augmented normalise names_of name_of default_island).
  Notation set_state := (set_state normalise names_of name_of builtins ord default_island).
  Notation get_state := (get_state normalise names_of builtins ord).

  (** a registration that goes through *)
  Lemma begin_fwd s self me : invx (Some self) s -> heap s !! self = Some me -> ~ enrolled s self -> raw_ok name_of me -> fit (o_src me) = Ok tt ->
    (forall j o, reg s (home me) (o_name me) = Some j -> heap s !! j = Some o -> o_full o = false /\ o_src o = o_src me /\ decorator o = decorator me) ->
    exists s', begin_registration self s = (s', Ok tt).
  Proof.
    intros Hinv Hm Hne Hraw Hfit Hold. destruct (begin_registration self s) as [s' r] eqn:E. exists s'. f_equal.
    pose proof (inv_enrolled _ _ _ _ _ _ _ Hinv) as Hen.
    apply (begin_run _ _ _ _ me) in E; [|done|done|by eapply enrolled_alive].
    destruct E as [j o Hj Ho Hsame|j o Hj Ho Hsame|kn e Hj Hfit' Hrg Hwf'|kn Hj Hfit' Hrg Hwf']; try done; try congruence.
    - destruct (Hold _ _ Hj Ho) as (Hf & _). apply andb_true_iff in Hsame as [_ Hk]. apply bool_decide_eq_true in Hk.
      unfold upd. rewrite Hf. unfold finish. cbn. rewrite Hk. by destruct (o_kind o).
    - exfalso. destruct (Hold _ _ Hj Ho) as (_ & Hs & Hd). unfold same_definition in Hsame.
      rewrite (bool_decide_eq_true_2 (o_src me = o_src o)), (bool_decide_eq_true_2 (decorator me = decorator o)), (bool_decide_eq_true_2 (o_kind me = o_kind o)) in Hsame by (try done; unfold decorator in Hd; by destruct (o_kind o), (o_kind me)).
      done.
  Qed.

  Lemma new_fn_ok s k sc isl strictly gs gl p name : inv s -> normalise true sc = Ok sc -> name_of sc = Ok name -> fit sc = Ok tt ->
    (k = Aut /\ gl = None \/ k = Pure /\ gs = option_map (map GName) gl /\ is_Some (dict_get (p, isl) (known s)) /\ (forall l x, gl = Some l -> x ∈ l -> reg s (p, isl) x <> None)) ->
    (forall j o, reg s (p, isl) name = Some j -> heap s !! j = Some o -> o_full o = false /\ o_src o = sc /\ decorator o = decorator (raw_fn k sc name isl strictly (option_map sorted gl) p)) ->
    exists s', new_fn k sc (Some isl) strictly gs p s = (s', Ok (List.length (heap s))).
  Proof.
    intros Hinv Hn Hnm Hfit Hk Hold. set (self := List.length (heap s)). set (me := raw_fn k sc name isl strictly (option_map sorted gl) p) in *.
    rewrite (new_fn_eq normalise names_of name_of default_island s k sc (Some isl) strictly gs p sc name (option_map sorted gl) Hn Hnm).
    2:{ destruct Hk as [[-> ->]|(-> & -> & Hisl & Hgl)]; [by left|right]. split; [done|]. destruct gl as [l|]; [|done]. cbn [option_map].
        apply (guards_names_run _ _ (raw_fn Pure sc name isl strictly None p)); [apply lookup_snoc|exact Hisl|]. intros x Hx. by apply (Hgl l). }
    cbn [island_or_default]. fold self me.
    destruct (inv_alloc normalise names_of name_of builtins strong s me Hinv) as (Hix & _ & Hne & Hl). fold self in Hix, Hne, Hl.
    destruct (begin_fwd _ self me Hix Hl Hne) as (s' & E).
    - split; [done|]. split; [done|]. split; [split; [done|]|by destruct k]. intros g Hg. cbn in Hg. destruct k; [done|]. destruct gl; [|done]. injection Hg as <-. apply sorted_idemp.
    - done.
    - intros j o Hj Ho. destruct (Hold j o Hj) as (A & B & C); [|done]. change (reg s (p, isl) name = Some j) in Hj.
      destruct (inv_enrolled _ _ _ _ _ _ _ Hinv _ _ _ Hj) as (oj & Hoj & _). cbn in Ho. rewrite lookup_app_l in Ho by (by eapply lookup_lt_Some). done.
    - exists s'. unfold bnd, discard. by rewrite E.
  Qed.

  (** ** Running an augmented source *)
  Section Load.
    Variables (t : st) (p : nat) (isl name : string) (self : nat) (me : fnobj) (E : string -> entry).
    Record loaded (u : st) (done : list string) : Prop := Loaded {
      ld_inv : inv u;
      ld_reg : forall n, reg u (p, isl) n <> None <-> n = name \/ n ∈ done;
      ld_obj : forall n j, reg u (p, isl) n = Some j -> exists o, heap u !! j = Some o /\ (decorator o, o_src o) = E n /\ o_full o = false;
      ld_self : reg u (p, isl) name = Some self /\ heap u !! self = Some me;
      ld_other : forall k n, k <> (p, isl) -> reg u k n = reg t k n;
      ld_heap : forall i o, heap t !! i = Some o -> heap u !! i = Some o
    }.
    (** a block that can be run *)
    Definition fine (n : string) : Prop :=
      normalise true (E n).2 = Ok (E n).2 /\ name_of (E n).2 = Ok n /\ fit (E n).2 = Ok tt /\ decor_island (E n).1 = isl /\ sorted (guards_in (E n).1) = guards_in (E n).1.

    Lemma load_step u done n : loaded u done -> fine n -> (forall g, g ∈ guards_in (E n).1 -> g = name \/ g ∈ done) ->
      exists u', (match (E n).1 with
                  | DAut strictly island => new_fn Aut (E n).2 (Some island) strictly None p
                  | DPure island gs => new_fn Pure (E n).2 (Some island) false (option_map (map GName) gs) p
                  end) u = (u', Ok (List.length (heap u))) /\ loaded u' (done ++ [n]).
    Proof.
      intros [Hinv Hreg Hobj [Hself Hme] Hother Hheap] (Fn & Fnm & Ff & Fi & Fs) Hg.
      assert (Hgo : forall k strictly gl gs, (k = Aut /\ gl = None \/ k = Pure /\ gs = option_map (map GName) gl) ->
        decorator (raw_fn k (E n).2 n isl strictly (option_map sorted gl) p) = (E n).1 -> guards_in (E n).1 = match gl with Some l => l | None => [] end ->
        exists u', new_fn k (E n).2 (Some isl) strictly gs p u = (u', Ok (List.length (heap u))) /\ loaded u' (done ++ [n])).
      { intros k strictly gl gs Hk Hd Hgi.
        destruct (new_fn_ok u k (E n).2 isl strictly gs gl p n Hinv Fn Fnm Ff) as (u' & Hu).
        { destruct Hk as [?|[? ?]]; [by left|right]. split; [done|]. split; [done|]. split.
          - unfold reg in Hself. destruct (dict_get (p, isl) (known u)); [by eexists|done].
          - intros l x -> Hx. apply Hreg, Hg. by rewrite Hgi. }
        { intros j o Hj Ho. destruct (Hobj _ _ Hj) as (o' & Ho' & He & Hf). rewrite Ho in Ho'. injection Ho' as <-. rewrite Hd, <- He. done. }
        exists u'. split; [done|].
        destruct (new_fn_effect normalise names_of name_of builtins strong default_island u k (E n).2 (Some isl) strictly gs p u' (Ok (List.length (heap u))) Hinv Hu) as (I1 & I2 & I3 & _ & R).
        destruct R as (sc & nm & me' & j & o & R1 & R2 & R3 & R4 & R5 & R6 & R7 & R8 & R9 & R10 & R11 & R12 & R13 & R14 & R15).
        rewrite Fn in R1. injection R1 as <-. rewrite Fnm in R2. injection R2 as <-. cbn [island_or_default] in *.
        split.
        - done.
        - intros m. rewrite R3. destruct (decide _) as [[_ ->]|Hd']; [split; [intros _; right; apply elem_of_app; right; by apply elem_of_list_singleton|done]|].
          rewrite Hreg, elem_of_app, elem_of_list_singleton. split; [tauto|]. intros [?|[?|Hm]]; [by left|by right|]. exfalso. by apply Hd'.
        - intros m j'. rewrite R3. destruct (decide _) as [[_ ->]|Hd'].
          + intros [= <-]. exists o. split; [done|]. destruct (reg u (p, isl) n) as [j1|] eqn:E1.
            * assert (j1 = j) as -> by (by apply R15). destruct (Hobj _ _ E1) as (o1 & Ho1 & He & Hf). apply I3 in Ho1. rewrite R5 in Ho1. injection Ho1 as <-. done.
            * destruct (R14 eq_refl) as (_ & Ho). split; [|rewrite Ho; done]. rewrite R12. destruct (E n) as [d sc]. cbn in *. f_equal. rewrite <- Hd, Ho.
              unfold raw_fn, decorator. cbn. destruct k; [done|]. f_equal. destruct Hk as [[? _]|[_ ->]]; [done|]. destruct gl as [l|]; [|done]. cbn. do 2 f_equal. rewrite map_map. symmetry. by rewrite map_id.
          + intros Hj'. destruct (Hobj _ _ Hj') as (o1 & Ho1 & H). exists o1. split; [by apply I3|done].
        - rewrite R3. split; [|by apply I3]. destruct (decide _) as [[_ <-]|]; [|done]. f_equal. symmetry. by apply R15.
        - intros k' m Hk'. rewrite R3, decide_False by (by intros [-> _]). by apply Hother.
        - intros i oi Hi. by apply I3, Hheap. }
      destruct ((E n).1) as [strictly island|island gs] eqn:Ed; cbn in Fi; subst island.
      - apply (Hgo Aut strictly None None); [by left|done|done].
      - apply (Hgo Pure false gs); [by right| |by destruct gs]. unfold decorator. cbn. f_equal. destruct gs as [l|]; [|done]. cbn [option_map]. f_equal. exact Fs.
    Qed.

    Lemma load l : forall u done, loaded u done -> (forall n, n ∈ l -> fine n) ->
      (forall l1 n l2, l = l1 ++ n :: l2 -> forall g, g ∈ guards_in (E n).1 -> g = name \/ g ∈ done ++ l1) ->
      exists u', process_augmented p (map E l) u = (u', Ok tt) /\ loaded u' (done ++ l).
    Proof.
      induction l as [|n l IH]; intros u done Hl Hfine Hg.
      - exists u. rewrite app_nil_r. done.
      - destruct (load_step u done n Hl) as (u1 & E1 & L1); [apply Hfine; left| |].
        { intros g Hin. specialize (Hg [] n l eq_refl g Hin). by rewrite app_nil_r in Hg. }
        destruct (IH u1 (done ++ [n]) L1) as (u2 & E2 & L2).
        { intros m Hm. apply Hfine. by right. }
        { intros l1 m l2 -> g Hin. specialize (Hg (n :: l1) m l2 eq_refl g Hin). by rewrite <- app_assoc. }
        exists u2. rewrite <- app_assoc in L2. split; [|done]. cbn [map Registry.process_augmented]. destruct (E n) as [d sc] eqn:Ee. cbn [fst snd] in E1. unfold bnd at 1. rewrite E1. done.
    Qed.
  End Load.

  (** what a pickled pure function says about the session it comes from *)
  Lemma get_state_says s f s1 name src isl aug strictly guards : strong -> inv s -> get_state f s = (s1, Ok (PickPure name src isl aug strictly guards)) ->
    inv s1 /\ exists q (N D : gset string) E a, 
      let k := (q, isl) in let gn := match guards with Some g => g | None => [] end in
      source_of s1 k name = Some src /\ aug = map E (sorted (gn ++ sorted (elements D))) /\ (forall n, n ∈ gn ++ sorted (elements D) -> n ∈ N /\ shows s1 k n (E n))
      /\ (E name = (DPure isl guards, src))
      /\ name ∈ D /\ (forall m, m ∈ D <-> rtc (refersN names_of s1 k N) name m) /\ names_of src = Ok a /\ (forall m, m ∈ required name a -> m ∈ N) /\ (required name a = ∅ -> size D = 1)
      /\ name_of src = Ok name /\ fit src = Ok tt /\ (forall g, guards = Some g -> sorted g = g).
  Proof.
    intros Hst Hinv Hrun. assert (Hi1 : inv s1) by (by eapply (keeps_get_state normalise names_of name_of builtins strong ord ord_perm function_name no_empty)). split; [done|].
    unfold Registry.get_state in Hrun. destruct (heap s !! f) as [me0|] eqn:Hm0; [|unfold bnd, get in Hrun; by rewrite Hm0 in Hrun].
    rewrite (bnd_get _ _ _ _ Hm0) in Hrun. destruct (o_kind me0) eqn:Ek0; [done|]. unfold bnd at 1 in Hrun. destruct (complete f s) as [s2 [[]|e]] eqn:Ec; [|done].
    destruct (complete_ok normalise names_of name_of builtins strong ord ord_perm function_name no_empty s f me0 s2 (Ok tt) Hinv Hm0 Ec) as [Hi2 [Hev _]].
    destruct (Hev _ _ Hm0) as (me & Hm & (I1 & _) & _). rewrite (bnd_get _ _ _ _ Hm) in Hrun.
    assert (Ek : o_kind me = Pure) by congruence. clear Hev Ec Hm0 Hi1 Hinv.
    assert (Hok : obj_ok strong s2 me) by (by eapply inv_obj). destruct Hok as ((_ & Hgs) & _ & HP & _). destruct (HP Ek) as (j & o & Hj & Ho & Hs & Hg & Hkp & Hful).
    unfold bnd in Hrun. rewrite (augmented_run _ _ _ _ _ Hm Hj Ho) in Hrun. destruct (o_full me) eqn:Hf; [|done]. destruct (Hful eq_refl) as [Hfo _].
    destruct (o_aug o) as [es|] eqn:Ha; [|done]. unfold ret in Hrun. injection Hrun as <- <- <- <- <- <- <-. clear HP Hful.
    destruct (inv_reg _ _ _ _ _ _ _ Hi2 _ _ _ _ Hj Ho Hfo) as (N & D & H1 & H2 & H3 & H4 & H5 & H6).
    destruct (inv_enrolled _ _ _ _ _ _ _ Hi2 _ _ _ Hj) as (o1 & Ho1 & Hh & Hn & Hnm & Hfit). rewrite Ho in Ho1. injection Ho1 as <-.
    rewrite <- Hh in *. rewrite <- Hn in *. destruct (H6 Hst Hkp) as (E & Ea & HG & HE). rewrite Ha in Ea. injection Ea as ->.
    assert (Hgn : guard_names o = match o_guards me with Some g => g | None => [] end) by (unfold guard_names; by rewrite Hg).
    pose proof Hfit as Hfit'. unfold RegistryP.fit in Hfit'. destruct (analyse normalise names_of (o_src o)) as [a|] eqn:Ean; [|done]. apply analyse_ok in Ean as [_ Ea].
    assert (Hin : o_name me ∈ D) by (apply H4; constructor).
    assert (Hsh : forall n, n ∈ D -> n ∈ N). { intros n Hd. apply H4 in Hd. clear -Hd H3. induction Hd as [|x y z [_ Hy] _ IH]; auto. }
    exists (o_portal me), N, D, E, a. change (o_portal me, o_island me) with (home me). cbn zeta.
    split; [unfold source_of, definition_of; rewrite Hj, Ho; cbn; by rewrite Hs|]. split; [by rewrite <- Hgn|].
    split. { rewrite <- Hgn. intros n Hin'. split; [|by apply HE]. apply elem_of_app in Hin' as [Hg'|Hd]; [by apply HG|]. apply elem_of_sorted, elem_of_elements in Hd. by apply Hsh. }
    split.
    { destruct (HE (o_name me)) as (j' & o' & Hj' & Ho' & E2 & E1); [apply elem_of_app; right; by apply elem_of_sorted, elem_of_elements|].
      assert (j' = j) as -> by congruence. assert (o' = o) as -> by congruence. destruct (E (o_name me)) as [d sc]. cbn in *. subst sc. rewrite Hs. f_equal.
      destruct d; [destruct E1; congruence|]. destruct E1 as (_ & -> & ->). unfold home in Hh. injection Hh as _ Hh. rewrite Hg, Hh. done. }
    rewrite <- Hs. split; [done|]. split; [done|]. split; [done|]. split; [apply (H5 a Ea)|]. split; [by apply (H5 a Ea)|]. done.
  Qed.

  Theorem restore s f s1 name src isl aug strictly guards t p : strong -> inv s -> get_state f s = (s1, Ok (PickPure name src isl aug strictly guards)) ->
    (forall a, names_of src = Ok a -> strictly = bool_decide (required name a = ∅)) ->
    (forall e, e ∈ aug -> normalise true e.2 = Ok e.2) ->
    (forall i e g, aug !! i = Some e -> g ∈ guards_in e.1 -> g = name \/ exists i' e', i' < i /\ aug !! i' = Some e' /\ name_of e'.2 = Ok g) ->
    inv t -> (forall n, reg t (p, isl) n = None) ->
    let self := List.length (heap t) in let x := PickPure name src isl aug strictly guards in
    exists t', set_state x p t = (t', Ok self) /\ get_state self t' = (t', Ok x)
      /\ (forall n, reg t' (p, isl) n <> None <-> exists e, e ∈ aug /\ name_of e.2 = Ok n)
      /\ (forall e n, e ∈ aug -> name_of e.2 = Ok n -> exists k, definition_of t' (p, isl) n = Some (k, e.1, e.2))
      /\ (forall k n, k <> (p, isl) -> reg t' k n = reg t k n)
      /\ (forall i o, heap t !! i = Some o -> heap t' !! i = Some o).
  Proof.
    intros Hst Hinv Hrun Hstr Hnorm Hord Ht Hno self x.
    destruct (get_state_says s f s1 name src isl aug strictly guards Hst Hinv Hrun) as (Hi1 & q & N & D & E & a & Hsrc & Haug & HE & HEn & HinD & HD & Ha & Hreq & Hsz & Hnm & Hfit & Hgs).
    cbn zeta in Haug, HE. set (gn := match guards with Some g => g | None => [] end) in *. set (names := sorted (gn ++ sorted (elements D))) in *.
    specialize (Hstr a Ha).
    set (me := FnObj Pure p src name isl strictly false None None guards None).
    destruct (inv_alloc normalise names_of name_of builtins strong t me Ht) as (Hix & _ & Hne & Hl). fold self in Hix, Hne, Hl. set (t1 := St (heap t ++ [me]) (known t)) in *.
    assert (Hraw : raw_ok name_of me) by done.
    assert (Hno1 : reg t1 (home me) (o_name me) = None) by apply (Hno name).
    destruct (begin_fwd t1 self me Hix Hl Hne Hraw Hfit) as (t2 & E2). { intros j o Hj. congruence. }
    destruct (begin_ok normalise names_of name_of builtins strong t1 self me t2 (Ok tt) Hix Hl Hne Hraw E2) as ((B1 & B2 & B3) & Hi2 & me' & j & o & K).
    destruct K as (K1 & K2 & K3 & K4 & K5 & K6 & K7 & K8 & K9 & K10 & K11 & K12 & K13 & K14 & K15 & _).
    destruct (K15 Hno1) as (-> & -> & ->). clear K2 K3 K4 K5 K6 K7 K10 K11 K12 K14 K15.
    change (home me) with (p, isl) in *. change (o_name me) with name in *.
    set (me2 := set_aug (Some aug) me). set (t3 := St (<[self := me2]> (heap t2)) (known t2)).
    assert (Hls : self < List.length (heap t2)) by (by eapply lookup_lt_Some).
    assert (Ht3 : inv t3 /\ ev t2 t3).
    { apply (inv_touch normalise names_of name_of builtins strong t2); [done|done|]. intros i. cbn. destruct (decide (i = self)) as [->|Hnei].
      - right. exists me, me2. split; [done|]. split; [by apply list_lookup_insert|]. split; [done|]. split; [done|]. split; [done|]. split; [done|]. split; [done|]. split; [done|done].
      - left. by rewrite list_lookup_insert_ne. }
    destruct Ht3 as [Ht3 _].
    assert (Hself3 : heap t3 !! self = Some me2) by (by apply list_lookup_insert).
    assert (Hreg3 : forall k n, reg t3 k n = if decide (k = (p, isl) /\ n = name) then Some self else reg t k n) by exact K13.
    assert (Hnames : forall n, n ∈ names <-> n ∈ gn \/ n ∈ D).
    { intros n. unfold names. rewrite elem_of_sorted, elem_of_app, elem_of_sorted, elem_of_elements. done. }
    assert (Hname : name ∈ names) by (apply Hnames; by right).
    assert (Hfine : forall n, n ∈ names -> fine isl E n).
    { intros n Hn. destruct (HE n) as [_ (jn & on & Hjn & Hon & Hsn & Hdn)]. { by unfold names in Hn; rewrite elem_of_sorted in Hn. }
      destruct (inv_enrolled _ _ _ _ _ _ _ Hi1 _ _ _ Hjn) as (on' & Hon' & Hhn & Hnn & Hnmn & Hfn). rewrite Hon in Hon'. injection Hon' as <-.
      split. { apply Hnorm. rewrite Haug. apply elem_of_list_fmap. by exists n. }
      rewrite Hsn. split; [done|]. split; [done|]. unfold home in Hhn. injection Hhn as _ Hhn.
      assert (Hokn : obj_ok strong s1 on) by (by eapply inv_obj). destruct Hokn as ((_ & Hgn) & _).
      destruct ((E n).1) as [b i|i g]; cbn; [destruct Hdn as (_ & ->); by split|]. destruct Hdn as (_ & -> & ->). split; [done|]. destruct (o_guards on) as [gg|]; [by apply Hgn|done]. }
    assert (L0 : loaded t p isl name self me2 E t3 []).
    { split.
      - done.
      - intros n. rewrite Hreg3. destruct (decide _) as [[_ ->]|Hd]; [split; [by left|done]|]. rewrite Hno. split; [done|]. intros [->|Hin]; [exfalso; by apply Hd|inversion Hin].
      - intros n j. rewrite Hreg3. destruct (decide _) as [[_ ->]|Hd]; [|by rewrite Hno]. intros [= <-]. exists me2. split; [done|]. rewrite HEn. done.
      - split; [rewrite Hreg3; by rewrite decide_True by done|done].
      - intros k n Hk. rewrite Hreg3. by rewrite decide_False by (intros [-> _]; done).
      - intros i o Hi. assert (i < self) by (by eapply lookup_lt_Some). cbn. rewrite list_lookup_insert_ne by lia. rewrite B1 by lia. cbn. by rewrite lookup_app_l. }
    destruct (load t p isl name self me2 E names t3 [] L0 Hfine) as (t4 & E4 & L4).
    { intros l1 n l2 Hl12 g Hg. assert (Hi : aug !! List.length l1 = Some (E n)). { rewrite Haug, Hl12, map_app. cbn. rewrite lookup_app_r by (by rewrite map_length). by rewrite map_length, Nat.sub_diag. }
      destruct (Hord _ _ g Hi Hg) as [->|(i' & e' & Hlt & He' & Hne')]; [by left|right]. cbn.
      rewrite Haug in He'. apply list_lookup_fmap_inv in He' as (n' & -> & Hn'). rewrite Hl12, lookup_app_l in Hn' by done.
      assert (Hin' : n' ∈ l1) by (apply elem_of_list_lookup; by exists i'). destruct (Hfine n') as (_ & Hx & _). { rewrite Hl12. apply elem_of_app. by left. }
      rewrite Hx in Hne'. injection Hne' as <-. done. }
    rewrite <- Haug in E4. cbn in L4. destruct L4 as [Hi4 Hreg4 Hobj4 [Hself4 Hme4] Hother4 Hheap4].
    assert (Hr4 : forall n, reg t4 (p, isl) n <> None <-> n ∈ names). { intros n. rewrite Hreg4. split; [intros [->|]; done|by right]. }
    assert (Hsource : forall n, n ∈ names -> source_of t4 (p, isl) n = source_of s1 (q, isl) n).
    { intros n Hn. destruct (HE n) as [_ (jn & on & Hjn & Hon & Hsn & Hdn)]. { by unfold names in Hn; rewrite elem_of_sorted in Hn. }
      apply Hr4 in Hn. destruct (reg t4 (p, isl) n) as [j4|] eqn:Ej4; [|done]. destruct (Hobj4 _ _ Ej4) as (o4 & Ho4 & He4 & _).
      unfold source_of, definition_of. rewrite Ej4, Ho4, Hjn, Hon. cbn. rewrite <- He4 in Hsn. cbn in Hsn. by rewrite Hsn. }
    assert (HD4 : forall m, m ∈ D <-> rtc (refers names_of t4 (p, isl)) name m).
    { intros m. rewrite HD. split; intros Hm.
      - assert (Hpath : forall z, rtc (refersN names_of s1 (q, isl) N) name z -> z ∈ names) by (intros z Hz; apply Hnames; right; by apply HD).
        apply rtc_nsteps in Hm as (k & Hm). revert m Hm. induction k as [|k IH]; intros m Hm; [inversion Hm; constructor|].
        apply nsteps_inv_r in Hm as (y & Hy & [(sy & Hsy & Hmy) Hmn]). eapply rtc_r; [by apply IH|]. 
        assert (Hyn : y ∈ names) by (apply Hpath, rtc_nsteps; by exists k).
        split; [exists sy; split; [by rewrite Hsource|done]|]. apply Hr4, Hpath. eapply rtc_r; [apply rtc_nsteps; by exists k|]. split; [by exists sy|done].
      - eapply rtc_subrel; [|exact Hm]. intros u v [(su & Hsu & Hmu) Hv]. apply Hr4 in Hv.
        assert (Hu : u ∈ names). { apply Hr4. intros Hu. unfold source_of, definition_of in Hsu. by rewrite Hu in Hsu. }
        split; [exists su; split; [by rewrite <- Hsource|done]|]. apply HE. by unfold names in Hv; rewrite elem_of_sorted in Hv. }
    assert (Hun : unfinished t4 self me2 self me2) by done.
    assert (Hreq4 : forall m, m ∈ required (o_name me2) a -> reg t4 (home me2) m <> None).
    { intros m Hm. change (home me2) with (p, isl). apply Hr4, Hnames. right. apply HD. apply rtc_once. split; [|by apply Hreq]. exists src. split; [done|]. exists a. split; [done|].
      unfold required_names in Hm. rewrite !elem_of_difference, elem_of_union in Hm. tauto. }
    assert (Hblk : Forall2 (block t4 (home me2)) (sorted (guard_names me2 ++ sorted (elements D))) aug).
    { change (guard_names me2) with gn. fold names. rewrite Haug. change (home me2) with (p, isl). apply Forall2_fmap_r. apply Forall_Forall2_diag. apply Forall_forall. intros n Hn.
      apply Hr4 in Hn. destruct (reg t4 (p, isl) n) as [j4|] eqn:Ej4; [|done]. destruct (Hobj4 _ _ Ej4) as (o4 & Ho4 & He4 & _). by exists j4, o4. }
    pose proof (inv_enrolled _ _ _ _ _ _ _ Hi4) as Hen4. pose proof (inv_wf _ _ _ _ _ _ _ Hi4) as Hwf4.
    destruct (get_state_fwd normalise names_of name_of builtins ord ord_perm function_name t4 self me2 self me2 a D aug Hen4 Hwf4 Hun Ha Hreq4) as (E5 & _ & E6).
    { cbn. rewrite Hstr. apply bool_decide_eq_true. }
    { exact HD4. }
    { exact Hsz. }
    { exact Hblk. }
    { by right. }
    set (t5 := finished _ _ _ _ _ _ _ _) in E5, E6. exists t5.
    split.
    { unfold x, Registry.set_state. rewrite bnd_alloc. fold self me t1. unfold bnd at 1. unfold discard. change (o_portal me) with p. rewrite E2. ms.
      assert (Hk2 : exists il, dict_get (p, isl) (known t2) = Some il /\ dict_get name il = Some self). { unfold reg in K8. destruct (dict_get (p, isl) (known t2)) as [il|]; [|done]. by exists il. }
      destruct Hk2 as (il & -> & Hil). cbn [or_raise]. ms. rewrite Hil. cbn [or_raise]. ms. rewrite (bnd_get _ _ _ _ K9). cbn [o_full me]. ms.
      rewrite (alter_eq_insert _ _ _ me K9). fold me2. fold t3. unfold bnd at 1. rewrite E4. unfold bnd. rewrite E5. done. }
    split. { rewrite E6. unfold x. rewrite Hstr. done. }
    assert (Hlook : forall i, i <> self -> heap t5 !! i = heap t4 !! i). { intros i Hi. unfold t5, finished. cbn. by rewrite !list_lookup_insert_ne by done. }
    assert (Hreg5 : forall k n, reg t5 k n = reg t4 k n) by done.
    assert (Hblocks : forall e n, e ∈ aug -> name_of e.2 = Ok n -> n ∈ names /\ e = E n).
    { intros e n He Hn. rewrite Haug in He. apply elem_of_list_fmap in He as (n' & -> & Hn'). destruct (Hfine _ Hn') as (_ & Hx & _). rewrite Hn in Hx. by injection Hx as ->. }
    split; [|split; [|split]].
    - intros n. rewrite Hreg5, Hr4. split.
      + intros Hn. exists (E n). split; [rewrite Haug; apply elem_of_list_fmap; by exists n|]. by apply (Hfine n Hn).
      + intros (e & He & Hn). by apply (Hblocks e n).
    - intros e n He Hn. destruct (Hblocks e n He Hn) as [Hin ->]. apply Hr4 in Hin. unfold definition_of. rewrite Hreg5. destruct (reg t4 (p, isl) n) as [j4|] eqn:Ej4; [|done].
      destruct (Hobj4 _ _ Ej4) as (o4 & Ho4 & He4 & _). destruct (decide (j4 = self)) as [->|Hns].
      + rewrite Hme4 in Ho4. injection Ho4 as <-. destruct (finished_look t4 self self me2 me2 D (bool_decide (required (o_name me2) a = ∅)) aug Hun) as [L1 _]. fold t5 in L1. rewrite L1. rewrite <- He4. eexists. reflexivity.
      + rewrite Hlook by done. rewrite Ho4, <- He4. eexists. reflexivity.
    - intros k n Hk. rewrite Hreg5. by apply Hother4.
    - intros i o Hi. rewrite Hlook; [by apply Hheap4|]. apply lookup_lt_Some in Hi. unfold self. lia.
  Qed.
End Restore.
