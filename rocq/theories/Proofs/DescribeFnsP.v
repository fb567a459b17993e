(** The functions a portal shows: proofs. *)
From Coq Require Import String Sorted.
From stdpp Require Import gmap.
From Verif Require Import Lib.Py Lib.DictLemmas Model.PyAst Model.Normalizer Model.NamesAnalyzer Model.CallGraph Model.Registry Model.DescribeFns.
From Verif.Spec Require Import RegistrySpec RegistryExactSpec DescribeFnsSpec.
From Verif.Proofs Require Import RegistryP RegistryInvP RegistryOpsP RegistryCompleteP RegistryRunP RegistryUseP RegistryFrameP.
Local Open Scope nat_scope.

(** ** the dictionary of one portal *)
Section Own.
  Context {V : Type}.
  Implicit Types d : dict (nat * string) V.
  Lemma kf_get p i d : dict_get i (known_functions p d) = dict_get (p, i) d.
  Proof.
    induction d as [|[[q j] v] d IH]; cbn; [done|]. destruct (decide (q = p)) as [->|Hn]; cbn.
    - destruct (decide (i = j)) as [->|]; [by rewrite decide_True|]. rewrite decide_False by congruence. done.
    - rewrite decide_False by congruence. done.
  Qed.
  Lemma kf_set p q i v d : known_functions p (dict_set (q, i) v d) = if decide (q = p) then dict_set i v (known_functions p d) else known_functions p d.
  Proof.
    induction d as [|[[q' j] w] d IH]; cbn; [by destruct (decide (q = p))|].
    destruct (decide ((q, i) = (q', j))) as [[= <- <-]|Hn]; cbn.
    - destruct (decide (q = p)); cbn; [by rewrite decide_True|done].
    - rewrite IH. destruct (decide (q' = p)) as [->|]; destruct (decide (q = p)) as [->|]; cbn; try done. by rewrite decide_False by congruence.
  Qed.
  Lemma kf_keys p i d : i ∈ dict_keys (known_functions p d) <-> (p, i) ∈ dict_keys d.
  Proof.
    destruct (dict_get (p, i) d) as [v|] eqn:E.
    - assert (E' := E). rewrite <- kf_get in E'. split; intros _; [apply (dict_keys_get d)|apply (dict_keys_get (known_functions p d))]; by eexists.
    - assert (E' := E). rewrite <- kf_get in E'. apply dict_get_None in E, E'. by split; intros ?.
  Qed.
  Lemma kf_NoDup p d : NoDup (dict_keys d) -> NoDup (dict_keys (known_functions p d)).
  Proof.
    induction d as [|[[q i] v] d IH]; cbn; [by intros; constructor|]. intros Hd. apply NoDup_cons in Hd as [H1 H2]. destruct (decide (q = p)) as [->|]; [|auto]. cbn.
    apply NoDup_cons. split; [|auto]. intros Hi. by apply kf_keys in Hi.
  Qed.
End Own.

Lemma join_concat l : join l = String.concat ", " l.
Proof. induction l as [|x l IH]; [done|]. destruct l as [|y l]; [done|]. change (join (x :: y :: l)) with (x +:+ ", " +:+ join (y :: l))%string. by rewrite IH. Qed.
Lemma describe_rows default p s : describe_functions default p s = rows_of (default p) (listing_of s p).
Proof.
  unfold describe_functions, rows_of, listing_of. rewrite map_length, map_map. change (map (fun x : string * dict string nat => (x.1, dict_keys x.2).1) (known_functions p (known s))) with (dict_keys (known_functions p (known s))).
  rewrite join_concat. f_equal. rewrite map_map. f_equal. apply map_ext. intros [i isl]. unfold island_rows. cbn [fst snd]. rewrite join_concat. unfold dict_keys at 2. rewrite map_length. f_equal.
  destruct isl as [|x isl]; [done|]. by rewrite decide_True by (cbn; lia).
Qed.

(** ** what the dictionaries go through *)
Inductive growth : dict (nat * string) (dict string nat) -> dict (nat * string) (dict string nat) -> Prop :=
| growth_refl d : growth d d
| growth_island d k : dict_get k d = None -> growth d (dict_set k [] d)
| growth_name d k isl n j : dict_get k d = Some isl -> dict_get n isl = None -> growth d (dict_set k (dict_set n j isl) d)
| growth_trans d1 d2 d3 : growth d1 d2 -> growth d2 d3 -> growth d1 d3.

Definition shown_names (d : dict string (dict string nat)) : listing := map (fun e => (fst e, dict_keys (snd e))) d.
Lemma longer_refl L : longer L L.
Proof. induction L as [|[i names] L IH]; [constructor|]. rewrite <- (app_nil_r names) at 2. by constructor. Qed.
Lemma longer_trans L1 L2 L3 : longer L1 L2 -> longer L2 L3 -> longer L1 L3.
Proof. intros H. revert L3. induction H as [more|i names more L L' H IH]; intros L3 H3; [constructor|]. inversion H3; subst. rewrite <- app_assoc. constructor. auto. Qed.
Lemma shown_new d i : dict_get i d = None -> shown_names (dict_set i [] d) = shown_names d ++ [(i, [])].
Proof. intros H. rewrite dict_set_fresh by (by apply dict_get_None). unfold shown_names. by rewrite map_app. Qed.
Lemma shown_name d i isl n j : NoDup (dict_keys d) -> dict_get i d = Some isl -> dict_get n isl = None -> shown_names (dict_set i (dict_set n j isl) d) = with_function i n (shown_names d).
Proof.
  induction d as [|[i' isl'] d IH]; cbn; [done|]. intros Hd H1 H2. apply NoDup_cons in Hd as [Hn Hd]. destruct (decide (i = i')) as [->|Hne]; cbn.
  - injection H1 as ->. rewrite dict_set_fresh by (by apply dict_get_None). unfold dict_keys at 1. by rewrite map_app.
  - f_equal. by apply IH.
Qed.
Lemma shown_first d i n j : dict_get i d = None -> shown_names (dict_set i (dict_set n j []) (dict_set i [] d)) = with_function i n (shown_names d).
Proof.
  induction d as [|[i' isl'] d IH]; cbn; [by rewrite decide_True|]. destruct (decide (i = i')) as [->|Hne]; [done|]. intros H. cbn. rewrite decide_False by done. cbn. f_equal. by apply IH.
Qed.
Lemma longer_app L more : longer L (L ++ more).
Proof. induction L as [|[i names] L IH]; [constructor|]. cbn. rewrite <- (app_nil_r names) at 2. by constructor. Qed.
Lemma longer_set (d : dict string (dict string nat)) i n j isl : dict_get i d = Some isl -> dict_get n isl = None -> longer (shown_names d) (shown_names (dict_set i (dict_set n j isl) d)).
Proof.
  induction d as [|[i' isl'] d IH]; cbn; [done|]. intros H1 H2. destruct (decide (i = i')) as [->|Hne]; cbn.
  - injection H1 as ->. rewrite dict_set_fresh by (by apply dict_get_None). unfold dict_keys at 2. rewrite map_app. constructor. apply longer_refl.
  - rewrite <- (app_nil_r (dict_keys isl')) at 2. constructor. auto.
Qed.
Lemma growth_longer d d' p : growth d d' -> longer (shown_names (known_functions p d)) (shown_names (known_functions p d')).
Proof.
  induction 1 as [d|d [q i] Hk|d [q i] isl n j Hk Hn|d1 d2 d3 _ H1 _ H2].
  - apply longer_refl.
  - rewrite kf_set. destruct (decide (q = p)) as [->|]; [|apply longer_refl]. rewrite shown_new by (by rewrite kf_get). apply longer_app.
  - rewrite kf_set. destruct (decide (q = p)) as [->|]; [|apply longer_refl]. apply longer_set; [by rewrite kf_get|done].
  - by eapply longer_trans.
Qed.

Definition tracked {A} (m : M A) : Prop := forall s s' r, m s = (s', r) -> growth (known s) (known s').
Definition quiet {A} (m : M A) : Prop := forall s s' r, m s = (s', r) -> known s' = known s.
Lemma quiet_tracked {A} (m : M A) : quiet m -> tracked m.
Proof. intros H s s' r E. rewrite (H _ _ _ E). constructor. Qed.
Lemma quiet_reader {A} (m : M A) : reader m -> quiet m.
Proof. intros H s s' r E. by rewrite (H _ _ _ E). Qed.
Lemma quiet_put i f : quiet (put i f).
Proof. by intros s s' r [= <- <-]. Qed.
Lemma quiet_alloc o : quiet (alloc o).
Proof. by intros s s' r [= <- <-]. Qed.
Lemma quiet_bnd {A B} (m : M A) (k : A -> M B) : quiet m -> (forall a, quiet (k a)) -> quiet (bnd m k).
Proof. intros Hm Hk s s' r. unfold bnd. destruct (m s) as [s1 [a|e]] eqn:E; intros H; [rewrite (Hk _ _ _ _ H)|injection H as <- <-]; by eapply Hm. Qed.
Lemma tracked_bnd {A B} (m : M A) (k : A -> M B) : tracked m -> (forall a, tracked (k a)) -> tracked (bnd m k).
Proof. intros Hm Hk s s' r. unfold bnd. destruct (m s) as [s1 [a|e]] eqn:E; intros H; [eapply growth_trans; [by eapply Hm|by eapply Hk]|injection H as <- <-; by eapply Hm]. Qed.
Lemma tracked_discard {A} self p (m : M A) : tracked m -> tracked (discard self p m).
Proof. intros Hm s s' r. unfold discard. destruct (m s) as [s1 [a|e]] eqn:E; intros [= <- <-]; [by eapply Hm|cbn; by eapply Hm]. Qed.
Ltac qt := repeat first [ apply quiet_put | apply quiet_alloc | apply quiet_bnd; [|intros] | solve [apply quiet_reader; first [apply reader_ret|apply reader_get|apply reader_island|apply reader_check|apply reader_lift|apply reader_raise|apply reader_or
     |apply reader_guards|apply reader_dependencies|apply reader_blocks|apply reader_augmented]] | match goal with |- quiet (match ?x with _ => _ end) => destruct x end ].

Section Track.
  Variable normalise : bool -> string -> res string.
  Variable names_of : string -> res ana.
  Variable name_of : string -> res string.
  Variable builtins : gset string.
  Variable ord : nat -> gset string -> list string.
  Variable default_island : nat -> string.
  Notation begin_registration := (begin_registration normalise names_of).
  Notation complete := (complete normalise names_of builtins ord).
  Notation complete_autonomous := (complete_autonomous normalise names_of builtins ord).
  Notation get_state := (get_state normalise names_of builtins ord).
  Notation prepare := (prepare normalise names_of builtins ord).
  Notation new_fn := (new_fn normalise names_of name_of default_island).
  Notation wrap_fn := (wrap_fn normalise names_of default_island).
  Notation step := (step normalise names_of name_of builtins ord default_island).
  Notation run := (run normalise names_of name_of builtins ord default_island).
  Notation iod := (island_or_default default_island).

  Lemma quiet_update self other : quiet (update self other).
  Proof. unfold update. qt. Qed.
  Lemma quiet_mapm {A B} (f : A -> M B) l : (forall a, quiet (f a)) -> quiet (mapm f l).
  Proof. intros Hf. induction l; cbn; qt; auto. Qed.
  Lemma quiet_deps isl name : quiet (island_dependencies normalise names_of ord isl name).
  Proof. unfold island_dependencies. qt. apply quiet_mapm. intros. qt. Qed.
  Lemma quiet_complete_autonomous self : quiet (complete_autonomous self).
  Proof. unfold complete_autonomous. qt; try apply quiet_update; try apply quiet_deps. apply quiet_mapm. intros. qt. Qed.
  Lemma quiet_complete self : quiet (complete self).
  Proof. unfold complete. qt; try apply quiet_complete_autonomous; try apply quiet_update; try (apply quiet_mapm; intros; qt). Qed.
  Lemma quiet_get_state self : quiet (get_state self).
  Proof. unfold get_state. qt; try apply quiet_complete; try apply quiet_update; try (apply quiet_mapm; intros; qt). Qed.
  Lemma quiet_prepare self : quiet (prepare self).
  Proof. unfold prepare. qt; try apply quiet_complete; try apply quiet_update; try (apply quiet_mapm; intros; qt). Qed.

  (** registration, exactly *)
  Lemma begin_known s self me s' r : heap s !! self = Some me -> begin_registration self s = (s', r) ->
    let d1 := match dict_get (home me) (known s) with None => dict_set (home me) [] (known s) | Some _ => known s end in
    match r with
    | Err _ => known s' = d1
    | Ok _ => known s' = match reg s (home me) (o_name me) with
                         | Some _ => known s
                         | None => dict_set (home me) (dict_set (o_name me) self (match dict_get (home me) (known s) with Some isl => isl | None => [] end)) d1
                         end
    end.
  Proof.
    intros Hm. unfold Registry.begin_registration. rewrite bnd_put. rewrite (alter_eq_insert _ _ _ me Hm).
    set (s0 := St (<[self := set_full false me]> (heap s)) (known s)).
    rewrite (bnd_get self _ s0 (set_full false me)) by (cbn; apply list_lookup_insert; by eapply lookup_lt_Some).
    change (o_portal (set_full false me), o_island (set_full false me)) with (home me). change (o_name (set_full false me)) with (o_name me).
    rewrite bnd_island. change (known s0) with (known s). unfold reg.
    set (rest := fun i : option (dict string nat) => _ : M unit).
    intros Hrun. set (d1 := match dict_get (home me) (known s) with None => dict_set (home me) [] (known s) | Some _ => known s end). set (isl := match dict_get (home me) (known s) with Some isl => isl | None => [] end).
    assert (Hrun' : exists h1, rest (Some isl) (St h1 d1) = (s', r)).
    { unfold d1, isl. destruct (dict_get (home me) (known s)) as [i|] eqn:E.
      - rewrite bnd_ret, bnd_island in Hrun. change (known s0) with (known s) in Hrun. rewrite E in Hrun. by eexists.
      - rewrite bnd_set_island, bnd_island in Hrun. cbn [known] in Hrun. rewrite dict_get_set, decide_True in Hrun by done. by eexists. }
    clear Hrun. destruct Hrun' as [h1 Hrun]. unfold rest in Hrun. cbn [or_raise] in Hrun. rewrite bnd_ret in Hrun.
    assert (Hname : match dict_get (home me) (known s) with Some isl => dict_get (o_name me) isl | None => None end = dict_get (o_name me) isl).
    { unfold isl. by destruct (dict_get (home me) (known s)). }
    rewrite Hname. destruct (dict_get (o_name me) isl) as [other|] eqn:E.
    - assert (known s' = d1) as ->. { match type of Hrun with ?m _ = _ => assert (Hq : quiet m) end. { qt; apply quiet_update. } by apply Hq in Hrun. }
      destruct r; [|done]. unfold d1. destruct (dict_get (home me) (known s)); done.
    - rewrite bnd_lift in Hrun. destruct (analyse normalise names_of (o_src (set_full false me))) as [a|e]; [|by injection Hrun as <- <-].
      rewrite bnd_lift in Hrun. destruct (begin_check a) as [[]|e]; [|by injection Hrun as <- <-]. unfold set_island in Hrun. by injection Hrun as <- <-.
  Qed.
  Lemma tracked_begin self : tracked (begin_registration self).
  Proof.
    intros s s' r Hrun. destruct (heap s !! self) as [me|] eqn:Hm.
    - pose proof (begin_known s self me s' r Hm Hrun) as H. cbn zeta in H.
      assert (H1 : growth (known s) (match dict_get (home me) (known s) with None => dict_set (home me) [] (known s) | Some _ => known s end)).
      { destruct (dict_get (home me) (known s)) eqn:E; [constructor|by apply growth_island]. }
      destruct r; rewrite H; [|done]. unfold reg. destruct (dict_get (home me) (known s)) as [isl|] eqn:E.
      + destruct (dict_get (o_name me) isl) eqn:E2; [constructor|by apply growth_name].
      + eapply growth_trans; [exact H1|]. apply growth_name; [by rewrite dict_get_set, decide_True|done].
    - unfold Registry.begin_registration in Hrun. rewrite bnd_put in Hrun. unfold bnd at 1, get in Hrun. cbn [heap] in Hrun. rewrite list_lookup_alter, Hm in Hrun. injection Hrun as <- <-. constructor.
  Qed.
  Ltac tk := repeat first [ solve [apply quiet_tracked; first [apply quiet_complete|apply quiet_update]] | apply tracked_begin | apply tracked_discard | apply tracked_bnd; [|intros] | solve [apply quiet_tracked; qt; try apply quiet_update; try apply quiet_complete; try apply quiet_get_state; try apply quiet_prepare] | match goal with |- tracked (match ?x with _ => _ end) => destruct x end ].
  Lemma tracked_new_fn k code isl strictly gs p : tracked (new_fn k code isl strictly gs p).
  Proof. unfold Registry.new_fn. tk. Qed.
  Lemma tracked_wrap_fn k f isl gs p : tracked (wrap_fn k f isl gs p).
  Proof. unfold Registry.wrap_fn. tk. Qed.
  Lemma tracked_process p es : tracked (process_augmented normalise names_of name_of default_island p es).
  Proof. induction es as [|[[] src] es IH]; cbn [Registry.process_augmented]; [apply quiet_tracked; qt| |]; (apply tracked_bnd; [apply tracked_new_fn|done]). Qed.
  Lemma tracked_set_state x p : tracked (set_state normalise names_of name_of builtins ord default_island x p).
  Proof. pose proof tracked_process as HP. destruct x; unfold Registry.set_state; tk; try apply HP; induction aug as [|[[] src1] es IH]; cbn [Registry.process_augmented]; tk; try apply IH. Qed.
  Lemma tracked_step o : tracked (step o).
  Proof. destruct o; cbn [Registry.step]; (apply tracked_bnd; [|intros; apply quiet_tracked; qt]); [apply tracked_new_fn|apply tracked_wrap_fn|apply quiet_tracked, quiet_prepare|apply quiet_tracked, quiet_get_state|apply tracked_set_state]. Qed.
  Lemma tracked_run h : forall s, growth (known s) (known (run h s)).
  Proof. induction h as [|o h IH]; intros s; cbn; [constructor|]. destruct (step o s) as [s1 r] eqn:E. eapply growth_trans; [by eapply tracked_step|apply IH]. Qed.

  (** a definition, exactly *)
  Lemma new_fn_known s k code isl strictly gs p s' r : new_fn k code isl strictly gs p s = (s', r) -> let home := (p, iod isl p) in
    match r with
    | Ok _ => exists src name j, normalise true code = Ok src /\ name_of src = Ok name /\
        known s' = match dict_get home (known s) with
                   | Some d => match dict_get name d with Some _ => known s | None => dict_set home (dict_set name j d) (known s) end
                   | None => dict_set home (dict_set name j []) (dict_set home [] (known s))
                   end
    | Err _ => known s' = known s /\ (dict_get home (known s) = None -> (k = Pure /\ gs <> None) \/ forall src name, normalise true code = Ok src -> name_of src = Ok name -> False)
               \/ dict_get home (known s) = None /\ known s' = dict_set home [] (known s) /\ (k = Pure -> gs = None) /\ exists src name, normalise true code = Ok src /\ name_of src = Ok name
    end.
  Proof.
    intros Hrun home. unfold Registry.new_fn in Hrun. rewrite bnd_alloc in Hrun. set (self := List.length (heap s)) in *. set (s1 := St (heap s ++ [blank k p]) (known s)) in *.
    match type of Hrun with bnd (discard self p ?m0) _ _ = _ => set (m := m0) in Hrun end.
    assert (Hr : exists s2 r2, m s1 = (s2, r2) /\ known s' = known s2 /\ match r2 with Ok _ => r = Ok self | Err e => r = Err e end).
    { unfold bnd, discard in Hrun. destruct (m s1) as [s2 [[]|e]]; injection Hrun as <- <-; by eexists _, _. }
    clear Hrun. destruct Hr as (s2 & r2 & Hm & Hk & Hr). rewrite Hk. clear Hk s'.
    unfold m in Hm. rewrite bnd_lift in Hm. destruct (normalise true code) as [src|e] eqn:En.
    2:{ injection Hm as <- <-. rewrite Hr. left. split; [done|]. intros _. by right. }
    rewrite bnd_lift in Hm. destruct (name_of src) as [name|e] eqn:Ename.
    2:{ injection Hm as <- <-. rewrite Hr. left. split; [done|]. intros _. right. intros src' name' [= <-]. congruence. }
    rewrite !bnd_put in Hm. cbn [heap known] in Hm.
    assert (Hself : (heap s ++ [blank k p]) !! self = Some (blank k p)) by apply lookup_snoc.
    assert (Hlt : self < List.length (heap s ++ [blank k p])) by (by eapply lookup_lt_Some).
    rewrite (alter_eq_insert _ _ _ _ Hself), alter_insert' in Hm. set (X := set_place _ _ _) in Hm.
    change (known s1) with (known s) in Hm. set (s3 := St _ _) in Hm.
    assert (HX : heap s3 !! self = Some X) by (by apply list_lookup_insert).
    match goal with |- ?G => assert (Hb : forall s4 me, heap s4 !! self = Some me -> known s4 = known s -> RegistrySpec.home me = home -> o_name me = name ->
      begin_registration self s4 = (s2, r2) -> (dict_get home (known s) = None -> k = Pure -> gs = None) -> G) end.
    { intros s4 me Hme Hk4 Hh Hnm Hbeg Hgs. pose proof (begin_known s4 self me s2 r2 Hme Hbeg) as H. cbn zeta in H. unfold reg in H. rewrite Hk4, Hh, Hnm in H.
      destruct r2 as [[]|e]; rewrite Hr.
      - exists src, name, self. split; [done|]. split; [done|]. rewrite H. destruct (dict_get home (known s)); done.
      - rewrite H. destruct (dict_get home (known s)) eqn:E; [left; split; [done|]; intros ?; done|]. right. split; [done|]. split; [done|]. split; [by apply Hgs|]. by exists src, name. }
    destruct k.
    - rewrite bnd_ret in Hm. by apply (Hb s3 X).
    - destruct (preprocess_guards self gs s3) as [s4 rg] eqn:Eg. pose proof (reader_guards _ _ _ _ _ Eg) as ->.
      rewrite bnd_assoc in Hm. unfold bnd at 1 in Hm. rewrite Eg in Hm. destruct rg as [g|e].
      + rewrite bnd_put in Hm. rewrite (alter_eq_insert _ _ _ _ HX) in Hm. apply (Hb (St (<[self:=set_guards g X]> (heap s3)) (known s3)) (set_guards g X)); [|done|done|done|exact Hm|].
        * cbn [heap]. apply list_lookup_insert. by eapply lookup_lt_Some.
        * intros Hno _. unfold preprocess_guards in Eg. destruct gs as [l|]; [|done]. rewrite (bnd_get _ _ _ _ HX), bnd_island in Eg. change (o_portal X, o_island X) with home in Eg. change (known s3) with (known s) in Eg. rewrite Hno in Eg. discriminate.
      + injection Hm as <- <-. rewrite Hr. left. split; [done|]. intros Hno. left. split; [done|]. intros ->. discriminate.
  Qed.
End Track.
