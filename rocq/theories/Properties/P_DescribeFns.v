(** What describe() says about the functions of a portal.  C105. *)
From Coq Require Import String Sorted.
From stdpp Require Import gmap.
From Verif Require Import Lib.Py Lib.DictLemmas Model.PyAst Model.Normalizer Model.NamesAnalyzer Model.CallGraph Model.Registry Model.DescribeFns.
From Verif.Spec Require Import RegistrySpec RegistryExactSpec DescribeFnsSpec.
From Verif.Proofs Require Import RegistryP RegistryInvP RegistryOpsP RegistryCompleteP RegistryRunP RegistryUseP RegistryExactP DescribeFnsP.
From Verif.Properties Require Import P_Registry P_RegistryExamples P_RegistryExact.
Local Open Scope nat_scope.

Section Describe.
  Variable normalise : bool -> string -> res string.
  Variable names_of : string -> res ana.
  Variable name_of : string -> res string.
  Variable builtins : gset string.
  Variable ord : nat -> gset string -> list string.
  Variable default_island : nat -> string.
  Notation step := (step normalise names_of name_of builtins ord default_island).
  Notation run := (run normalise names_of name_of builtins ord default_island).
  Notation reachable := (reachable normalise names_of name_of builtins ord default_island).
  Notation honest_op := (honest_op name_of).
  Notation iod := (island_or_default default_island).
  Hypothesis sens : sensible normalise names_of name_of ord.

  (** C105.  After any history, the rows a portal shows are those of a listing without repetitions, with the default island first, and
      with exactly the functions that are defined in each island. *)
  Theorem C105_describe_truthful : forall ps h p, Forall honest_op h -> p ∈ ps -> let s := run h (session default_island ps) in
    describe_functions default_island p s = rows_of (default_island p) (listing_of s p) /\ truthful s p (default_island p) (listing_of s p).
  Proof.
    intros ps h p Hh Hp s. split; [apply describe_rows|].
    assert (Hs : reachable s) by (by exists ps, h). pose proof (reachable_inv _ _ _ _ _ _ sens s Hs) as Hi.
    destruct (inv_wf _ _ _ _ _ _ _ Hi) as [Hnd Hnd2].
    assert (Hfst : map fst (listing_of s p) = dict_keys (known_functions p (known s))) by (unfold listing_of; by rewrite map_map).
    assert (Hdef : forall i n, definition_of s (p, i) n <> None <-> reg s (p, i) n <> None).
    { intros i n. unfold definition_of. destruct (reg s (p, i) n) as [j|] eqn:E; [|done]. destruct (inv_enrolled _ _ _ _ _ _ _ Hi _ _ _ E) as (o & -> & _). done. }
    split; [rewrite Hfst; by apply kf_NoDup|]. split; [|split].
    - assert (H0 : exists L', listing_of (session default_island ps) p = (default_island p, []) :: L').
      { unfold listing_of, session. cbn [known].
        assert (H : forall ps (d : dict (nat * string) (dict string nat)), (p ∈ ps /\ known_functions p d = [] \/ exists L', known_functions p d = (default_island p, []) :: L') ->
          exists L', known_functions p (fold_left (fun d p => dict_set (p, default_island p) [] d) ps d) = (default_island p, []) :: L').
        { clear. intros ps. induction ps as [|q ps IH]; intros d H; cbn.
          - destruct H as [[H _]|H]; [by apply elem_of_nil in H|done].
          - apply IH. rewrite kf_set. destruct (decide (q = p)) as [->|Hn].
            + right. destruct H as [[_ ->]|(L' & ->)]; cbn; [by eexists|]. rewrite decide_True by done. by eexists.
            + destruct H as [[H E]|H]; [left|by right]. split; [|done]. apply elem_of_cons in H as [->|H]; done. }
        destruct (H ps [] (or_introl (conj Hp eq_refl))) as (L' & HL). exists (map (fun e => (fst e, dict_keys (snd e))) L'). exact (f_equal (map (fun e => (fst e, dict_keys (snd e)))) HL). }
      destruct H0 as (L0 & H0). pose proof (growth_longer _ _ p (tracked_run normalise names_of name_of builtins ord default_island h (session default_island ps))) as Hg.
      change (longer (listing_of (session default_island ps) p) (listing_of s p)) in Hg. rewrite H0 in Hg. inversion Hg; subst. by eexists _, _.
    - intros i names Hin. unfold listing_of in Hin. apply elem_of_list_fmap in Hin as ([i' isl] & [= -> ->] & Hin).
      assert (Hg : dict_get i' (known_functions p (known s)) = Some isl) by (apply dict_get_In; [by apply kf_NoDup|done]). rewrite kf_get in Hg.
      split; [by eapply Hnd2|]. intros n. rewrite Hdef. unfold reg. rewrite Hg. rewrite dict_keys_get. destruct (dict_get n isl); split; try done. by intros [].
    - intros i n. rewrite Hdef, Hfst. unfold reg. intros H. apply (dict_keys_get (known_functions p (known s))). rewrite kf_get. by destruct (dict_get (p, i) (known s)).
  Qed.

  (** C105.  Whatever happens, nothing disappears from the listing and nothing changes its place. *)
  Theorem C105_only_grows : forall s h p, longer (listing_of s p) (listing_of (run h s) p).
  Proof. intros s h p. apply (growth_longer (known s) (known (run h s)) p), tracked_run. Qed.
  (** C105.  Calling and pickling change no description. *)
  Theorem C105_use_changes_nothing : forall s f p, listing_of (fst (step (Call f) s)) p = listing_of s p /\ listing_of (fst (step (Pickle f) s)) p = listing_of s p.
  Proof.
    intros s f p. unfold listing_of. cbn [Registry.step]. split.
    - destruct (bnd _ _ s) as [s' r] eqn:E. assert (Hq : quiet (bnd (prepare normalise names_of builtins ord f) (fun _ => ret tt))) by (apply quiet_bnd; [apply quiet_prepare|intros; apply quiet_reader, reader_ret]). cbn. by rewrite (Hq _ _ _ E).
    - destruct (bnd _ _ s) as [s' r] eqn:E. assert (Hq : quiet (bnd (get_state normalise names_of builtins ord f) (fun _ => ret tt))) by (apply quiet_bnd; [apply quiet_get_state|intros; apply quiet_reader, reader_ret]). cbn. by rewrite (Hq _ _ _ E).
  Qed.
  (** C105.  An accepted definition adds exactly its name to its island (a repeated one adds nothing), and changes no other portal's
      description. *)
  Theorem C105_accepted_definition : forall s k code isl strictly gs p s', reachable s -> step (Decorate k code isl strictly gs p) s = (s', Ok tt) ->
    exists src name, normalise true code = Ok src /\ name_of src = Ok name
      /\ listing_of s' p = match definition_of s (p, iod isl p) name with Some _ => listing_of s p | None => with_function (iod isl p) name (listing_of s p) end
      /\ forall q, q <> p -> listing_of s' q = listing_of s q.
  Proof.
    intros s k code isl strictly gs p s' Hs Hrun. pose proof (reachable_inv _ _ _ _ _ _ sens s Hs) as Hi. destruct (inv_wf _ _ _ _ _ _ _ Hi) as [Hnd _].
    cbn [Registry.step] in Hrun. apply bnd_ok in Hrun as (s1 & i & Hrun & Hr). injection Hr as ->.
    destruct (new_fn_known normalise names_of name_of default_island s k code isl strictly gs p s' _ Hrun) as (src & name & j & H1 & H2 & H3). exists src, name. split; [done|]. split; [done|].
    assert (Hd : definition_of s (p, iod isl p) name = None <-> reg s (p, iod isl p) name = None).
    { unfold definition_of. destruct (reg s (p, iod isl p) name) as [j'|] eqn:E; [|done]. destruct (inv_enrolled _ _ _ _ _ _ _ Hi _ _ _ E) as (o & -> & _). done. }
    unfold listing_of. rewrite H3. unfold reg in Hd. split.
    - destruct (dict_get (p, iod isl p) (known s)) as [d|] eqn:E.
      + destruct (dict_get name d) eqn:E2; destruct (definition_of s (p, iod isl p) name); [done|by destruct Hd as [Hd _]; specialize (Hd eq_refl)|by destruct Hd as [_ Hd]; specialize (Hd eq_refl)|].
        rewrite kf_set, decide_True by done. apply (shown_name (known_functions p (known s))); [by apply kf_NoDup|by rewrite kf_get|done].
      + destruct (definition_of s (p, iod isl p) name); [by destruct Hd as [_ Hd]; specialize (Hd eq_refl)|]. rewrite !kf_set, !decide_True by done. apply (shown_first (known_functions p (known s))). by rewrite kf_get.
    - intros q Hq. destruct (dict_get (p, iod isl p) (known s)) as [d|]; [destruct (dict_get name d); [done|]|]; rewrite !kf_set; by destruct (decide (p = q)).
  Qed.
  (** C105.  A refused definition adds no function.  It adds an island - an empty one, last - exactly if the island is new, the source
      could be read and no guards were given to a pure function. *)
  Theorem C105_refused_definition : forall s k code isl strictly gs p s' e, step (Decorate k code isl strictly gs p) s = (s', Err e) ->
    (listing_of s' p = listing_of s p \/ listing_of s' p = listing_of s p ++ [(iod isl p, [])])
    /\ (listing_of s' p = listing_of s p ++ [(iod isl p, [])] <->
        ~ iod isl p ∈ map fst (listing_of s p) /\ (exists src name, normalise true code = Ok src /\ name_of src = Ok name) /\ (k = Pure -> gs = None))
    /\ forall q, q <> p -> listing_of s' q = listing_of s q.
  Proof.
    intros s k code isl strictly gs p s' e Hrun. cbn [Registry.step] in Hrun. unfold bnd in Hrun. destruct (new_fn _ _ _ _ _ _ _ _ _ _ s) as [s1 [i|e1]] eqn:E; [done|]. injection Hrun as <- <-.
    pose proof (new_fn_known normalise names_of name_of default_island s k code isl strictly gs p s1 _ E) as H. cbn zeta in H.
    assert (Hin : iod isl p ∈ map fst (listing_of s p) <-> dict_get (p, iod isl p) (known s) <> None).
    { unfold listing_of. rewrite map_map. change (iod isl p ∈ dict_keys (known_functions p (known s)) <-> dict_get (p, iod isl p) (known s) <> None). rewrite dict_keys_get, kf_get.
      destruct (dict_get _ _); split; try done. by intros []. }
    unfold listing_of at 1 3 5 7 8. destruct H as [[-> H]|(Hno & -> & H)].
    - split; [by left|]. split; [|done]. split.
      + intros Hc. exfalso. apply (f_equal (@List.length _)) in Hc. rewrite app_length in Hc. cbn in Hc. unfold listing_of in Hc. lia.
      + intros (Hn & (src & name & A & B) & Hg). exfalso. destruct (dict_get (p, iod isl p) (known s)) eqn:Eg; [by apply Hn, Hin|]. destruct (H eq_refl) as [[K G]|G]; [by apply G, Hg|by eapply G].
    - rewrite kf_set, decide_True by done. rewrite (shown_new (known_functions p (known s))) by (by rewrite kf_get). split; [by right|]. split; [|intros q Hq; rewrite kf_set; by destruct (decide (p = q))].
      split; [|done]. intros _. rewrite Hin, Hno. split; [by intros ?|]. by destruct H.
  Qed.
End Describe.
Print Assumptions C105_describe_truthful.
Print Assumptions C105_only_grows.
Print Assumptions C105_use_changes_nothing.
Print Assumptions C105_accepted_definition.
Print Assumptions C105_refused_definition.

(** ** Concrete cases *)
Definition ROWS (h : list op) : list row := describe_functions dflt 0 (RUN h).
(** two islands; g is defined twice, shown once *)
Example C105_ex : ROWS [autonomous "def g(): return None"; Decorate Aut "def k(): return 0" (Some "Delos"%string) false None 0; autonomous "def g(): return None"; pure "def f(): return h()" None; Call 0]
  = rows_of "Samos" [("Samos", ["g"; "f"]); ("Delos", ["k"])]%string
  /\ truthful (RUN [autonomous "def g(): return None"; pure "def f(): return h()" None]) 0 "Samos" [("Samos", ["g"; "f"])]%string.
Proof.
  split; [by vm_compute|]. destruct (C105_describe_truthful norm nms nmo ∅ ordr dflt world_sensible [0] [autonomous "def g(): return None"; pure "def f(): return h()" None] 0) as [_ H]; [repeat constructor|left|exact H].
Qed.
(** a source that may not be registered (here: normalising it again changes it), for a new island: the island appears, empty *)
Example C105_ex_refused : forall s' r, step (fun again s => if again then Ok s else Ok ""%string) nms nmo ∅ ordr dflt (Decorate Aut "def k(): return 0" (Some "Delos"%string) false None 0) (session dflt [0]) = (s', r) ->
  r = Err AssertionError \/ r = Err SyntaxError.
Proof. intros s' r E. vm_compute in E. injection E as <- <-. by right. Qed.
Example C105_ex_refused_island : forall s' e, step (fun again s => if again then Ok s else Ok ""%string) nms nmo ∅ ordr dflt (Decorate Aut "def k(): return 0" (Some "Delos"%string) false None 0) (session dflt [0]) = (s', Err e) ->
  listing_of s' 0 = [("Samos", []); ("Delos", [])]%string.
Proof.
  intros s' e E. apply (C105_refused_definition _ _ _ _ _ _ _ _ _ _ _ _ _ _ _ E). split; [|split; [|done]].
  - intros H. vm_compute in H. by inversion H as [|? ? ? H1]; inversion H1.
  - by eexists _, _.
Qed.
