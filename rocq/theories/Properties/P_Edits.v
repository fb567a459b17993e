(** C135: editing a function, or anything it uses, gives its calls new addresses. *)
From Coq Require Import String.
From stdpp Require Import gmap.
From Verif Require Import Lib.Py Model.PyAst Model.Normalizer Model.NamesAnalyzer Model.CallGraph Model.Registry Model.AugText Model.PureAddr.
From Verif.Spec Require Import RegistrySpec AugTextSpec PureAddrSpec.
From Verif.Proofs Require Import RegistryP RegistryInvP RegistryOpsP AugTextP.
From Verif.Properties Require Import P_Registry P_RegistryExamples P_AugText P_PureAddr ExampleHash.
Local Open Scope nat_scope.

Section Edits.
  Variable normalise : bool -> string -> res string.
  Variable names_of : string -> res ana.
  Variable name_of : string -> res string.
  Variable builtins : gset string.
  Variable ord : nat -> gset string -> list string.
  Variable default_island : nat -> string.
  Notation get_state := (get_state normalise names_of builtins ord).
  Notation plainly_reachable := (plainly_reachable normalise names_of name_of builtins ord default_island).
  Hypothesis sens : sensible normalise names_of name_of ord.

  (** the name of a block of the augmented source can be read off the block *)
  Lemma block_name s k n e : plainly_reachable s -> block s k n e -> name_of (snd e) = Ok n.
  Proof.
    intros Hs (j & o & Hj & Ho & ->). pose proof (plainly_inv normalise names_of name_of builtins ord default_island sens s Hs) as Hi.
    destruct (inv_enrolled _ _ _ _ _ _ _ Hi _ _ _ Hj) as (o' & Ho' & _ & _ & Hn & _). by assert (o' = o) as -> by congruence.
  Qed.
  Lemma block_definition s k n e : block s k n e -> definition_of s k n = Some (match fst e with DAut _ _ => Aut | DPure _ _ => Pure end, fst e, snd e).
  Proof. intros (j & o & Hj & Ho & ->). unfold definition_of. rewrite Hj, Ho. unfold decorator. cbn. by destruct (o_kind o). Qed.

  (** Two sessions - other histories, other portals, other versions of the program - in which a pure function pickles to the same state
      at its first use: then name, source, island and guards of the function are the same, the same functions are reached from
      it through mentions, and each of these and each guard has the same kind, decorator and source in both. *)
  Theorem C135_same_state_same_code : forall s t f g me me' s1 t1 x, plainly_reachable s -> plainly_reachable t -> unused s f me -> unused t g me' ->
    get_state f s = (s1, Ok x) -> get_state g t = (t1, Ok x) ->
    o_name me' = o_name me /\ o_src me' = o_src me /\ o_island me' = o_island me /\ o_guards me' = o_guards me /\
    (forall n, rtc (refers names_of s (home me)) (o_name me) n <-> rtc (refers names_of t (home me')) (o_name me') n) /\
    (forall n, concerns names_of s me n -> definition_of t (home me') n = definition_of s (home me) n).
  Proof.
    intros * Hs Ht Uf Ug Ef Eg.
    destruct (C39_contents_partial normalise names_of name_of builtins ord default_island sens s f me s1 x Hs Uf Ef) as (D & aug & st & Ex & HN & HD & HB).
    destruct (C39_contents_partial normalise names_of name_of builtins ord default_island sens t g me' t1 x Ht Ug Eg) as (D' & aug' & st' & Ex' & HN' & HD' & HB').
    rewrite Ex in Ex'. injection Ex' as En Es Ei Ea Est Eg'. rewrite <- Ea in HB'. clear aug' Ea.
    assert (El : sorted (guards_of me ++ D) = sorted (guards_of me' ++ D')).
    { revert HB HB'. generalize (sorted (guards_of me ++ D)) (sorted (guards_of me' ++ D')). clear - Hs Ht sens. intros l l' H. revert l'.
      induction H as [|n e l aug Hb _ IH]; intros l' H'; inversion H' as [|n' e' l2 ? Hb' Hr]; subst; [done|]. f_equal; [|by apply IH].
      apply (block_name s) in Hb; [|done]. apply (block_name t) in Hb'; [|done]. congruence. }
    assert (EG : guards_of me' = guards_of me) by (unfold guards_of; by rewrite Eg').
    assert (PD : D' ≡ₚ D).
    { apply (Permutation_app_inv_l (guards_of me)). rewrite <- (sorted_perm (guards_of me ++ D')), <- (sorted_perm (guards_of me ++ D)). rewrite El, EG. done. }
    do 4 (split; [congruence|]). split.
    - intros n. rewrite <- HD, <- HD'. by rewrite PD.
    - intros n Hn. assert (Hl : n ∈ sorted (guards_of me ++ D)). { rewrite sorted_perm, elem_of_app, HD. destruct Hn; tauto. }
      rewrite <- El in HB'. clear - Hl HB HB' Hs Ht sens. revert HB HB'. generalize dependent (sorted (guards_of me ++ D)). intros l Hl H. induction H as [|n' e l aug Hb _ IH]; intros H'; [by apply elem_of_nil in Hl|].
      inversion H' as [|? ? ? ? Hb' Hr]; subst. apply elem_of_cons in Hl as [->|Hl]; [|by apply IH]. by rewrite (block_definition _ _ _ _ Hb), (block_definition _ _ _ _ Hb').
  Qed.

  (** The other way round: an edit of the function's source, or of the kind, decorator or source of a guard or of any function it reaches,
      gives another state. *)
  Theorem C135_edit_changes_state : forall s t f g me me' s1 t1 x y n, plainly_reachable s -> plainly_reachable t -> unused s f me -> unused t g me' ->
    get_state f s = (s1, Ok x) -> get_state g t = (t1, Ok y) ->
    o_src me' <> o_src me \/ concerns names_of s me n /\ definition_of t (home me') n <> definition_of s (home me) n -> x <> y.
  Proof.
    intros * Hs Ht Uf Ug Ef Eg H <-. destruct (C135_same_state_same_code s t f g me me' s1 t1 x Hs Ht Uf Ug Ef Eg) as (_ & E & _ & _ & _ & Hd).
    destruct H as [H|[Hc H]]; [done|]. by apply H, Hd.
  Qed.

  (** Exactly: at their first use, two functions pickle to the same state if and only if name, source, island and guards are the same, and
      so is the definition of everything that either of them concerns.  ([fresh_twin]: the second has not been tried before in vain.) *)
  Definition same_code_everywhere (s t : st) (me me' : fnobj) : Prop :=
    o_name me' = o_name me /\ o_src me' = o_src me /\ o_island me' = o_island me /\ o_guards me' = o_guards me /\
    forall n, concerns names_of s me n \/ concerns names_of t me' n -> definition_of t (home me') n = definition_of s (home me) n.
  Definition fresh_twin (t : st) (me' : fnobj) : Prop :=
    o_strict me' = false /\ forall j' o', reg t (home me') (o_name me') = Some j' -> heap t !! j' = Some o' -> o_aug o' = None.
  Lemma definition_refers s t k k' a b : definition_of t k' a = definition_of s k a -> definition_of t k' b = definition_of s k b -> plainly_reachable s -> plainly_reachable t ->
    refers names_of s k a b -> refers names_of t k' a b.
  Proof.
    intros Ea Eb Hs Ht [(src & Hsrc & Hm) Hb]. split; [exists src; split; [|done]; unfold source_of in *; by rewrite Ea|].
    intros Hn. unfold definition_of in Eb at 1. rewrite Hn in Eb. destruct (reg s k b) as [j|] eqn:Ej; [|done].
    destruct (inv_enrolled _ _ _ _ _ _ _ (plainly_inv normalise names_of name_of builtins ord default_island sens s Hs) _ _ _ Ej) as (o & Ho & _).
    unfold definition_of in Eb. by rewrite Ej, Ho in Eb.
  Qed.
  Lemma definition_reg s t k k' b : definition_of t k' b = definition_of s k b -> plainly_reachable t -> reg t k' b <> None -> reg s k b <> None.
  Proof.
    intros Eb Ht Hb Hn. unfold definition_of in Eb. rewrite Hn in Eb. destruct (reg t k' b) as [j|] eqn:Ej; [|done].
    destruct (inv_enrolled _ _ _ _ _ _ _ (plainly_inv normalise names_of name_of builtins ord default_island sens t Ht) _ _ _ Ej) as (o & Ho & _). by rewrite Ho in Eb.
  Qed.
  Theorem C137_same_state_iff : forall s t f g me me' s1 t1 x y, plainly_reachable s -> plainly_reachable t -> unused s f me -> unused t g me' -> fresh_twin t me' ->
    get_state f s = (s1, Ok x) -> get_state g t = (t1, Ok y) ->
    x = y <-> same_code_everywhere s t me me'.
  Proof.
    intros * Hs Ht Uf Ug [Fs Fa] Ef Eg. split.
    - intros <-. destruct (C135_same_state_same_code s t f g me me' s1 t1 x Hs Ht Uf Ug Ef Eg) as (E1 & E2 & E3 & E4 & E5 & E6).
      do 4 (split; [done|]). intros n [H|H]; [by apply E6|]. apply E6. destruct H as [H|H]; [left; by apply E5|right]. unfold guards_of in *. by rewrite <- E4.
    - intros (E1 & E2 & E3 & E4 & E5).
      assert (R : forall n, rtc (refers names_of s (home me)) (o_name me) n -> rtc (refers names_of t (home me')) (o_name me') n).
      { apply (rtc_ind_r (fun n => rtc (refers names_of t (home me')) (o_name me') n) (o_name me)); [rewrite E1; constructor|]. intros b c Hb Hbc IH. eapply rtc_r; [exact IH|].
        apply (definition_refers s t (home me) (home me')); [apply E5; left; by left|apply E5; left; left; by eapply rtc_r|done..]. }
      destruct (C39_same_code_partial normalise names_of name_of builtins ord default_island sens s t f g me me' s1 x) as (t2 & E); try done; [by intros n Hn; apply E5; left| |congruence].
      intros n m Hn Hm. apply (definition_reg s t (home me) (home me')); [apply E5; right; left|done|apply Hm]. eapply rtc_r; [by apply R|done].
  Qed.

  (** What addresses of calls are made of: the pickled state, the functions it carries written as one text (AugText.v). *)
  Definition as_fn_state (x : pickled) : fn_state :=
    match x with
    | PickAut name src isl st => FnState name src isl "" st None
    | PickPure name src isl aug st gs => FnState name src isl (aug_text aug) st gs
    end.
  Definition pure_and_readable (x : pickled) : Prop := match x with PickAut _ _ _ _ => False | PickPure _ _ _ aug _ _ => Forall readable aug end.
  Lemma as_fn_state_inj x y : pure_and_readable x -> pure_and_readable y -> as_fn_state x = as_fn_state y -> x = y.
  Proof.
    destruct x, y; try done. intros Hx Hy E. injection E as -> -> -> Ea -> ->. f_equal. by apply C113_text_tells.
  Qed.

  (** Hence: if in two sessions calls of two pure functions have the same address, then the calls have the same arguments, and the functions,
      their guards and everything they reach are the same; a result that was stored for one version of the program is never
      found by another one in which anything the function uses was edited. *)
  Theorem C135_same_address_same_code : forall D data_prefix hash_of, collision_free data_prefix hash_of ->
    forall s t f g me me' s1 t1 x y (kw kw' : list (string * arg D)), plainly_reachable s -> plainly_reachable t -> unused s f me -> unused t g me' ->
    get_state f s = (s1, Ok x) -> get_state g t = (t1, Ok y) -> pure_and_readable x -> pure_and_readable y ->
    acceptable kw -> acceptable kw' -> plain kw -> plain kw' ->
    get_address data_prefix hash_of (as_fn_state x) kw = get_address data_prefix hash_of (as_fn_state y) kw' ->
    kw ≡ₚ kw' /\ o_name me' = o_name me /\ o_src me' = o_src me /\ o_island me' = o_island me /\ o_guards me' = o_guards me /\
    (forall n, concerns names_of s me n -> definition_of t (home me') n = definition_of s (home me) n).
  Proof.
    intros * Hc * Hs Ht Uf Ug Ef Eg Rx Ry A A' P P' E. apply (C25_addresses_distinguish_calls D data_prefix hash_of Hc) in E as [E Ek]; try done.
    apply as_fn_state_inj in E; [|done..]. subst y. split; [done|].
    destruct (C135_same_state_same_code s t f g me me' s1 t1 x Hs Ht Uf Ug Ef Eg) as (E1 & E2 & E3 & E4 & _ & E5). done.
  Qed.

  (** A stored result is found again by exactly the calls with the same arguments of functions with the same code everywhere: editing functions
      that the function does not use, defining others, or another order of definitions does not matter. *)
  Theorem C137_same_address_iff : forall D data_prefix hash_of, collision_free data_prefix hash_of ->
    forall s t f g me me' s1 t1 x y (kw kw' : list (string * arg D)), plainly_reachable s -> plainly_reachable t -> unused s f me -> unused t g me' -> fresh_twin t me' ->
    get_state f s = (s1, Ok x) -> get_state g t = (t1, Ok y) -> pure_and_readable x -> pure_and_readable y ->
    acceptable kw -> acceptable kw' -> plain kw -> plain kw' ->
    get_address data_prefix hash_of (as_fn_state x) kw = get_address data_prefix hash_of (as_fn_state y) kw' <-> same_code_everywhere s t me me' /\ kw ≡ₚ kw'.
  Proof.
    intros * Hc * Hs Ht Uf Ug Fg Ef Eg Rx Ry A A' P P'. rewrite (C25_addresses_distinguish_calls D data_prefix hash_of Hc) by done.
    rewrite <- (C137_same_state_iff s t f g me me' s1 t1 x y Hs Ht Uf Ug Fg Ef Eg). split; intros [E Ek]; (split; [|done]); [by apply as_fn_state_inj|by rewrite E].
  Qed.
End Edits.
Print Assumptions C135_same_state_same_code.
Print Assumptions C135_edit_changes_state.
Print Assumptions C135_same_address_same_code.
Print Assumptions C137_same_state_iff.
Print Assumptions C137_same_address_iff.


(** The hypotheses are met: two sessions that differ in one helper of b; the state of b is another one in each, and every call of b has
    other addresses in the two. *)
Definition version1 : st := RUN [autonomous "def f(): return 1"; pure "def b(): return f()" None].
Definition version2 : st := RUN [pure "def p(): return 1" None; autonomous "def f(): return 2"; pure "def b(): return f()" None].
Lemma version1_b : PLAIN version1 /\ unused version1 1 b_object.
Proof.
  split; [plain|]. split; [by vm_compute|]. split; [done|]. split; [done|]. intros j o Hj. assert (j = 1) as ->; [by vm_compute in Hj; injection Hj|].
  intros Ho. vm_compute in Ho. by injection Ho as <-.
Qed.
Lemma version2_b : PLAIN version2 /\ unused version2 2 b_object.
Proof.
  split; [plain|]. split; [by vm_compute|]. split; [done|]. split; [done|]. intros j o Hj. assert (j = 2) as ->; [by vm_compute in Hj; injection Hj|].
  intros Ho. vm_compute in Ho. by injection Ho as <-.
Qed.
Definition state1 : pickled := PickPure "b" "def b(): return f()" "Samos" [(DPure "Samos" None, "def b(): return f()"); (DAut false "Samos", "def f(): return 1")]%string false None.
Definition state2 : pickled := PickPure "b" "def b(): return f()" "Samos" [(DPure "Samos" None, "def b(): return f()"); (DAut false "Samos", "def f(): return 2")]%string false None.
Example C135_ex_states : (STATE 1 version1).2 = Ok state1 /\ (STATE 2 version2).2 = Ok state2.
Proof. by vm_compute. Qed.
Example C135_ex_edit : concerns nms version1 b_object "f" /\ definition_of version2 (home b_object) "f" <> definition_of version1 (home b_object) "f".
Proof.
  split; [|by vm_compute]. left. apply rtc_once. split; [|by vm_compute]. exists "def b(): return f()"%string. split; [by vm_compute|].
  exists (ex "b" ["f"%string]). split; [by vm_compute|]. right. right. eapply bool_decide_eq_true_1; vm_compute; reflexivity.
Qed.
Lemma states_readable : pure_and_readable state1 /\ pure_and_readable state2.
Proof.
  split; unfold state1, state2, pure_and_readable, readable; repeat apply Forall_cons_2; try apply Forall_nil_2; (split; [|apply no_at_lines; vm_compute; reflexivity]); cbn [fst readable_decor];
    try (apply all_safe_quotable; vm_compute; reflexivity); (split; [apply all_safe_quotable; vm_compute; reflexivity|]); intros l x [= <-].
Qed.
Example C135_ex_new_addresses : forall (hash_of : value string -> string), collision_free (fun _ => "str"%string) hash_of ->
  forall kw kw' : list (string * arg string), acceptable kw -> acceptable kw' -> plain kw -> plain kw' ->
  get_address (fun _ => "str"%string) hash_of (as_fn_state state1) kw <> get_address (fun _ => "str"%string) hash_of (as_fn_state state2) kw'.
Proof.
  intros hash_of Hc kw kw' A A' P P' E. destruct C135_ex_states as [S1 S2], states_readable as [R1 R2], version1_b as [V1 U1], version2_b as [V2 U2].
  destruct (STATE 1 version1) as [s1 r1] eqn:E1, (STATE 2 version2) as [t1 r2] eqn:E2. cbn in S1, S2. subst r1 r2.
  destruct (C135_same_address_same_code norm nms nmo ∅ ordr dflt world_sensible string (fun _ => "str"%string) hash_of Hc version1 version2 1 2 b_object b_object s1 t1 state1 state2 kw kw'
    V1 V2 U1 U2 E1 E2 R1 R2 A A' P P' E) as (_ & _ & _ & _ & _ & H).
  destruct C135_ex_edit as [C N]. by apply N, H.
Qed.

(** Another history, with an unrelated function edited and the definitions in another order: the same state. *)
Definition version3 : st := RUN [pure "def b(): return f()" None; autonomous "def k(): return 0"; Call 1; autonomous "def f(): return 1"].
Lemma version3_b : PLAIN version3 /\ unused version3 0 b_object /\ fresh_twin version3 b_object.
Proof.
  split; [plain|]. split; (split; [by vm_compute|]); [split; [done|]; split; [done|]|]; intros j o Hj; (assert (j = 0) as ->; [by vm_compute in Hj; injection Hj|]);
    intros Ho; vm_compute in Ho; by injection Ho as <-.
Qed.
Example C137_ex : (STATE 0 version3).2 = Ok state1 /\ same_code_everywhere nms version1 version3 b_object b_object.
Proof.
  assert (H : (STATE 0 version3).2 = Ok state1) by by vm_compute. split; [exact H|].
  destruct version1_b as [V1 U1], version3_b as (V3 & U3 & F3), C135_ex_states as [S1 _]. destruct (STATE 0 version3) as [t1 r2] eqn:E2, (STATE 1 version1) as [s1 r1] eqn:E1. cbn in H, S1. subst r1 r2.
  by apply (C137_same_state_iff norm nms nmo ∅ ordr dflt world_sensible version1 version3 1 0 b_object b_object s1 t1 state1 state1).
Qed.
