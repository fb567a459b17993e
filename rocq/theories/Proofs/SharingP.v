(** Proofs for C132. *)
From Verif.Lib Require Import Py.
From Verif.Model Require Import Sharing.
From Verif.Spec Require Import SharingSpec.
From Coq Require Import Lia.
From stdpp Require Import list_numbers.
Local Open Scope nat_scope.

Lemma position_spec o (os : list nat) : o ∈ os -> os !! position o os = Some o /\ forall j, os !! j = Some o -> position o os <= j.
Proof.
  intros H. unfold position. destruct (list_find (fun q => q = o) os) as [[i q]|] eqn:E.
  - apply list_find_Some in E as (H1 & -> & H2). split; [done|]. intros j Hj. destruct (decide (j < i)); [|lia]. by apply (H2 j o) in Hj.
  - exfalso. apply list_find_None in E. rewrite Forall_forall in E. by apply (E o).
Qed.
Lemma position_nodup (os : list nat) i o : NoDup os -> os !! i = Some o -> position o os = i.
Proof.
  intros Hn Hi. destruct (position_spec o os) as [P _]; [by eapply elem_of_list_lookup_2|]. by eapply NoDup_lookup.
Qed.
Lemma places_nodup (os : list nat) : NoDup os -> places os = seq 0 (length os).
Proof.
  intros Hn. apply list_eq. intros i. unfold places. rewrite list_lookup_fmap. destruct (os !! i) as [o|] eqn:E; cbn.
  - rewrite (position_nodup os i o) by done. symmetry. apply lookup_seq. split; [done|]. by apply lookup_lt_Some in E.
  - symmetry. apply lookup_ge_None in E. apply lookup_ge_None. by rewrite seq_length.
Qed.

Section P.
  Context {A V : Type} `{EqDecision A}.
  Variable text_of : V -> A.
  Variable body : nat -> list nat -> list V -> (nat -> V) * V.
  Notation state := (state (A := A) (V := V)).
  Notation arg := (arg (V := V)).
  Notation op := (op (V := V)).

  Lemma mapM_contents (s : state) (args : list arg) (vs : list V) : mapM (contents (heap s)) args = Some vs <-> has_contents s args vs.
  Proof.
    rewrite mapM_Some, Forall2_lookup. split.
    - intros H. split; [|].
      + destruct (decide (length args = length vs)) as [|Hne]; [done|]. exfalso. specialize (H (length args `min` length vs)).
        inversion H as [x y _ E1 E2|E1 E2]; subst.
        * symmetry in E1, E2. apply lookup_lt_Some in E1, E2. lia.
        * symmetry in E1, E2. apply lookup_ge_None in E1, E2. lia.
      + intros i x v Hx Hv. specialize (H i). rewrite Hx, Hv in H. inversion H as [? ? E|]; subst. destruct x; cbn in E; congruence.
    - intros [Hl H] i. destruct (args !! i) as [x|] eqn:Ex, (vs !! i) as [v|] eqn:Ev.
      + constructor. specialize (H i x v Ex Ev). destruct x; cbn; congruence.
      + exfalso. apply lookup_lt_Some in Ex. apply lookup_ge_None in Ev. lia.
      + exfalso. apply lookup_lt_Some in Ev. apply lookup_ge_None in Ex. lia.
      + constructor.
  Qed.

  (** unpacking: loaded objects are new, given ones are handed over *)
  Lemma unpack_spec (args : list arg) : forall (h : list V) os h', unpack args h = (os, h') ->
    (exists l, h' = h ++ l) /\ length os = length args /\
    (forall i, match args !! i with Some (Obj o) => os !! i = Some o | Some (Addr v) => exists o, os !! i = Some o /\ length h <= o /\ h' !! o = Some v | None => True end) /\
    (forall i j o, os !! i = Some o -> os !! j = Some o -> length h <= o -> (forall o', Obj o' ∈ args -> o' < length h) -> i = j).
  Proof.
    induction args as [|[o|v] args IH]; intros h os h' E; cbn in E.
    - injection E as <- <-. split; [by exists []; rewrite app_nil_r|]. split; [done|]. split; [done|]. intros i j o Hi. done.
    - destruct (unpack args h) as [os1 h1] eqn:E1. injection E as <- <-. destruct (IH _ _ _ E1) as (P1 & P2 & P3 & P4). split; [done|].
      split; [cbn; by rewrite P2|]. split; [intros [|i]; [done|]; exact (P3 i)|].
      intros i j q Hi Hj Hq Hb. assert (o < length h) by (apply Hb; left).
      destruct i as [|i], j as [|j]; cbn in Hi, Hj; [done| | |].
      + injection Hi as ->. lia.
      + injection Hj as ->. lia.
      + f_equal. apply (P4 i j q); try done. intros o' Ho'. apply Hb. by right.
    - destruct (unpack args (h ++ [v])) as [os1 h1] eqn:E1. injection E as <- <-. destruct (IH _ _ _ E1) as ((l & ->) & P2 & P3 & P4).
      rewrite app_length in *. cbn in P3, P4. split; [exists (v :: l); by rewrite <- app_assoc|]. split; [cbn; by rewrite P2|]. split.
      + intros [|i]; cbn.
        * exists (length h). split; [done|]. split; [done|]. rewrite <- app_assoc. cbn. rewrite lookup_app_r by done. by rewrite Nat.sub_diag.
        * specialize (P3 i). destruct (args !! i) as [[o|w]|]; [done| |done]. destruct P3 as (o & H1 & H2 & H3). exists o. split; [done|]. split; [lia|done].
      + assert (G : forall i o, os1 !! i = Some o -> (forall o', Obj o' ∈ Addr v :: args -> o' < length h) -> o <> length h).
        { intros i o Hi Hb ->. assert (exists x, args !! i = Some x) as [[o|w] Hx].
          { apply lookup_lt_is_Some_2. rewrite <- P2. by apply lookup_lt_Some in Hi. }
          - specialize (P3 i). rewrite Hx in P3. rewrite Hi in P3. injection P3 as <-. assert (length h < length h); [|lia]. apply Hb. right. by eapply elem_of_list_lookup_2.
          - specialize (P3 i). rewrite Hx in P3. destruct P3 as (o & H1 & H2 & _). rewrite Hi in H1. injection H1 as <-. lia. }
        intros i j o Hi Hj Hq Hb. destruct i as [|i], j as [|j]; cbn in Hi, Hj; [done| | |].
        * injection Hi as <-. by eapply G in Hj.
        * injection Hj as <-. by eapply G in Hi.
        * f_equal. assert (o <> length h) by (by eapply G). apply (P4 i j o); try done; [lia|]. intros o' Ho'. assert (o' < length h) by (apply Hb; by right). lia.
  Qed.
  Lemma unpack_nodup (args : list arg) h os h' : unpack args h = (os, h') -> (forall o, Obj o ∈ args -> o < length h) -> separate args -> NoDup os.
  Proof.
    intros E Hb Hs. destruct (unpack_spec args h os h' E) as (_ & P2 & P3 & P4). apply NoDup_alt. intros i j o Hi Hj.
    destruct (decide (length h <= o)) as [Hge|Hlt]; [by eapply P4|].
    assert (X : forall i, os !! i = Some o -> args !! i = Some (Obj o)).
    { intros k Hk. specialize (P3 k). destruct (args !! k) as [[q|v]|] eqn:Ek.
      - congruence.
      - destruct P3 as (q & H1 & H2 & _). assert (q = o) by congruence. lia.
      - exfalso. apply lookup_ge_None in Ek. apply lookup_lt_Some in Hk. lia. }
    by apply (Hs i j o); apply X.
  Qed.
  Lemma fits_places (args : list arg) (s : state) os h' vs : has_contents s args vs -> unpack args (heap s) = (os, h') -> fits (places os) vs.
  Proof.
    intros [Hl Hc] E. destruct (unpack_spec args _ os h' E) as ((l & Hh) & P2 & P3 & _). split.
    - unfold places. by rewrite map_length, P2.
    - assert (X : forall i v, vs !! i = Some v -> exists o, os !! i = Some o /\ h' !! o = Some v).
      { intros i v Hv. assert (exists x, args !! i = Some x) as [x Hx] by (apply lookup_lt_is_Some_2; rewrite Hl; by eapply lookup_lt_Some).
        specialize (P3 i). rewrite Hx in P3. specialize (Hc i x v Hx Hv). destruct x as [o|w].
        - exists o. split; [done|]. rewrite Hh. by apply lookup_app_l_Some.
        - subst w. destruct P3 as (o & H1 & _ & H3). by exists o. }
      intros i j v w Hp Hv Hw. destruct (X i v Hv) as (o & Ho & Hov). destruct (X j w Hw) as (q & Hq & Hqw).
      unfold places in Hp. rewrite !list_lookup_fmap, Ho, Hq in Hp. cbn in Hp. injection Hp as Hp.
      destruct (position_spec o os) as [H1 _]; [by eapply elem_of_list_lookup_2|]. destruct (position_spec q os) as [H2 _]; [by eapply elem_of_list_lookup_2|].
      rewrite Hp in H1. congruence.
  Qed.

  Lemma write_length os after (h : list V) : length (write os after h) = length h.
  Proof. unfold write. generalize os at 1 as os0. intros os0. induction os as [|o os IH]; [done|]. cbn. by rewrite insert_length. Qed.
  Lemma write_spec os after (h : list V) o v : h !! o = Some v ->
    write os after h !! o = Some (if decide (o ∈ os) then after (position o os) else v).
  Proof.
    intros Hv. unfold write. assert (G : forall l, foldr (fun o h => <[o := after (position o os)]> h) h l !! o = Some (if decide (o ∈ l) then after (position o os) else v)).
    { induction l as [|q l IH]; [done|]. cbn [foldr]. destruct (decide (q = o)) as [->|Hne].
      - rewrite list_lookup_insert; [by rewrite decide_True by left|]. apply lookup_lt_Some in IH. done.
      - rewrite list_lookup_insert_ne, IH by done. f_equal. destruct (decide (o ∈ l)) as [Hin|Hin]; [rewrite decide_True by (by right); done|].
        rewrite decide_False; [done|]. intros [->|?]%elem_of_cons; done. }
    apply G.
  Qed.

  Lemma has_contents_bound (s : state) args vs o : has_contents s args vs -> Obj o ∈ args -> o < length (heap s).
  Proof.
    intros [Hl Hc] [i Hi]%elem_of_list_lookup. assert (exists v, vs !! i = Some v) as [v Hv] by (apply lookup_lt_is_Some_2; rewrite <- Hl; by eapply lookup_lt_Some).
    specialize (Hc i _ v Hi Hv). cbn in Hc. by eapply lookup_lt_Some.
  Qed.
  Lemma has_contents_addr (s : state) vs : has_contents s (map Addr vs) vs.
  Proof.
    split; [by rewrite map_length|]. intros i x v Hx Hv. rewrite list_lookup_fmap, Hv in Hx. cbn in Hx. injection Hx as <-. reflexivity.
  Qed.
  Lemma separate_addr (vs : list V) : separate (map Addr vs).
  Proof. intros i j o Hi. rewrite list_lookup_fmap in Hi. destruct (vs !! i); discriminate Hi. Qed.

  Lemma call_hit (s : state) f args vs w : has_contents s args vs -> results s (f, map text_of vs) = Some w ->
    call text_of body f args s = (State (heap s ++ [w]) (results s), Ok (length (heap s))).
  Proof. intros Hc Hr. unfold call. apply mapM_contents in Hc. rewrite Hc. cbn zeta. by rewrite Hr. Qed.
  Lemma call_miss (s : state) f args vs : has_contents s args vs -> results s (f, map text_of vs) = None ->
    exists os h1 s' r, unpack args (heap s) = (os, h1) /\ call text_of body f args s = (s', Ok r) /\
      heap s' = write os (fst (body f (places os) vs)) h1 ++ [snd (body f (places os) vs)] /\ r = length h1 /\
      results s' = (fun l => if decide (l = (f, map text_of vs)) then Some (snd (body f (places os) vs)) else results s l).
  Proof.
    intros Hc Hr. unfold call. pose proof Hc as Hc'. apply mapM_contents in Hc. rewrite Hc. cbn zeta. rewrite Hr.
    destruct (unpack args (heap s)) as [os h1]. destruct (body f (places os) vs) as [after w] eqn:Eb.
    eexists os, h1, _, _. rewrite Eb. split; [done|]. split; [reflexivity|]. split; [reflexivity|]. split; [by rewrite write_length|done].
  Qed.
  Lemma call_bad (s : state) f args : (forall vs, ~ has_contents s args vs) -> call text_of body f args s = (s, Err AttributeError).
  Proof. intros H. unfold call. destruct (mapM _ args) as [vs|] eqn:E; [|done]. apply mapM_contents in E. by apply H in E. Qed.
  Lemma run_is (s : state) f args vs : has_contents s args vs -> run text_of body f args s = call text_of body f (map Addr vs) s.
  Proof. intros Hc. unfold run. apply mapM_contents in Hc. by rewrite Hc. Qed.
  Lemma run_bad (s : state) f args : (forall vs, ~ has_contents s args vs) -> run text_of body f args s = (s, Err AttributeError).
  Proof. intros H. unfold run. destruct (mapM _ args) as [vs|] eqn:E; [|done]. apply mapM_contents in E. by apply H in E. Qed.
  Lemma contents_dec (s : state) args : (exists vs, has_contents s args vs) \/ (forall vs, ~ has_contents s args vs).
  Proof.
    destruct (mapM (contents (heap s)) args) as [vs|] eqn:E; [left; exists vs; by apply mapM_contents|right].
    intros vs Hv. apply mapM_contents in Hv. congruence.
  Qed.
  Lemma has_contents_fun (s : state) args vs ws : has_contents s args vs -> has_contents s args ws -> vs = ws.
  Proof. rewrite <- !mapM_contents. congruence. Qed.

  (** results stay *)
  Lemma call_keeps f args (s : state) k w : results s k = Some w -> results (fst (call text_of body f args s)) k = Some w.
  Proof.
    intros Hk. destruct (contents_dec s args) as [[vs Hc]|Hc]; [|by rewrite call_bad].
    destruct (results s (f, map text_of vs)) as [x|] eqn:Er; [by rewrite (call_hit s f args vs x)|].
    destruct (call_miss s f args vs Hc Er) as (os & h1 & s' & r & _ & -> & _ & _ & Hs). cbn [fst]. rewrite Hs. rewrite decide_False; [done|]. congruence.
  Qed.
  Lemma step_keeps (s : state) e k w : results s k = Some w -> results (step text_of body s e) k = Some w.
  Proof.
    intros Hk. destruct e as [v|o v|f args|f args]; [done|done|by apply call_keeps|]. cbn [step].
    destruct (contents_dec s args) as [[vs Hc]|Hc]; [|by rewrite run_bad]. rewrite (run_is s f args vs Hc). by apply call_keeps.
  Qed.
  Lemma steps_keeps h : forall (s : state) k w, results s k = Some w -> results (steps text_of body s h) k = Some w.
  Proof. induction h as [|e h IH]; [done|]. intros s k w Hk. apply IH. by apply step_keeps. Qed.

  (** answers for separate objects *)
  Definition good (s : state) (F : nat -> Prop) : Prop :=
    forall f vs w, F f -> results s (f, map text_of vs) = Some w -> w = answer body f vs.
  Hypothesis cf : collision_free text_of.
  Lemma map_text_inj (vs ws : list V) : map text_of vs = map text_of ws -> vs = ws.
  Proof. revert ws. induction vs as [|v vs IH]; intros [|w ws]; cbn; try done. intros [= H1 H2]. f_equal; [by apply cf|by apply IH]. Qed.
  Lemma miss_answer (s : state) f args vs os h1 : has_contents s args vs -> unpack args (heap s) = (os, h1) -> separate args \/ indifferent body f ->
    snd (body f (places os) vs) = answer body f vs.
  Proof.
    intros Hc E [Hs|Hi]; [|by apply Hi, (fits_places args s os h1)].
    rewrite places_nodup; [|apply (unpack_nodup args (heap s) os h1 E); [intros o; by eapply has_contents_bound|done]].
    unfold answer. f_equal. f_equal. f_equal. destruct (unpack_spec _ _ _ _ E) as (_ & P & _). destruct Hc as [Hl _]. congruence.
  Qed.
  Lemma call_good f args (s : state) F : good s F -> (F f -> separate args \/ indifferent body f) -> good (fst (call text_of body f args s)) F.
  Proof.
    intros Hg Ht. destruct (contents_dec s args) as [[vs Hc]|Hc]; [|by rewrite call_bad].
    destruct (results s (f, map text_of vs)) as [x|] eqn:Er; [by rewrite (call_hit s f args vs x)|].
    destruct (call_miss s f args vs Hc Er) as (os & h1 & s' & r & E & -> & _ & _ & Hs). cbn [fst]. intros g ws w Fg. rewrite Hs.
    destruct (decide _) as [[= -> Hk]|]; [|by apply Hg]. intros [= <-]. apply map_text_inj in Hk as ->. apply (miss_answer s f args vs os h1); auto.
  Qed.
  Lemma step_good (s : state) e F : good s F -> (forall f args, e = Call f args -> F f -> separate args \/ indifferent body f) -> good (step text_of body s e) F.
  Proof.
    intros Hg Ht. destruct e as [v|o v|f args|f args]; [done|done|apply call_good; [done|by apply Ht]|]. cbn [step].
    destruct (contents_dec s args) as [[vs Hc]|Hc]; [|by rewrite run_bad]. rewrite (run_is s f args vs Hc). apply call_good; [done|].
    intros _. left. apply separate_addr.
  Qed.
  Lemma steps_good h : forall (s : state) F, good s F -> (forall f args, Call f args ∈ h -> F f -> separate args \/ indifferent body f) -> good (steps text_of body s h) F.
  Proof.
    induction h as [|e h IH]; [done|]. intros s F Hg Ht. apply IH.
    - apply step_good; [done|]. intros f args ->. apply Ht. left.
    - intros f args Hin. apply Ht. by right.
  Qed.
End P.
