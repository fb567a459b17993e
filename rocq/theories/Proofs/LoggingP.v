From Verif.Lib Require Import Py DictLemmas.
From Verif.Model Require Import Logging.
From Verif.Spec Require Import LoggingSpec PortalSpec.
From Verif.Proofs Require Import PortalsP.
From stdpp Require Import gmap pretty.
Local Open Scope nat_scope.

Lemma distinct_in x l : x ∈ distinct l <-> x ∈ l.
Proof. exact (first_occ_in x l). Qed.
Lemma distinct_nodup l : NoDup (distinct l).
Proof. exact (first_occ_nodup l). Qed.

Section P.
  Context {V : Type} (place : nat -> nat).
  Notation lstate := (lstate (V := V)).
  Notation prog := (prog (V := V)).
  Implicit Types (s : lstate) (e q p : nat) (pre : xprefix) (i : xid).
  Notation records := (records (V := V) place).
  Notation log_ok := (log_ok (V := V) place).

  Definition cnt (cs : list crash) (e q : nat) (k : option string) : nat :=
    length (List.filter (fun c => (c_exn c =? e) && (c_place c =? place q) && in_section k (c_prefix c)) cs).
  Lemma cnt_app cs cs' e q k : cnt (cs ++ cs') e q k = cnt cs e q k + cnt cs' e q k.
  Proof. unfold cnt. by rewrite List.filter_app, app_length. Qed.
  Lemma cnt_none cs e q k : (forall c, c ∈ cs -> c_exn c <> e) -> cnt cs e q k = 0.
  Proof.
    induction cs as [|c cs IH]; intros H; [done|]. unfold cnt in *; cbn.
    destruct (c_exn c =? e) eqn:E; [apply Nat.eqb_eq in E; exfalso; eapply H; [left|done]|]. cbn. apply IH. intros c' Hc. apply H. by right.
  Qed.

  Hypothesis Hsep : separate place.

  Lemma write_all_ok ps pre i e : forall s, NoDup ps ->
    (forall c, c ∈ crashes s -> c_prefix c = pre -> c_id c <> i) ->
    write_all place ps pre i e s =
      (LState (opened s) (marked s) (next_exn s) (next_sig s) (today s)
         (crashes s ++ map (fun p => Crash (place p) pre i e) ps) (events s) (run_crashes s), None).
  Proof.
    enough (G : forall ps done s, NoDup (done ++ ps) -> (forall c, c ∈ crashes s -> c_prefix c = pre -> c_id c = i -> exists p, p ∈ done /\ c_place c = place p) ->
      write_all place ps pre i e s =
      (LState (opened s) (marked s) (next_exn s) (next_sig s) (today s)
         (crashes s ++ map (fun p => Crash (place p) pre i e) ps) (events s) (run_crashes s), None)).
    { intros s Hn Hf. apply (G ps []); [done|]. intros c Hc H1 H2. exfalso. by eapply Hf. }
    clear ps. induction ps as [|p ps IH]; intros done s Hn Hf; cbn [write_all map].
    - rewrite app_nil_r. by destruct s.
    - unfold write_crash. destruct (existsb _ (crashes s)) eqn:Ex.
      + exfalso. apply existsb_exists in Ex as (c & Hc & Hb). apply bool_decide_eq_true in Hb as (H1 & H2 & H3).
        destruct (Hf c) as (p' & Hp' & Hq); [by apply elem_of_list_In|done|done|].
        rewrite H1 in Hq. apply Hsep in Hq as <-. apply NoDup_app in Hn as (_ & Hd & _). apply (Hd p Hp'). left.
      + rewrite (IH (done ++ [p])).
        * cbn. by rewrite <- app_assoc.
        * by rewrite <- app_assoc.
        * intros c Hc H1 H2. cbn in Hc. apply elem_of_app in Hc as [Hc|Hc].
          -- destruct (Hf c Hc H1 H2) as (p' & ? & ?). exists p'. split; [apply elem_of_app; by left|done].
          -- apply elem_of_list_singleton in Hc as ->. exists p. split; [apply elem_of_app; right; left|done].
  Qed.

  Definition new_records (ps : list nat) (pres : list xprefix) i e : list crash :=
    flat_map (fun pre => map (fun p => Crash (place p) pre i e) ps) pres.
  Lemma write_prefixes_ok pres i e : forall s, NoDup pres ->
    (forall c, c ∈ crashes s -> c_id c <> i) ->
    write_prefixes place pres i e s =
      (LState (opened s) (marked s) (next_exn s) (next_sig s) (today s)
         (crashes s ++ new_records (entered s) pres i e) (events s) (run_crashes s), None).
  Proof.
    enough (G : forall pres done s, NoDup (done ++ pres) -> (forall c, c ∈ crashes s -> c_id c = i -> c_prefix c ∈ done) ->
      write_prefixes place pres i e s =
      (LState (opened s) (marked s) (next_exn s) (next_sig s) (today s)
         (crashes s ++ new_records (entered s) pres i e) (events s) (run_crashes s), None)).
    { intros s Hn Hf. apply (G pres []); [done|]. intros c Hc Hi. exfalso. by eapply Hf. }
    clear pres. induction pres as [|pre pres IH]; intros done s Hn Hf; cbn [write_prefixes].
    - unfold new_records. cbn. rewrite app_nil_r. by destruct s.
    - rewrite write_all_ok.
      + rewrite (IH (done ++ [pre])).
        * cbn. unfold new_records. cbn. by rewrite <- app_assoc.
        * by rewrite <- app_assoc.
        * intros c Hc Hi. cbn in Hc. apply elem_of_app in Hc as [Hc|Hc]; [apply elem_of_app; left; by apply Hf|].
          apply elem_of_list_fmap in Hc as (p & -> & _). apply elem_of_app. right. left.
      + apply distinct_nodup.
      + intros c Hc Hp Hi. specialize (Hf c Hc Hi). rewrite Hp in Hf. apply NoDup_app in Hn as (_ & Hd & _). apply (Hd pre Hf). left.
  Qed.

  Lemma cnt_new ps pres i e q k : NoDup ps ->
    cnt (new_records ps pres i e) e q k = length (List.filter (in_section k) pres) * (if decide (q ∈ ps) then 1 else 0).
  Proof.
    intros Hn. unfold new_records. induction pres as [|pre pres IH]; [done|]. cbn [flat_map]. rewrite cnt_app, IH. cbn [List.filter].
    assert (E : cnt (map (fun p => Crash (place p) pre i e) ps) e q k = if in_section k pre then (if decide (q ∈ ps) then 1 else 0) else 0).
    { clear IH. induction Hn as [|p ps Hp Hn IHn]; [by destruct (in_section k pre)|]. cbn [map].
      rewrite (cnt_app [Crash (place p) pre i e] (map (fun p => Crash (place p) pre i e) ps)), IHn. unfold cnt. cbn. rewrite Nat.eqb_refl. cbn. destruct (in_section k pre) eqn:Ek.
      - destruct (place p =? place q) eqn:Ep; cbn.
        + apply Nat.eqb_eq, Hsep in Ep as ->. rewrite decide_False by done. rewrite decide_True by left. done.
        + cbn. assert (p <> q) by (intros ->; rewrite Nat.eqb_refl in Ep; done).
          destruct (decide (q ∈ ps)), (decide (q ∈ p :: ps)); try done; exfalso; set_solver.
      - rewrite andb_false_r. done. }
    rewrite E. destruct (in_section k pre); cbn; lia.
  Qed.

  (** ** How executions change the logs *)
  Notation reported := (reported (V := V) place).
  Definition rep s s' : Prop := today s <= today s' /\ exists rs, reported s s' rs.
  Lemma reported_nil s s' : crashes s' = crashes s -> run_crashes s' = run_crashes s -> reported s s' [].
  Proof.
    intros H1 H2. split; [cbn; by rewrite app_nil_r|]. split; [cbn; by rewrite app_nil_r|]. split; [constructor|]. split; [constructor|]. intros r Hr. by apply elem_of_nil in Hr.
  Qed.
  Lemma rep_same s s' : crashes s' = crashes s -> run_crashes s' = run_crashes s -> today s <= today s' -> rep s s'.
  Proof. intros H1 H2 H3. split; [done|]. exists []. by apply reported_nil. Qed.
  Lemma written_id r : r_portals r <> [] -> exists c, c ∈ written place r /\ c_id c = r_id r.
  Proof.
    intros H. unfold written. destruct (r_portals r) as [|p ps]; [done|]. exists (Crash (place p) (CatchAll (r_day r)) (r_id r) (r_exn r)). split; [|done].
    apply elem_of_app. right. left.
  Qed.
  Lemma reported_trans s1 s2 s3 rs1 rs2 : (forall e, e ∈ marked s1 -> e ∈ marked s2) -> (forall e, e ∈ marked s2 -> e ∈ marked s3) ->
    next_exn s2 <= next_exn s3 -> today s1 <= today s2 -> today s2 <= today s3 -> reported s1 s2 rs1 -> reported s2 s3 rs2 -> reported s1 s3 (rs1 ++ rs2).
  Proof.
    intros M1 M2 N2 T1 T2 (A1 & B1 & C1 & D1 & E1) (A2 & B2 & C2 & D2 & E2). split; [|split; [|split; [|split]]].
    - by rewrite A2, A1, map_app, concat_app, app_assoc.
    - by rewrite B2, B1, map_app, concat_app, app_assoc.
    - rewrite map_app. apply NoDup_app. split; [done|]. split; [|done]. intros e (r1 & -> & H1)%elem_of_list_fmap (r2 & Hx & H2)%elem_of_list_fmap.
      destruct (E1 r1 H1) as (_ & X & _). destruct (E2 r2 H2) as (Y & _). apply Y. by rewrite <- Hx.
    - rewrite map_app. apply NoDup_app. split; [done|]. split; [|done]. intros i (r1 & -> & H1)%elem_of_list_fmap (r2 & Hx & H2)%elem_of_list_fmap.
      destruct (E1 r1 H1) as (_ & _ & _ & _ & X & _). destruct (E2 r2 H2) as (_ & _ & _ & _ & _ & _ & Y & _).
      destruct (written_id r1 X) as (c & Hc & Hi). apply (Y c); [|congruence]. rewrite A1. apply elem_of_app. right.
      apply elem_of_list_In, in_concat. exists (written place r1). split; [by apply in_map, elem_of_list_In|by apply elem_of_list_In].
    - intros r Hr. apply elem_of_app in Hr as [Hr|Hr].
      + destruct (E1 r Hr) as (X1 & X2 & X3 & X4 & X5 & X6 & X7 & X8). split_and!; auto; lia.
      + destruct (E2 r Hr) as (X1 & X2 & X3 & X4 & X5 & X6 & X7 & X8). split_and!; auto; try lia. intros c Hc. apply X7. rewrite A1. apply elem_of_app. by left.
  Qed.
  Lemma rep_trans s1 s2 s3 : (forall e, e ∈ marked s1 -> e ∈ marked s2) -> (forall e, e ∈ marked s2 -> e ∈ marked s3) ->
    next_exn s2 <= next_exn s3 -> rep s1 s2 -> rep s2 s3 -> rep s1 s3.
  Proof. intros M1 M2 N [T1 [rs1 R1]] [T2 [rs2 R2]]. split; [lia|]. exists (rs1 ++ rs2). by eapply reported_trans. Qed.
  Definition good (lo : nat) s s' : Prop :=
    log_ok s' /\ next_exn s <= next_exn s' /\ next_sig s <= next_sig s' /\
    (forall e, e ∈ marked s -> e ∈ marked s') /\ rep s s' /\
    exists new, crashes s' = crashes s ++ new /\ forall c, c ∈ new -> c_exn c ∉ marked s /\ lo <= sig_of (c_id c).
  Lemma good_refl lo s : log_ok s -> good lo s s.
  Proof. intros H. split; [done|]. split; [done|]. split; [done|]. split; [done|]. split; [by apply rep_same|]. exists []. rewrite app_nil_r. split; [done|]. intros c Hc. by apply elem_of_nil in Hc. Qed.
  Lemma good_same lo s s' : log_ok s' -> next_exn s <= next_exn s' -> next_sig s <= next_sig s' -> (forall e, e ∈ marked s -> e ∈ marked s') ->
    crashes s' = crashes s -> run_crashes s' = run_crashes s -> today s <= today s' -> good lo s s'.
  Proof.
    intros H1 H2 H3 H4 H5 H6 H7. split; [done|]. split; [done|]. split; [done|]. split; [done|]. split; [by apply rep_same|].
    exists []. rewrite app_nil_r. split; [done|]. intros c Hc. by apply elem_of_nil in Hc.
  Qed.
  Lemma good_trans lo s1 s2 s3 : good lo s1 s2 -> good lo s2 s3 -> good lo s1 s3.
  Proof.
    intros (O1 & A1 & B1 & M1 & R1 & n1 & C1 & D1) (O2 & A2 & B2 & M2 & R2 & n2 & C2 & D2). split; [done|]. split; [lia|]. split; [lia|]. split; [auto|]. split; [by eapply rep_trans|].
    exists (n1 ++ n2). split; [by rewrite C2, C1, app_assoc|]. intros c Hc. apply elem_of_app in Hc as [Hc|Hc]; [auto|].
    destruct (D2 c Hc) as [H1 H2]. auto.
  Qed.
  Lemma good_weaken lo lo' s s' : lo' <= lo -> good lo s s' -> good lo' s s'.
  Proof. intros Hle (O1 & A1 & B1 & M1 & R1 & n1 & C1 & D1). split; [done|]. split; [done|]. split; [done|]. split; [done|]. split; [done|]. exists n1. split; [done|]. intros c Hc. destruct (D1 c Hc). split; [done|lia]. Qed.
  Lemma good_sig lo lo' s s' : good lo s s' -> lo' <= next_sig s -> lo' <= next_sig s'.
  Proof. intros (_ & _ & H & _). lia. Qed.
  Lemma good_opened lo s s' o : good lo s s' -> good lo s (with_opened o s').
  Proof. done. Qed.
  Lemma good_opened_l lo s s' o : good lo (with_opened o s) s' -> good lo s s'.
  Proof. done. Qed.

  Definition fresh_id (i : string + xid) s : Prop := match i with inl _ => True | inr x => (forall c, c ∈ crashes s -> sig_of (c_id c) <> sig_of x) /\ sig_of x < next_sig s end.
  Lemma persist_ok e (pres : list xprefix) (i : string + xid) s : log_ok s -> e < next_exn s -> NoDup pres -> fresh_id i s ->
    (forall k, length (List.filter (in_section k) pres) <= 1) ->
    exists s', persist place e pres i s = (s', None, needs_processing e s) /\
      log_ok s' /\ opened s' = opened s /\ next_exn s' = next_exn s /\ next_sig s <= next_sig s' /\ today s' = today s /\ events s' = events s /\
      run_crashes s' = run_crashes s /\ e ∈ marked s' /\
      (forall e', e' ∈ marked s' <-> e' ∈ marked s \/ e' = e) /\
      (exists new, crashes s' = crashes s ++ new /\ (forall c, c ∈ new -> c_exn c = e /\ c_exn c ∉ marked s /\
          match i with inl _ => next_sig s <= sig_of (c_id c) | inr x => c_id c = x end)) /\
      (e ∉ marked s -> forall q k, records s' e q k = length (List.filter (in_section k) pres) * (if decide (q ∈ opened s) then 1 else 0)) /\
      (forall e' q k, e' <> e \/ e ∈ marked s -> records s' e' q k = records s e' q k).
  Proof.
    intros (K1 & K2 & K3 & K4 & K5) He Hp Hf Hk. unfold persist, needs_processing. destruct (bool_decide (e ∈ marked s)) eqn:Em; cbn [negb].
    { apply bool_decide_eq_true in Em. exists s. split_and!; try done; try lia.
      - split; [by left|]. intros [H|H]; by subst.
      - exists []. rewrite app_nil_r. split; [done|]. intros c Hc. by apply elem_of_nil in Hc. }
    apply bool_decide_eq_false in Em.
    set (s1 := match i with inl _ => fst (new_sig s) | inr _ => s end).
    set (i1 := match i with inl t => Random t (next_sig s) | inr x => x end).
    assert (Heq : (match i with inl text => let '(s1, n) := new_sig s in (s1, Random text n) | inr x => (s, x) end) = (s1, i1)) by (by destruct i).
    rewrite Heq.
    assert (C1 : crashes s1 = crashes s) by (by destruct i). assert (O1 : opened s1 = opened s) by (by destruct i).
    assert (M1 : marked s1 = marked s) by (by destruct i). assert (N1 : next_exn s1 = next_exn s) by (by destruct i).
    assert (T1 : today s1 = today s) by (by destruct i). assert (E1 : events s1 = events s) by (by destruct i).
    assert (R1 : run_crashes s1 = run_crashes s) by (by destruct i).
    assert (S1 : next_sig s <= next_sig s1) by (unfold s1; destruct i; cbn; lia).
    assert (Si : sig_of i1 < next_sig s1) by (unfold s1, i1; destruct i; cbn; [lia|apply Hf]).
    rewrite write_prefixes_ok; [|done|].
    2: { rewrite C1. intros c Hc Hi. destruct i as [t|x]; cbn in *; [|destruct Hf as [Hf _]; by apply (Hf c Hc); rewrite Hi].
         specialize (K1 c Hc). rewrite Hi in K1. cbn in K1. lia. }
    assert (Hrec : forall e' q k, cnt (crashes s ++ new_records (entered s1) pres i1 e) e' q k =
        records s e' q k + if decide (e' = e) then length (List.filter (in_section k) pres) * (if decide (q ∈ opened s) then 1 else 0) else 0).
    { intros e' q k. rewrite cnt_app. f_equal. destruct (decide (e' = e)) as [->|Hne].
      - rewrite cnt_new by apply distinct_nodup. f_equal. unfold entered. rewrite O1.
        destruct (decide (q ∈ distinct (opened s))), (decide (q ∈ opened s)); try done; rewrite distinct_in in *; done.
      - apply cnt_none. intros c Hc Hx. unfold new_records in Hc. apply elem_of_list_In, in_flat_map in Hc as (pre & _ & Hc).
        apply in_map_iff in Hc as (p & <- & _). by cbn in Hx. }
    assert (H0 : forall q k, e ∉ marked s -> records s e q k = 0).
    { intros q k Hm. apply cnt_none. intros c Hc <-. by apply Hm, K2. }
    eexists. split; [reflexivity|]. cbn. rewrite C1, O1, M1, N1, T1, E1, R1. split_and!; try done; try lia.
    - split_and!; cbn.
      + intros c Hc. apply elem_of_app in Hc as [Hc|Hc]; [specialize (K1 c Hc); lia|].
        unfold new_records in Hc. apply elem_of_list_In, in_flat_map in Hc as (pre & _ & Hc). by apply in_map_iff in Hc as (p & <- & _).
      + intros c Hc. apply elem_of_app in Hc as [Hc|Hc]; [right; by apply K2|].
        unfold new_records in Hc. apply elem_of_list_In, in_flat_map in Hc as (pre & _ & Hc). apply in_map_iff in Hc as (p & <- & _). left.
      + intros e' He'. apply elem_of_cons in He' as [->|He']; [done|by apply K3].
      + intros e' q k. change (cnt (crashes s ++ new_records (entered s1) pres i1 e) e' q k <= 1). rewrite Hrec.
        destruct (decide (e' = e)) as [->|]; [|specialize (K4 e' q k); lia]. rewrite H0 by done. specialize (Hk k). destruct (decide (q ∈ opened s)); lia.
      + intros v n Hv Hn. specialize (K5 v n Hv Hn). lia.
    - left.
    - intros e'. rewrite elem_of_cons. naive_solver.
    - exists (new_records (entered s1) pres i1 e). split; [done|]. intros c Hc.
      unfold new_records in Hc. apply elem_of_list_In, in_flat_map in Hc as (pre & _ & Hc). apply in_map_iff in Hc as (p & <- & _).
      cbn. split_and!; [done|done|]. destruct i; cbn; [lia|done].
    - intros Hm q k. change (cnt (crashes s ++ new_records (entered s1) pres i1 e) e q k = length (List.filter (in_section k) pres) * (if decide (q ∈ opened s) then 1 else 0)).
      rewrite Hrec, H0, decide_True by done. done.
    - intros e' q k [Hne|]; [|done]. change (cnt (crashes s ++ new_records (entered s1) pres i1 e) e' q k = records s e' q k).
      rewrite Hrec, decide_False by done. lia.
  Qed.

  Definition chosen_id (i : string + xid) s : xid := match i with inl t => Random t (next_sig s) | inr x => x end.
  Lemma persist_exact e (pres : list xprefix) (i : string + xid) s s' r b : log_ok s -> NoDup pres -> fresh_id i s ->
    persist place e pres i s = (s', r, b) ->
    (forall c, c ∈ crashes s -> sig_of (c_id c) <> sig_of (chosen_id i s)) /\
    crashes s' = crashes s ++ (if needs_processing e s then new_records (entered s) pres (chosen_id i s) e else []).
  Proof.
    intros (K1 & K2 & K3 & K4 & K5) Hp Hf E. assert (Hid : forall c, c ∈ crashes s -> sig_of (c_id c) <> sig_of (chosen_id i s)).
    { intros c Hc Hi. destruct i as [t|x]; cbn in *; [|destruct Hf as [Hf _]; by apply (Hf c Hc)].
      specialize (K1 c Hc). rewrite Hi in K1. cbn in K1. lia. }
    assert (Hid' : forall c, c ∈ crashes s -> c_id c <> chosen_id i s) by (intros c Hc Hi; apply (Hid c Hc); by rewrite Hi).
    split; [done|]. unfold persist in E. destruct (needs_processing e s).
    - assert (Hg : forall s1, crashes s1 = crashes s -> opened s1 = opened s ->
        match write_prefixes place pres (chosen_id i s) e s1 with (s2, None) => (with_mark e s2, None, true) | (s2, Some e') => (s2, Some e', false) end = (s', r, b) ->
        crashes s' = crashes s ++ new_records (entered s) pres (chosen_id i s) e).
      { intros s1 C1 O1. rewrite write_prefixes_ok; [|done|rewrite C1; exact Hid']. intros [= <- <- <-]. cbn. unfold entered. by rewrite C1, O1. }
      destruct i as [t|x]; cbn in E; [apply (Hg (fst (new_sig s)))|apply (Hg s)]; done.
    - injection E as <- <- <-. by rewrite app_nil_r.
  Qed.
  (** the report of an exception first met in state s *)
  Definition report_of e (f : option string) i s : list report :=
    match entered s with [] => [] | ps => [Report e (today s) f i ps] end.
  Definition prefixes_of (f : option string) (d : nat) : list xprefix := match f with Some f => [OfFn f; CatchAll d] | None => [CatchAll d] end.
  Lemma report_written e f i s : concat (map (written place) (report_of e f i s)) = new_records (entered s) (prefixes_of f (today s)) i e.
  Proof.
    unfold report_of, new_records. destruct (entered s) as [|p ps] eqn:E; [by destruct f|]. destruct f; cbn; rewrite ?app_nil_r; done.
  Qed.
  Lemma report_ok e f (i : string + xid) s s' rc : e ∉ marked s -> e ∈ marked s' -> e < next_exn s' -> today s = today s' ->
    (forall c, c ∈ crashes s -> sig_of (c_id c) <> sig_of (chosen_id i s)) ->
    match chosen_id i s with InFrame f' _ k => f = Some f' /\ k = 0 | Random _ _ => True end ->
    crashes s' = crashes s ++ new_records (entered s) (prefixes_of f (today s)) (chosen_id i s) e ->
    rc = concat (map (written_run place) (report_of e f (chosen_id i s) s)) -> run_crashes s' = run_crashes s ++ rc ->
    reported s s' (report_of e f (chosen_id i s) s).
  Proof.
    intros H1 H2 H3 H4 H5 H8 H6 -> H7. split; [by rewrite report_written|]. split; [done|].
    pose proof (distinct_nodup (opened s)) as Hn. fold (entered s) in Hn.
    unfold report_of in *. destruct (entered s) as [|p ps]; [split; [constructor|]; split; [constructor|]; intros r Hr; by apply elem_of_nil in Hr|].
    split; [apply NoDup_singleton|]. split; [apply NoDup_singleton|]. intros r ->%elem_of_list_singleton. cbn. split_and!; try done; lia.
  Qed.
  Lemma catch_all_once d k : length (List.filter (in_section k) [CatchAll d]) <= 1.
  Proof. destruct k; cbn; lia. Qed.
  Lemma fn_once f d k : length (List.filter (in_section k) [OfFn f; CatchAll d]) <= 1.
  Proof. destruct k; cbn; [destruct (String.eqb _ _); cbn; lia|lia]. Qed.

  Definition bounded (h : option nat) s : Prop := forall e, h = Some e -> e < next_exn s.

  Lemma needs_iff e s : needs_processing e s = true <-> e ∉ marked s.
  Proof. unfold needs_processing. rewrite negb_true_iff. apply bool_decide_eq_false. Qed.
  Lemma logger_ok h s : log_ok s -> bounded h s ->
    exists s', exception_logger place h s = (s', None) /\ good (next_sig s) s s' /\ opened s' = opened s /\ events s' = events s /\ today s' = today s /\
      run_crashes s' = run_crashes s /\
      (h = None -> s' = s) /\
      (forall e, h = Some e -> e ∈ marked s' /\
         (e ∉ marked s -> forall q k, records s' e q k = match k with None => if decide (q ∈ opened s) then 1 else 0 | Some _ => 0 end)) /\
      (forall e' q k, h <> Some e' \/ e' ∈ marked s -> records s' e' q k = records s e' q k).
  Proof.
    intros Hok Hb. destruct h as [e|]; cbn.
    - destruct (persist_ok e [CatchAll (today s)] (inl ""%string) s Hok (Hb _ eq_refl) ltac:(repeat constructor; set_solver) I (catch_all_once _))
        as (s' & Ep & Hok' & Ho & Hn & Hs & Ht & He & Hr & Hm & Hm' & (new & Hc & Hnew) & Hrec & Hoth).
      destruct (persist_exact e [CatchAll (today s)] (inl ""%string) s s' None _ Hok ltac:(repeat constructor; set_solver) I Ep) as [Hid Hcx]. rewrite Ep.
      assert (HR : rep s s').
      { split; [lia|]. destruct (needs_processing e s) eqn:En.
        - exists (report_of e None (chosen_id (inl ""%string) s) s). eapply report_ok; try done; [by apply needs_iff|rewrite Hn; by apply Hb|].
          rewrite Hr. unfold report_of. destruct (entered s); cbn; by rewrite app_nil_r.
        - exists []. rewrite app_nil_r in Hcx. by apply reported_nil. }
      exists s'. split; [done|]. split; [|split; [|split; [|split; [|split; [|split; [|split]]]]]]; try done.
      + split; [done|]. split; [lia|]. split; [done|]. split; [intros e' H; apply Hm'; by left|]. split; [done|]. exists new. split; [done|]. intros c Hx. destruct (Hnew c Hx) as (? & ? & ?). done.
      + intros e' [= <-]. split; [done|]. intros Hne q k. rewrite Hrec by done. destruct k; cbn; lia.
      + intros e' q k [H|H]; apply Hoth; [left; congruence|]. destruct (decide (e' = e)) as [->|]; [by right|by left].
    - exists s. split; [done|]. split; [by apply good_refl|]. split_and!; done.
  Qed.

  (** the body of a block: preserves the stack *)
  Definition block (Pre : lstate -> Prop) (lo : nat) (h : option nat) (m : lstate -> lstate * option nat) : Prop :=
    forall s s' r, Pre s -> lo <= next_sig s -> log_ok s -> bounded h s -> m s = (s', r) -> good lo s s' /\ opened s' = opened s /\ bounded r s'.
  Lemma bounded_mono h s s' : bounded h s -> next_exn s <= next_exn s' -> bounded h s'.
  Proof. intros H Hle e He. specialize (H e He). lia. Qed.
  Lemma log_ok_opened s o : log_ok s -> log_ok (with_opened o s).
  Proof. done. Qed.
  Definition stackless (Pre : lstate -> Prop) : Prop := forall s o, Pre s -> Pre (with_opened o s).

  Lemma run_with_block (Pre Pre' : lstate -> Prop) lo h p m : (forall s, Pre s -> Pre' (with_opened (p :: opened s) s)) -> block Pre' lo h m -> block Pre lo h (run_with place h p m).
  Proof.
    intros Hst Hm s s' r HP Hlo Hok Hb. unfold run_with. destruct (m (with_opened (p :: opened s) s)) as [s1 r1] eqn:E1.
    destruct (Hm _ _ _ (Hst _ HP) ltac:(exact Hlo) (log_ok_opened _ _ Hok) ltac:(exact Hb) E1) as (G1 & O1 & B1). apply good_opened_l in G1. cbn in O1.
    assert (Hlo1 : lo <= next_sig s1) by (destruct G1 as (_ & _ & ? & _); lia).
    destruct r1 as [e|]; unfold exit_with.
    - destruct (logger_ok (Some e) s1 (proj1 G1) B1) as (s2 & -> & G2 & O2 & _). rewrite O2, O1. cbn. intros [= <- <-].
      apply (good_weaken _ lo) in G2; [|done].
      split; [apply good_opened; by eapply good_trans|]. split; [done|]. eapply bounded_mono; [exact B1|]. apply G2.
    - destruct (logger_ok h s1 (proj1 G1)) as (s2 & -> & G2 & O2 & _); [eapply bounded_mono; [exact Hb|apply G1]|]. rewrite O2, O1. cbn. intros [= <- <-].
      apply (good_weaken _ lo) in G2; [|done].
      split; [apply good_opened; by eapply good_trans|]. done.
  Qed.
  (** the run-history entry goes with the identifier of the frame, in the innermost portal *)
  Definition ses_ok (f : string) (i : string + xid) (ses : option (nat * nat)) s : Prop :=
    match i, ses with
    | inl _, None => True
    | inr (InFrame f' n k), Some (pl, n') => n' = n /\ f' = f /\ k = 0 /\ exists p, head (opened s) = Some p /\ pl = place p
    | _, _ => False
    end.
  Lemma run_function_block Pre lo h f (i : string + xid) ses m : block Pre lo h m ->
    (forall s s1 r, Pre s -> lo <= next_sig s -> log_ok s -> bounded h s -> m s = (s1, r) -> fresh_id i s1) ->
    (match i with inl _ => True | inr x => lo <= sig_of x end) -> (forall s, Pre s -> ses_ok f i ses s) ->
    block Pre lo h (run_function place f i ses m).
  Proof.
    intros Hm Hi Hl Hses s s' r HP Hlo Hok Hb. specialize (Hses s HP). unfold run_function. destruct (m s) as [s1 r1] eqn:E1. destruct (Hm _ _ _ HP Hlo Hok Hb E1) as (G1 & O1 & B1).
    destruct r1 as [e|]; [|intros [= <- <-]; done].
    assert (Hlo1 : lo <= next_sig s1) by (destruct G1 as (_ & _ & ? & _); lia).
    destruct (persist_ok e [OfFn f; CatchAll (today s1)] i s1 (proj1 G1) (B1 _ eq_refl) ltac:(repeat constructor; set_solver) (Hi _ _ _ HP Hlo Hok Hb E1) (fn_once _ _))
      as (s2 & Ep & Hok' & Ho & Hn & Hs & Ht & He & Hr & Hm' & Hm'' & (new & Hc & Hnew) & Hrec & Hoth).
    destruct (persist_exact e [OfFn f; CatchAll (today s1)] i s1 s2 None _ (proj1 G1) ltac:(repeat constructor; set_solver) (Hi _ _ _ HP Hlo Hok Hb E1) Ep) as [Hid Hcx]. rewrite Ep.
    assert (HR : forall s3, (s3, Some e) = match ses, needs_processing e s1 with Some (pl, n), true => (with_run_crash (pl, n, e) s2, Some e) | _, _ => (s2, Some e) end -> rep s1 s3).
    { intros s3 E3. assert (today s3 = today s2 /\ crashes s3 = crashes s2 /\ next_exn s3 = next_exn s2 /\ marked s3 = marked s2) as (T3 & C3 & N3 & M3).
      { destruct ses as [[]|], (needs_processing e s1); injection E3 as ->; done. }
      split; [lia|]. destruct (needs_processing e s1) eqn:En.
      - exists (report_of e (Some f) (chosen_id i s1) s1). eapply report_ok; rewrite ?C3, ?N3, ?M3, ?T3; try done; [by apply needs_iff|rewrite Hn; by apply B1| |].
        { destruct i as [t|[t n|t n k]]; try done. cbn. unfold ses_ok in Hses. destruct ses as [[? ?]|]; [|done]. by destruct Hses as (_ & -> & -> & _). }
        unfold report_of, written_run. unfold ses_ok in Hses. rewrite <- O1 in Hses. destruct i as [t|[t n|t n k]]; [|done|].
        + destruct ses; [done|]. injection E3 as ->. rewrite Hr. destruct (entered s1); cbn; by rewrite app_nil_r.
        + destruct ses as [[pl n']|]; [|done]. destruct Hses as (-> & -> & -> & p & Hp & ->). injection E3 as ->. cbn. rewrite Hr. f_equal.
          unfold entered. destruct (opened s1) as [|p' l]; [done|]. injection Hp as ->. done.
      - exists []. rewrite app_nil_r in Hcx. assert (s3 = s2) as -> by (destruct ses as [[]|]; congruence). apply reported_nil; congruence. }
    assert (G2 : forall s3, (s3, Some e) = match ses, needs_processing e s1 with Some (pl, n), true => (with_run_crash (pl, n, e) s2, Some e) | _, _ => (s2, Some e) end -> good lo s1 s3).
    { intros s3 E3. specialize (HR _ E3). assert (log_ok s3 /\ crashes s3 = crashes s2 /\ next_exn s3 = next_exn s2 /\ marked s3 = marked s2 /\ next_sig s3 = next_sig s2) as (L3 & C3 & N3 & M3 & S3).
      { destruct ses as [[]|], (needs_processing e s1); injection E3 as ->; done. }
      split; [done|]. split; [lia|]. split; [lia|]. split; [intros e' H; rewrite M3; apply Hm''; by left|]. split; [done|]. rewrite C3. exists new. split; [done|]. intros c Hx. destruct (Hnew c Hx) as (H1 & H2 & H3).
      split; [done|]. destruct i; [lia|by rewrite H3]. }
    intros E. assert (exists s3, (s3, Some e) = (s', r)) as [s3 E3] by (destruct ses as [[]|], (needs_processing e s1); eauto). rewrite <- E3 in E. injection E3 as <- <-. specialize (G2 s3 (eq_sym E)).
    split; [by eapply good_trans|]. split; [destruct ses as [[]|], (needs_processing e s1); injection E as <-; cbn; congruence|].
    intros e' [= <-]. specialize (B1 e eq_refl). destruct G2 as (_ & ? & _). lia.
  Qed.

  Definition anytime : lstate -> Prop := fun _ => True.
  Definition unused (n : nat) s : Prop := n < next_sig s /\ forall c, c ∈ crashes s -> sig_of (c_id c) <> n.
  Lemma unused_good n s s' : unused n s -> good (S n) s s' -> unused n s'.
  Proof.
    intros [H1 H2] (_ & _ & Hs & _ & _ & new & Hc & Hn). split; [lia|]. rewrite Hc. intros c Hx. apply elem_of_app in Hx as [Hx|Hx]; [auto|].
    destruct (Hn c Hx). lia.
  Qed.

  Lemma write_events_ok ps d x r : forall s s' o, log_ok s -> (forall n, x = Drawn n -> n < next_sig s) -> write_events place ps d x r s = (s', o) ->
    good (next_sig s) s s' /\ opened s' = opened s /\ crashes s' = crashes s /\ bounded o s'.
  Proof.
    induction ps as [|p ps IH]; intros s s' o Hok Hx; cbn [write_events].
    - intros [= <- <-]. split_and!; [by apply good_refl|done|done|done].
    - destruct (existsb _ _); cbn.
      + intros [= <- <-]. split_and!; [|done|done|intros e [= <-]; cbn; lia].
        destruct Hok as (K1 & K2 & K3 & K4 & K5). apply good_same; cbn; try done; try lia.
        split_and!; try done; cbn. intros e He. specialize (K3 e He). lia.
      + intros H. apply IH in H; [destruct H as (H1 & H2 & H3 & H4)| |done].
        * split; [exact H1|]. done.
        * destruct Hok as (K1 & K2 & K3 & K4 & K5). split_and!; try done; cbn. intros v n Hv Hn. apply elem_of_app in Hv as [Hv|Hv]; [by eapply K5|].
          apply elem_of_list_singleton in Hv as ->. cbn in Hn. auto.
  Qed.
  Lemma new_sig_ok s : log_ok s -> good (next_sig s) s (fst (new_sig s)).
  Proof.
    intros (K1 & K2 & K3 & K4 & K5). apply good_same; cbn; try done; try lia.
    split_and!; cbn; try done; [intros c Hc; specialize (K1 c Hc); lia|intros v n Hv Hn; specialize (K5 v n Hv Hn); lia].
  Qed.
  Lemma new_exn_ok s : log_ok s -> good (next_sig s) s (fst (new_exn s)).
  Proof.
    intros (K1 & K2 & K3 & K4 & K5). apply good_same; cbn; try done; try lia.
    split_and!; cbn; try done. intros e He. specialize (K3 e He). lia.
  Qed.

  Theorem exec_block : forall (pr : prog) lo h, block anytime lo h (exec place h pr).
  Proof.
    induction pr as [|p1 IH1 p2 IH2| | |b IHb k IHk|p b IHb|f b IHb|f p b IHb|f p g IHg b IHb k IHk|i args kw draws|]; intros lo h; cbn [exec].
    - intros s s' r _ Hlo Hok Hb [= <- <-]. split_and!; [by apply good_refl|done|done].
    - intros s s' r _ Hlo Hok Hb. destruct (exec place h p1 s) as [s1 r1] eqn:E1. destruct (IH1 lo h _ _ _ I Hlo Hok Hb E1) as (G1 & O1 & B1).
      destruct r1 as [e|]; [intros [= <- <-]; done|]. intros E2.
      destruct (IH2 lo h _ _ _ I (good_sig _ _ _ _ G1 Hlo) (proj1 G1) (bounded_mono _ _ _ Hb (proj1 (proj2 G1))) E2) as (G2 & O2 & B2).
      split_and!; [by eapply good_trans|congruence|done].
    - intros s s' r _ Hlo Hok Hb. cbn. intros [= <- <-]. split_and!; [eapply good_weaken; [exact Hlo|by apply new_exn_ok]|done|]. intros e [= <-]. cbn. lia.
    - intros s s' r _ Hlo Hok Hb. destruct h as [e|]; cbn; intros [= <- <-].
      + split_and!; [by apply good_refl|done|done].
      + split_and!; [eapply good_weaken; [exact Hlo|by apply new_exn_ok]|done|]. intros e [= <-]. cbn. lia.
    - intros s s' r _ Hlo Hok Hb. destruct (exec place h b s) as [s1 r1] eqn:E1. destruct (IHb lo h _ _ _ I Hlo Hok Hb E1) as (G1 & O1 & B1).
      destruct r1 as [e|]; [|intros [= <- <-]; done]. intros E2.
      destruct (IHk lo (Some e) _ _ _ I (good_sig _ _ _ _ G1 Hlo) (proj1 G1) B1 E2) as (G2 & O2 & B2).
      split_and!; [by eapply good_trans|congruence|done].
    - apply (run_with_block _ anytime); [done|apply IHb].
    - apply run_function_block; [apply IHb|done|done|done].
    - apply (run_with_block _ anytime); [done|]. apply run_function_block; [apply IHb|done|done|done].
    - apply (run_with_block _ anytime); [done|]. intros s s' r _ Hlo Hok Hb. cbn.
      set (s0 := fst (new_sig s)). assert (G0 : good lo s s0) by (eapply good_weaken; [exact Hlo|by apply new_sig_ok]).
      assert (U0 : unused (next_sig s) s0).
      { split; [cbn; lia|]. cbn. intros c Hc. pose proof (proj1 Hok c Hc). lia. }
      assert (Hblk : block (unused (next_sig s)) (next_sig s) h (run_with place h p (fun s3 =>
            match exec place h g s3 with
            | (s4, Some e) => (s4, Some e)
            | (s4, None) =>
                match run_with place h p (run_function place f (inr (InFrame f (next_sig s) 0)) (Some (place p, next_sig s)) (exec place h b)) s4 with
                | (s5, Some e) => (s5, Some e)
                | (s5, None) => exec place h k s5
                end
            end))).
      { apply (run_with_block _ (unused (next_sig s))); [by intros ? []|]. intros s3 s3' r3 HU Hlo3 Hok3 Hb3.
        destruct (exec place h g s3) as [s4 r4] eqn:E4.
        destruct (IHg (S (next_sig s)) h _ _ _ I (proj1 HU) Hok3 Hb3 E4) as (G4 & O4 & B4).
        pose proof (unused_good _ _ _ HU G4) as U4. apply (good_weaken _ (next_sig s)) in G4; [|lia].
        destruct r4 as [e|]; [intros [= <- <-]; done|].
        assert (Hb4 : bounded h s4) by (eapply bounded_mono; [exact Hb3|apply G4]).
        assert (Hinner : block (unused (next_sig s)) (next_sig s) h (run_with place h p (run_function place f (inr (InFrame f (next_sig s) 0)) (Some (place p, next_sig s)) (exec place h b)))).
        { apply (run_with_block _ (fun s9 => unused (next_sig s) s9 /\ head (opened s9) = Some p)); [by intros s9 []|].
          apply run_function_block; [intros ? ? ? _; by apply IHb| |cbn; lia|intros s9 [_ H9]; split_and!; try done; by exists p].
          intros s5 s6 r6 [HU5 _] Hlo5 Hok5 Hb5 E6. destruct (IHb (S (next_sig s)) h _ _ _ I (proj1 HU5) Hok5 Hb5 E6) as (G6 & _).
          pose proof (unused_good _ _ _ HU5 G6) as [U6 U6']. split; [|done]. intros c Hc. apply (U6' c Hc). }
        destruct (run_with place h p _ s4) as [s5 r5] eqn:E5.
        destruct (Hinner _ _ _ U4 (Nat.lt_le_incl _ _ (proj1 U4)) (proj1 G4) Hb4 E5) as (G5 & O5 & B5).
        destruct r5 as [e|]; [intros [= <- <-]; split_and!; [by eapply good_trans|congruence|done]|]. intros E6.
        destruct (IHk (next_sig s) h _ _ _ I (good_sig _ _ _ _ G5 (good_sig _ _ _ _ G4 (Nat.lt_le_incl _ _ (proj1 HU)))) (proj1 G5) (bounded_mono _ _ _ Hb4 (proj1 (proj2 G5))) E6) as (G6 & O6 & B6).
        split_and!; [eapply good_trans; [exact G4|]; by eapply good_trans|congruence|done]. }
      intros E. destruct (Hblk _ _ _ U0 ltac:(cbn; lia) (proj1 G0) ltac:(eapply bounded_mono; [exact Hb|cbn; lia]) E) as (G1 & O1 & B1).
      split_and!; [eapply good_trans; [exact G0|]; eapply good_weaken; [exact Hlo|done]|done|done].
    - intros s s' r _ Hlo Hok Hb. unfold log_event. destruct i as [x|]; cbn.
      + destruct (add_summary args kw draws) as [[rec dr]|].
        * intros E. apply write_events_ok in E as (G & O & C & B); [|done|intros n [=]]. split_and!; [by eapply good_weaken|done|done].
        * intros [= <- <-]. split_and!; [by apply good_refl|done|done].
      + destruct (add_summary args kw draws) as [[rec dr]|].
        * intros E. pose proof (new_sig_ok s Hok) as G0. apply write_events_ok in E as (G & O & C & B); [|exact (proj1 G0)|intros n [= <-]; cbn; lia].
          split_and!; [|done|done]. eapply good_trans; [eapply good_weaken; [exact Hlo|exact G0]|]. eapply good_weaken; [|exact G]. cbn. lia.
        * intros [= <- <-]. split_and!; [|done|done]. eapply good_weaken; [exact Hlo|]. by apply new_sig_ok.
    - intros s s' r _ Hlo Hok Hb [= <- <-]. split; [|done]. apply good_same; cbn; try done; lia.
  Qed.
End P.

(** ** Names *)
Lemma retry_name_spec desired existing draws n draws' : retry_name desired existing draws = Some (n, draws') ->
  n ∉ existing /\ exists d, d ∈ draws /\ n = (desired +:+ "_" +:+ pretty d)%string.
Proof.
  induction draws as [|d draws IH]; cbn [retry_name]; [done|]. case_bool_decide as H.
  - intros (H1 & d' & H2 & H3)%IH. split; [done|]. exists d'. split; [by right|done].
  - intros [= <- <-]. split; [done|]. exists d. split; [left|done].
Qed.
Lemma retry_name_found desired existing draws (d : N) : d ∈ draws -> (desired +:+ "_" +:+ pretty d)%string ∉ existing ->
  is_Some (retry_name desired existing draws).
Proof.
  intros Hd Hn. induction draws as [|d' draws IH]; [by apply elem_of_nil in Hd|]. cbn [retry_name]. case_bool_decide as H; [|eauto].
  apply elem_of_cons in Hd as [->|Hd]; [done|auto].
Qed.
Lemma dict_keys_get {V} k (d : dict string V) : k ∈ dict_keys d <-> is_Some (dict_get k d).
Proof. rewrite <- not_eq_None_Some, dict_get_None. destruct (decide (k ∈ dict_keys d)); naive_solver. Qed.
Lemma append_inj_l (a b c : string) : (a +:+ b)%string = (a +:+ c)%string -> b = c.
Proof. induction a as [|x a IH]; [done|]. intros H. apply IH. by injection H. Qed.
Lemma candidates_exceed desired existing (draws : list N) : NoDup draws -> length existing < length draws ->
  exists d, d ∈ draws /\ (desired +:+ "_" +:+ pretty d)%string ∉ existing.
Proof.
  intros Hn Hl. destruct (decide (Forall (fun d => (desired +:+ "_" +:+ pretty d)%string ∈ existing) draws)) as [Hf|Hf].
  - exfalso. assert (Hi : (fun d => desired +:+ "_" +:+ pretty d)%string <$> draws ⊆ existing).
    { intros x Hx. apply elem_of_list_fmap in Hx as (d & -> & Hd). by apply (proj1 (Forall_forall _ _) Hf). }
    assert (Hn' : NoDup ((fun d : N => desired +:+ "_" +:+ pretty d)%string <$> draws)).
    { apply NoDup_fmap_2_strong; [|done]. intros a b _ _ E. apply append_inj_l, append_inj_l in E. by apply (inj pretty) in E. }
    pose proof (NoDup_submseteq _ _ Hn' Hi) as Hsub. apply submseteq_length in Hsub. rewrite fmap_length in Hsub. lia.
  - apply not_Forall_Exists in Hf; [|intros; apply _]. apply Exists_exists in Hf as (d & Hd & Hx). by exists d.
Qed.
Lemma make_unique_name_found desired existing draws : NoDup draws -> length existing < length draws ->
  is_Some (make_unique_name desired existing draws).
Proof.
  intros Hn Hl. unfold make_unique_name. case_bool_decide; [|eauto]. destruct (candidates_exceed desired existing draws Hn Hl) as (d & Hd & Hx).
  by eapply retry_name_found.
Qed.
Definition derived (desired n : string) : Prop := n = desired \/ exists d : N, n = (desired +:+ "_" +:+ pretty d)%string.
Lemma make_unique_name_spec desired existing draws n draws' : make_unique_name desired existing draws = Some (n, draws') ->
  n ∉ existing /\ derived desired n /\ (desired ∉ existing -> n = desired).
Proof.
  unfold make_unique_name. case_bool_decide as H.
  - intros (H1 & d & _ & H2)%retry_name_spec. split_and!; [done|right; eauto|done].
  - intros [= <- <-]. split_and!; [done|by left|done].
Qed.

Lemma dict_get_fmap {V W} (f : V -> W) (d : dict string V) k :
  dict_get k (map (fun '(k, v) => (k, f v)) d) = match dict_get k d with Some v => Some (f v) | None => None end.
Proof. induction d as [|[k' v] d IH]; [done|]. cbn. by case_decide. Qed.
Lemma dict_keys_fmap {V W} (f : V -> W) (d : dict string V) : dict_keys (map (fun '(k, v) => (k, f v)) d) = dict_keys d.
Proof. unfold dict_keys. rewrite map_map. apply map_ext. by intros []. Qed.
Lemma add_summary_spec {V} (args : list V) kwargs draws r draws' : add_summary args kwargs draws = Some (r, draws') ->
  exists n1 n2, n1 ∉ dict_keys kwargs /\ n2 ∉ dict_keys kwargs /\ n1 <> n2 /\
    derived "execution_environment_summary" n1 /\ derived "message_list" n2 /\
    forall k, dict_get k r = if decide (k = n1) then Some Summary
                             else if decide (k = n2 /\ args <> []) then Some (Messages args)
                             else match dict_get k kwargs with Some v => Some (User v) | None => None end.
Proof.
  unfold add_summary. destruct (make_unique_name "execution_environment_summary" _ draws) as [[n1 d1]|] eqn:E1; [|done].
  apply make_unique_name_spec in E1 as (H1 & D1 & _). rewrite dict_keys_fmap in H1.
  destruct args as [|a args].
  - intros [= <- <-]. 
    assert (exists n2, n2 ∉ dict_keys kwargs /\ n1 <> n2 /\ derived "message_list" n2) as (n2 & A & B & C).
    { destruct (candidates_exceed "message_list" (n1 :: dict_keys kwargs) (map N.of_nat (seq 0 (S (S (length (dict_keys kwargs))))))) as (d & _ & Hd).
      - apply NoDup_fmap_2; [apply _|apply NoDup_seq].
      - rewrite map_length, seq_length. cbn. lia.
      - exists (("message_list" +:+ "_" +:+ pretty d)%string). split_and!; [|intros ->; apply Hd; left|right; eauto]. intros Hin. apply Hd. by right. }
    exists n1, n2. split_and!; try done. intros k. rewrite dict_get_set. case_decide as Hk.
    + by destruct (decide (k = n1)).
    + destruct (decide (k = n1)); [done|]. destruct (decide _) as [[_ ?]|]; [done|]. apply dict_get_fmap.
  - destruct (make_unique_name "message_list" _ d1) as [[n2 d2]|] eqn:E2; [|done].
    apply make_unique_name_spec in E2 as (H2 & D2 & _). intros [= <- <-].
    assert (Hin : forall x, x ∈ dict_keys kwargs \/ x = n1 -> x ∈ dict_keys (dict_set n1 Summary (map (fun '(k, v) => (k, User v)) kwargs))).
    { intros x Hx. apply dict_keys_get. rewrite dict_get_set. case_decide; [eauto|]. destruct Hx as [Hx| ->]; [|done].
      rewrite dict_get_fmap. apply dict_keys_get in Hx as [v ->]. eauto. }
    exists n1, n2. split_and!; try done; [intros H; apply H2, Hin; by left|intros ->; apply H2, Hin; by right|].
    intros k. rewrite dict_get_set. destruct (decide (k = n1)) as [->|Hk].
    + case_decide as H; [exfalso; apply H2; subst; apply Hin; by right|]. rewrite dict_get_set. by rewrite decide_True by done.
    + case_decide as H.
      * rewrite decide_True by done. done.
      * rewrite dict_get_set. rewrite decide_False by done. rewrite decide_False by (by intros [? _]). apply dict_get_fmap.
Qed.

Section Q.
  Context {V : Type} (place : nat -> nat).
  Notation lstate := (lstate (V := V)).
  Notation prog := (prog (V := V)).
  Implicit Types (s : lstate) (e q p : nat).
  Notation records := (records (V := V) place).
  Notation log_ok := (log_ok (V := V) place).

  Lemma quiet : forall (pr : prog) s s', no_try pr -> exec place None pr s = (s', None) -> crashes s' = crashes s /\ run_crashes s' = run_crashes s.
  Proof.
    assert (Hw : forall p (m : lstate -> lstate * option nat) s s', (forall s1 s2, m s1 = (s2, None) -> crashes s2 = crashes s1 /\ run_crashes s2 = run_crashes s1) ->
       run_with place None p m s = (s', None) -> crashes s' = crashes s /\ run_crashes s' = run_crashes s).
    { intros p m s s' Hm. unfold run_with. destruct (m (with_opened (p :: opened s) s)) as [s1 [e|]] eqn:E1.
      - destruct (exit_with place (Some e) s1) as [s2 [e'|]]; done.
      - apply Hm in E1. cbn in *. by intros [= <-]. }
    assert (Hf : forall f i ses (m : lstate -> lstate * option nat) s s', (forall s1 s2, m s1 = (s2, None) -> crashes s2 = crashes s1 /\ run_crashes s2 = run_crashes s1) ->
       run_function place f i ses m s = (s', None) -> crashes s' = crashes s /\ run_crashes s' = run_crashes s).
    { intros f i ses m s s' Hm. unfold run_function. destruct (m s) as [s1 [e|]] eqn:E1.
      - destruct (persist place e _ i s1) as [[s2 [e'|]] d]; [done|]. destruct ses as [[]|], d; done.
      - intros [= <-]. by apply Hm. }
    assert (He : forall ps d x r s s' o, write_events place ps d x r s = (s', o) -> crashes s' = crashes s /\ run_crashes s' = run_crashes s).
    { induction ps as [|p ps IH]; intros d x r s s' o; cbn [write_events]; [by intros [= <- <-]|]. destruct (existsb _ _); [by intros [= <- <-]|].
      intros H%IH. done. }
    induction pr as [|p1 IH1 p2 IH2| | |b IHb k IHk|p b IHb|f b IHb|f p b IHb|f p g IHg b IHb k IHk|i args kw draws|]; intros s s'; cbn [exec no_try]; intros Hn.
    - by intros [= <-].
    - destruct (exec place None p1 s) as [s1 [e|]] eqn:E1; [done|]. intros E2. destruct Hn as [Hn1 Hn2]. destruct (IH1 _ _ Hn1 E1) as [A B], (IH2 _ _ Hn2 E2) as [C D]. by rewrite C, D, A, B.
    - done.
    - done.
    - done.
    - intros H. eapply Hw; [|exact H]. intros; by apply IHb.
    - intros H. eapply Hf; [|exact H]. intros; by apply IHb.
    - intros H. eapply Hw; [|exact H]. intros s1 s2 H1. eapply Hf; [|exact H1]. intros; by apply IHb.
    - destruct Hn as (Hg & Hb & Hk). intros H. eapply Hw; [|exact H]. clear s s' H. intros s s' H. cbn in H.
      apply Hw in H; [done|]. clear H. intros s1 s2 H.
      destruct (exec place None g s1) as [s5 [e|]] eqn:E5; [done|]. destruct (IHg _ _ Hg E5) as [A B].
      destruct (run_with place None p _ s5) as [s6 [e|]] eqn:E6; [done|].
      apply Hw in E6 as [C D]; [|intros s7 s8 H7; eapply Hf; [|exact H7]; intros; by apply IHb].
      destruct (IHk _ _ Hk H) as [E F]. by rewrite E, F, C, D, A, B.
    - unfold log_event. destruct i as [x|]; cbn; (destruct (add_summary args kw draws) as [[r d]|]; [intros H%He; done|by intros [= <-]]).
    - by intros [= <-].
  Qed.

  (** ** Events *)
  Definition evs (es : list (evt (V := V))) (q day : nat) (i : evid) : list (event_rec V) :=
    map e_rec (List.filter (fun v => (e_place v =? place q) && (e_day v =? day) && bool_decide (e_id v = i)) es).
  Lemma evs_none es q day i : evs es q day i = [] <-> forall v, v ∈ es -> ~ (e_place v = place q /\ e_day v = day /\ e_id v = i).
  Proof.
    unfold evs. induction es as [|v es IH]; [split; [intros _ v Hv; by apply elem_of_nil in Hv|done]|]. cbn.
    destruct (e_place v =? place q) eqn:E1, (e_day v =? day) eqn:E2; cbn.
    1: case_bool_decide as E3; cbn.
    - apply Nat.eqb_eq in E1, E2. split; [done|]. intros H. exfalso. apply (H v); [left|done].
    - rewrite IH. split; intros H w Hw; [apply elem_of_cons in Hw as [->|Hw]; [by intros (_ & _ & ?)|auto]|apply H; by right].
    - apply Nat.eqb_neq in E2. rewrite IH. split; intros H w Hw; [apply elem_of_cons in Hw as [->|Hw]; [by intros (_ & ? & _)|auto]|apply H; by right].
    - apply Nat.eqb_neq in E1. rewrite IH. split; intros H w Hw; [apply elem_of_cons in Hw as [->|Hw]; [by intros (? & _ & _)|auto]|apply H; by right].
    - apply Nat.eqb_neq in E1. rewrite IH. split; intros H w Hw; [apply elem_of_cons in Hw as [->|Hw]; [by intros (? & _ & _)|auto]|apply H; by right].
  Qed.
  Lemma write_events_exact ps d x r : separate place -> forall s, NoDup ps -> (forall p, p ∈ ps -> evs (events s) p d x = []) ->
    exists s', write_events place ps d x r s = (s', None) /\ events s' = events s ++ map (fun p => Evt (place p) d x r) ps /\
      crashes s' = crashes s /\ opened s' = opened s.
  Proof.
    intros Hsep. induction ps as [|p ps IH]; intros s Hn Hf; cbn [write_events map].
    - exists s. by rewrite app_nil_r.
    - destruct (existsb _ _) eqn:Ex.
      + exfalso. apply existsb_exists in Ex as (v & Hv & Hb). apply bool_decide_eq_true in Hb.
        apply (proj1 (evs_none (events s) p d x) (Hf p ltac:(left)) v); [by apply elem_of_list_In|done].
      + apply NoDup_cons in Hn as [Hp Hn]. destruct (IH (with_event (Evt (place p) d x r) s) Hn) as (s' & E & Ev & Ec & Eo).
        * intros q Hq. apply evs_none. cbn. intros v Hv. apply elem_of_app in Hv as [Hv|Hv].
          -- apply (proj1 (evs_none (events s) q d x) (Hf q ltac:(by right)) v Hv).
          -- apply elem_of_list_singleton in Hv as ->. cbn. intros (E & _). apply Hsep in E as ->. done.
        * exists s'. rewrite E, Ev. cbn. rewrite <- app_assoc. done.
  Qed.
  Lemma evs_new ps d x r q d' x' : separate place -> NoDup ps ->
    evs (map (fun p => Evt (place p) d x r) ps) q d' x' = if decide (q ∈ ps /\ d' = d /\ x' = x) then [r] else [].
  Proof.
    intros Hsep Hn. induction Hn as [|p ps Hp Hn IH].
    - cbn. destruct (decide _) as [[H _]|]; [by apply elem_of_nil in H|done].
    - unfold evs in *. cbn. destruct (place p =? place q) eqn:E1, (d =? d') eqn:E2; cbn [andb].
      1: case_bool_decide as E3; cbn.
      + apply Nat.eqb_eq in E1, E2. apply Hsep in E1 as ->. subst. rewrite IH. rewrite decide_False by (by intros [? _]). by rewrite decide_True by (split; [left|done]).
      + rewrite IH. destruct (decide _) as [(? & ? & ?)|H1]; [by subst|]. destruct (decide _) as [(? & ? & ?)|]; [by subst|done].
      + apply Nat.eqb_neq in E2. rewrite IH. destruct (decide _) as [(? & ? & ?)|H1]; [by subst|]. destruct (decide _) as [(? & ? & ?)|]; [by subst|done].
      + apply Nat.eqb_neq in E1. rewrite IH. destruct (decide _) as [(? & ? & ?)|H1].
        * rewrite decide_True by (split; [by right|done]). done.
        * destruct (decide _) as [(H2 & ? & ?)|]; [|done]. exfalso. apply elem_of_cons in H2 as [->|H2]; [done|]. by apply H1.
      + apply Nat.eqb_neq in E1. rewrite IH. destruct (decide _) as [(? & ? & ?)|H1].
        * rewrite decide_True by (split; [by right|done]). done.
        * destruct (decide _) as [(H2 & ? & ?)|]; [|done]. exfalso. apply elem_of_cons in H2 as [->|H2]; [done|]. by apply H1.
  Qed.
  Lemma evs_app a b q d i : evs (a ++ b) q d i = evs a q d i ++ evs b q d i.
  Proof. unfold evs. by rewrite List.filter_app, map_app. Qed.
End Q.
