(** Proofs for C131. *)
From Verif.Lib Require Import Py.
From Verif.Model Require Import Records.
From Verif.Spec Require Import RecordsSpec.
From Verif.Proofs Require Import RecordsP.
From Coq Require Import Ascii.
From stdpp Require Import sets.

Global Instance part_of_dec a b : Decision (part_of a b).
Proof. destruct (occurs_in a b) eqn:E; [left|right; intros H]; [by apply occurs_in_iff|]. apply occurs_in_iff in H. congruence. Defined.

Lemma find_first_none_iff {V} sid (d : list (text * V)) :
  find_first sid d = None <-> forall k v, (k, v) ∈ d -> ~ part_of sid k.
Proof.
  split.
  - intros H k v Hin Hp. unfold find_first in H. destruct (List.find _ d) as [?|] eqn:E; [done|].
    apply elem_of_list_In in Hin. apply (List.find_none _ _ E) in Hin. apply occurs_in_iff in Hp. congruence.
  - intros H. apply find_first_none. intros k v Hin. destruct (occurs_in sid k) eqn:E; [|done]. apply occurs_in_iff in E. by apply H in Hin.
Qed.
Lemma find_first_some {V} sid (d : list (text * V)) v : find_first sid d = Some v -> exists k, (k, v) ∈ d /\ part_of sid k.
Proof.
  unfold find_first. destruct (List.find _ d) as [[k w]|] eqn:E; [|done]. intros [= ->]. apply List.find_some in E as [H1 H2].
  exists k. split; [by apply elem_of_list_In|by apply occurs_in_iff].
Qed.
Lemma find_first_head {V} sid k v (d : list (text * V)) : part_of sid k -> find_first sid ((k, v) :: d) = Some v.
Proof. intros H. unfold find_first. cbn. apply occurs_in_iff in H. by rewrite H. Qed.
Lemma find_first_possible {V} sid (l : list (text * V)) v :
  (exists d, d ≡ₚ l /\ find_first sid d = Some v) <-> exists k, (k, v) ∈ l /\ part_of sid k.
Proof.
  split.
  - intros (d & Hd & H). apply find_first_some in H as (k & Hk & Hp). exists k. by rewrite <- Hd.
  - intros (k & Hk & Hp). apply elem_of_list_split in Hk as (l1 & l2 & ->). exists ((k, v) :: l1 ++ l2). split; [by rewrite Permutation_middle|].
    by apply find_first_head.
Qed.

Lemma filter_perm {B} (p : B -> bool) l l' : l ≡ₚ l' -> List.filter p l ≡ₚ List.filter p l'.
Proof.
  induction 1 as [|x l l' _ IH|x y l|l1 l2 l3 _ IH1 _ IH2]; cbn; [done| | |by etrans].
  - destruct (p x); [by constructor|done].
  - destruct (p x), (p y); try done. constructor.
Qed.

Section P.
  Context {Ctx Crash Val : Type}.
  Notation run_log := (run_log Ctx Crash Val).
  Variable dec : nat -> text.
  Implicit Types (r : run_log) (rs : list run_log).
  Lemma not_in_r sid suf : session_like sid -> "r"%char ∉ suf -> ~ part_of sid suf.
  Proof. intros Hs Hn (x & y & ->). apply Hn. pose proof (session_r _ Hs). set_solver. Qed.
  Lemma part_suffix sid a suf : session_like sid -> "r"%char ∉ suf -> part_of sid (a ++ us :: suf) <-> part_of sid a.
  Proof.
    intros Hs Hn. split.
    - intros H. apply part_split in H as [H|H]; [done| |by apply session_no_us]. exfalso. by eapply not_in_r.
    - intros (x & y & ->). exists x, (y ++ us :: suf). by rewrite <- !app_assoc.
  Qed.
  Lemma r_not_in (s : string) : forallb (fun c => bool_decide (c <> "r"%char)) (lit s) = true -> "r"%char ∉ lit s.
  Proof. intros H Hin. rewrite forallb_forall in H. apply elem_of_list_In, H, bool_decide_eq_true_1 in Hin. done. Qed.

  Lemma attempt_parts rs sid v : session_like sid ->
    (exists k, (k, v) ∈ map attempt_entry rs /\ part_of sid k) <-> exists r, r ∈ rs /\ part_of sid (session_id r) /\ context r = v.
  Proof.
    intros Hs. split.
    - intros (k & Hk & Hp). apply elem_of_list_fmap in Hk as (r & [= -> ->] & Hr). exists r. split; [done|]. split; [|done].
      apply (proj1 (part_suffix sid (session_id r) (lit "a") Hs (r_not_in "a" eq_refl))). exact Hp.
    - intros (r & Hr & Hp & <-). exists (session_id r ++ lit "_a"). split; [apply elem_of_list_fmap; by exists r|].
      apply (proj2 (part_suffix sid (session_id r) (lit "a") Hs (r_not_in "a" eq_refl))). exact Hp.
  Qed.
  Lemma output_parts rs sid v : session_like sid ->
    (exists k, (k, v) ∈ flat_map output_entries rs /\ part_of sid k) <-> exists r, r ∈ rs /\ part_of sid (session_id r) /\ output r = Some v.
  Proof.
    intros Hs. split.
    - intros (k & Hk & Hp). apply (elem_flat (Ctx:=Ctx)) in Hk as (r & Hr & Hk). unfold output_entries in Hk. destruct (output r) as [o|] eqn:Eo; [|set_solver].
      apply elem_of_list_singleton in Hk as [= -> ->]. exists r. split; [done|]. split; [|done].
      apply (proj1 (part_suffix sid (session_id r) (lit "output") Hs (r_not_in "output" eq_refl))). exact Hp.
    - intros (r & Hr & Hp & Ho). exists (session_id r ++ lit "_output"). split.
      + apply elem_flat. exists r. split; [done|]. unfold output_entries. rewrite Ho. set_solver.
      + apply (proj2 (part_suffix sid (session_id r) (lit "output") Hs (r_not_in "output" eq_refl))). exact Hp.
  Qed.
  Lemma result_parts rs sid v :
    (exists k, (k, v) ∈ flat_map result_entries rs /\ part_of sid k) <-> exists r, r ∈ rs /\ part_of sid (session_id r) /\ result r = Some v.
  Proof.
    split.
    - intros (k & Hk & Hp). apply elem_flat in Hk as (r & Hr & Hk). unfold result_entries in Hk. destruct (result r) as [o|] eqn:Eo; [|set_solver].
      apply elem_of_list_singleton in Hk as [= -> ->]. by exists r.
    - intros (r & Hr & Hp & Ho). exists (session_id r). split; [|done]. apply elem_flat. exists r. split; [done|]. unfold result_entries. rewrite Ho. set_solver.
  Qed.

  Lemma crashes_exact rs h sid : (forall n, "r"%char ∉ dec n) -> session_like sid -> holds dec rs h ->
    record_crashes h sid ≡ₚ flat_map (fun r => map c_data (filter (fun c => part_of sid (session_id r) \/ part_of sid (c_name c)) (crashes r))) rs.
  Proof.
    intros Hdec Hs (_ & _ & _ & Ha). unfold record_crashes, find_all. rewrite (filter_perm _ _ _ Ha). assert (R : forall (x y : list Crash), x = y -> x ≡ₚ y) by (by intros ? ? ->). apply R. clear R. clear h Ha.
    induction rs as [|r rs IH]; [done|]. cbn [flat_map]. rewrite List.filter_app, map_app, IH. f_equal. clear IH.
    unfold crash_entries. assert (G : forall (l : list (crash Crash)) (f : nat -> nat), map snd (List.filter (fun '(k, _) => occurs_in sid k)
        (imap (fun i c => (c_name c ++ lit "_" ++ session_id r ++ lit "_" ++ dec (f i), c_data c)) l)) =
        map c_data (filter (fun c => part_of sid (session_id r) \/ part_of sid (c_name c)) l)).
    { induction l as [|c l IH]; intros f; [done|]. rewrite imap_cons. cbn [List.filter].
      assert (part_of sid (c_name c ++ lit "_" ++ session_id r ++ lit "_" ++ dec (f 0)) <-> part_of sid (session_id r) \/ part_of sid (c_name c)) as E.
      { cbn [lit list_ascii_of_string app]. split.
        - intros H. apply part_split in H as [H|H]; [by right| |by apply session_no_us]. left. by apply (proj1 (part_suffix sid (session_id r) (dec (f 0)) Hs (Hdec _))).
        - intros [(x & y & E)|(x & y & E)]; rewrite E.
          + exists (c_name c ++ us :: x), (y ++ us :: dec (f 0)). rewrite <- !app_assoc. cbn. by rewrite <- ?app_assoc.
          + exists x, (y ++ us :: session_id r ++ us :: dec (f 0)). by rewrite <- !app_assoc. }
      rewrite filter_cons. destruct (occurs_in sid _) eqn:Eo.
      - apply occurs_in_iff in Eo. rewrite decide_True by (by apply E). cbn [map snd]. f_equal. apply (IH (fun i => f (S i))).
      - rewrite decide_False; [apply (IH (fun i => f (S i)))|]. intros H. apply E, occurs_in_iff in H. congruence. }
    apply (G (crashes r) (fun i => i)).
  Qed.
End P.
