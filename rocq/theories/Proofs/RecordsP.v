From Verif.Lib Require Import Py.
From Verif.Model Require Import Records.
From Verif.Spec Require Import RecordsSpec.
From Coq Require Import Ascii.
From stdpp Require Import sets.

Lemma starts_with_iff a : forall b, starts_with a b = true <-> exists y, b = a ++ y.
Proof.
  induction a as [|x a IH]; intros b; cbn; [split; eauto|].
  destruct b as [|y b]; [split; [done|intros [? ?]; done]|].
  case_decide as E.
  - subst. rewrite IH. split; intros [z ?]; exists z; [by subst|congruence].
  - split; [done|]. intros [z ?]. congruence.
Qed.
Lemma occurs_in_iff a : forall b, occurs_in a b = true <-> part_of a b.
Proof.
  unfold part_of. induction b as [|c b IH]; cbn; rewrite orb_true_iff, starts_with_iff.
  - split.
    + intros [[y Hy]|?]; [|done]. by exists [], y.
    + intros (x & y & Hxy). left. destruct x; [by exists y|done].
  - rewrite IH. split.
    + intros [[y Hy]|(x & y & Hy)]; [by exists [], y|]. exists (c :: x), y. cbn. by rewrite Hy.
    + intros (x & y & Hxy). destruct x as [|c' x]; [left; by exists y|]. right. exists x, y. by inversion Hxy.
Qed.

Definition us : ascii := "_"%char.

(** a part without '_' of a text with '_' lies on one side *)
Lemma part_split a u v : us ∉ a -> part_of a (u ++ us :: v) -> part_of a u \/ part_of a v.
Proof.
  intros Ha (x & y & E). revert u E. induction x as [|c x IH]; intros u E.
  - cbn in E. revert u E. clear -Ha. intros u E.
    assert (Hg : forall a u, us ∉ a -> u ++ us :: v = a ++ y -> exists z, u = a ++ z).
    { clear. induction a as [|c a IH]; intros u Ha E; [by exists u|]. destruct u as [|d u]; cbn in E.
      - inversion E; subst. exfalso. apply Ha. set_solver.
      - inversion E; subst. destruct (IH u) as [z ->]; [set_solver|done|]. by exists z. }
    destruct (Hg a u Ha E) as [z ->]. left. by exists [], z.
  - destruct u as [|d u]; cbn in E; inversion E; subst.
    + right. by exists x, y.
    + destruct (IH u) as [(x' & y' & ->)|?]; [done| |by right]. left. by exists (c :: x'), y'.
Qed.
Lemma part_len a b : part_of a b -> length a <= length b.
Proof. intros (x & y & ->). rewrite !app_length. lia. Qed.
Lemma part_eq a b : part_of a b -> length a = length b -> a = b.
Proof.
  intros (x & y & ->). rewrite !app_length. intros. destruct x, y; cbn in *; try lia. by rewrite app_nil_r.
Qed.
Lemma part_refl a : part_of a a. Proof. exists [], []. by rewrite app_nil_r. Qed.

Lemma session_no_us sid : session_like sid -> us ∉ sid.
Proof.
  intros (sig & -> & Hs). rewrite elem_of_app. intros [H|H]; [vm_compute in H|].
  - by repeat (inversion H as [|? ? ? H']; subst; clear H; rename H' into H).
  - rewrite Forall_forall in Hs. by apply (Hs us).
Qed.
Lemma session_r sid : session_like sid -> "r"%char ∈ sid.
Proof. intros (sig & -> & _). set_solver. Qed.

Section P.
  Context {Ctx Crash Val : Type}.
  Notation run_log := (run_log Ctx Crash Val).
  Variable dec : nat -> text.
  Implicit Types (r : run_log) (rs : list run_log).

  (** ids of distinct runs are not parts of each other (true in particular for ids of equal length) *)
  Definition separated rs : Prop := NoDup (map session_id rs) /\
    (forall r r', r ∈ rs -> r' ∈ rs -> part_of (session_id r) (session_id r') -> session_id r = session_id r').

  Lemma find_first_perm {V} sid (d : list (text * V)) k v :
    (k, v) ∈ d -> occurs_in sid k = true ->
    (forall k' v', (k', v') ∈ d -> occurs_in sid k' = true -> v' = v) -> find_first sid d = Some v.
  Proof.
    intros Hin Ho Hu. unfold find_first. destruct (List.find _ d) as [[k' v']|] eqn:E; cbn.
    - apply List.find_some in E as [Hi Hk]. f_equal. apply (Hu k' v'); [by apply elem_of_list_In|done].
    - exfalso. apply elem_of_list_In in Hin. apply (List.find_none _ _ E) in Hin. congruence.
  Qed.
  Lemma find_first_none {V} sid (d : list (text * V)) :
    (forall k v, (k, v) ∈ d -> occurs_in sid k = false) -> find_first sid d = None.
  Proof.
    intros Hn. unfold find_first. destruct (List.find _ d) as [[k v]|] eqn:E; [|done].
    apply List.find_some in E as [Hi Hk]. apply elem_of_list_In in Hi. rewrite (Hn k v Hi) in Hk. done.
  Qed.

  Lemma nodup_same rs r r' : NoDup (map session_id rs) -> r ∈ rs -> r' ∈ rs -> session_id r = session_id r' -> r = r'.
  Proof.
    induction rs as [|q rs IH]; [set_solver|]. cbn [map]. intros Hn. inversion Hn as [|? ? Hq Hrs]; subst.
    rewrite !elem_of_cons. intros [->|Hr] [->|Hr'] E; [done| | |by apply IH].
    - exfalso. apply Hq. rewrite E. apply elem_of_list_fmap. eauto.
    - exfalso. apply Hq. rewrite <- E. apply elem_of_list_fmap. eauto.
  Qed.

  Section Fix.
    Variable rs : list run_log.
    Hypothesis sep : separated rs.
    Hypothesis sess : forall r, r ∈ rs -> session_like (session_id r).
    Variable r : run_log.
    Hypothesis Hr : r ∈ rs.

    Lemma own_suffix r' suf : r' ∈ rs -> ~ part_of (session_id r) suf ->
      occurs_in (session_id r) (session_id r' ++ us :: suf) = true -> r' = r.
    Proof.
      intros Hr' Hsuf Ho. apply occurs_in_iff, part_split in Ho; [|by apply session_no_us, sess].
      destruct Ho as [Ho|Ho]; [|done]. symmetry. destruct sep as [Hn Hs]. apply (nodup_same rs); auto.
    Qed.
    Lemma not_in_short suf : "r"%char ∉ suf -> ~ part_of (session_id r) suf.
    Proof. intros Hn (x & y & ->). apply Hn. pose proof (session_r _ (sess r Hr)). set_solver. Qed.
    Lemma occurs_prefix suf : occurs_in (session_id r) (session_id r ++ suf) = true.
    Proof. apply occurs_in_iff. by exists [], suf. Qed.

    Lemma record_context_own h : holds dec rs h -> record_context h (session_id r) = Some (context r).
    Proof.
      intros (Ha & _). apply (find_first_perm _ _ (session_id r ++ lit "_a")).
      - rewrite Ha. apply elem_of_list_fmap. by exists r.
      - apply occurs_prefix.
      - intros k v. rewrite Ha. intros (r' & [= -> ->] & Hr')%elem_of_list_fmap Ho. f_equal.
        apply (own_suffix r' (lit "a")) in Ho; [done|done|]. apply not_in_short. vm_compute. clear.
        intros H. inversion H as [|? ? ? H']; subst. inversion H'.
    Qed.
    Lemma elem_flat {B} (f : run_log -> list B) x : x ∈ flat_map f rs <-> exists r', r' ∈ rs /\ x ∈ f r'.
    Proof.
      rewrite elem_of_list_In, in_flat_map. split; intros (r' & H1 & H2); exists r'; [|apply elem_of_list_In in H1]; split; try done;
      by apply elem_of_list_In.
    Qed.
    Lemma record_output_own h : holds dec rs h -> record_output h (session_id r) = output r.
    Proof.
      intros (_ & Ha & _). assert (Hout : "r"%char ∉ lit "output").
      { vm_compute. clear. intros H. by repeat (inversion H as [|? ? ? H']; subst; clear H; rename H' into H). }
      destruct (output r) as [o|] eqn:Eo.
      - apply (find_first_perm _ _ (session_id r ++ lit "_output")).
        + rewrite Ha. apply elem_flat. exists r. split; [done|]. unfold output_entries. rewrite Eo. set_solver.
        + apply occurs_prefix.
        + intros k v. rewrite Ha, elem_flat. intros (r' & Hr' & Hk) Ho. unfold output_entries in Hk.
          destruct (output r') as [o'|] eqn:Eo'; [|set_solver]. apply elem_of_list_singleton in Hk as [= -> ->].
          apply (own_suffix r' (lit "output")) in Ho; [congruence|done|by apply not_in_short].
      - apply find_first_none. intros k v. rewrite Ha, elem_flat. intros (r' & Hr' & Hk). unfold output_entries in Hk.
        destruct (output r') as [o'|] eqn:Eo'; [|set_solver]. apply elem_of_list_singleton in Hk as [= -> ->].
        destruct (occurs_in _ _) eqn:Ho; [|done].
        apply (own_suffix r' (lit "output")) in Ho; [congruence|done|by apply not_in_short].
    Qed.
    Lemma record_result_own h : holds dec rs h ->
      record_result h (session_id r) = match result r with Some v => Ok v | None => Err AssertionError end.
    Proof.
      intros (_ & _ & Ha & _). unfold record_result. destruct sep as [Hn Hs].
      assert (Hown : forall r', r' ∈ rs -> occurs_in (session_id r) (session_id r') = true -> r' = r).
      { intros r' Hr' Ho. apply occurs_in_iff in Ho. symmetry. apply (nodup_same rs); auto. }
      destruct (result r) as [v|] eqn:Ev.
      - rewrite (find_first_perm _ _ (session_id r) v); [done|..].
        + rewrite Ha. apply elem_flat. exists r. split; [done|]. unfold result_entries. rewrite Ev. set_solver.
        + apply occurs_in_iff, part_refl.
        + intros k w. rewrite Ha, elem_flat. intros (r' & Hr' & Hk) Ho. unfold result_entries in Hk.
          destruct (result r') as [w'|] eqn:Ew; [|set_solver]. apply elem_of_list_singleton in Hk as [= -> ->].
          apply Hown in Ho; [congruence|done].
      - rewrite find_first_none; [done|]. intros k w. rewrite Ha, elem_flat. intros (r' & Hr' & Hk). unfold result_entries in Hk.
        destruct (result r') as [w'|] eqn:Ew; [|set_solver]. apply elem_of_list_singleton in Hk as [= -> ->].
        destruct (occurs_in _ _) eqn:Ho; [|done]. apply Hown in Ho; [congruence|done].
    Qed.

    Hypothesis dec_ok : forall n, "r"%char ∉ dec n.
    (** no session id occurs in the exception and function names of the recorded crashes *)
    Hypothesis names_ok : forall r' c, r' ∈ rs -> c ∈ crashes r' -> ~ part_of (session_id r) (c_name c).

    Lemma filter_flat : forall (l : list run_log) (p : text * Crash -> bool), r ∈ l -> NoDup (map session_id l) ->
      (forall r' x, r' ∈ l -> x ∈ crash_entries dec r' -> p x = true <-> r' = r) ->
      List.filter p (flat_map (crash_entries dec) l) = crash_entries dec r.
    Proof.
      assert (Hall : forall (q : run_log) (p : text * Crash -> bool), (forall x, x ∈ crash_entries dec q -> p x = true) -> List.filter p (crash_entries dec q) = crash_entries dec q).
      { intros q p. generalize (crash_entries dec q) as l. induction l as [|x l IH]; cbn; [done|]. intros Hx. rewrite Hx by set_solver. f_equal. apply IH. set_solver. }
      assert (Hnone : forall (q : run_log) (p : text * Crash -> bool), (forall x, x ∈ crash_entries dec q -> p x = false) -> List.filter p (crash_entries dec q) = []).
      { intros q p. generalize (crash_entries dec q) as l. induction l as [|x l IH]; cbn; [done|]. intros Hx. rewrite Hx by set_solver. apply IH. set_solver. }
      induction l as [|q l IH]; intros p Hin Hn Hp; [set_solver|]. cbn [flat_map]. rewrite List.filter_app.
      cbn [map] in Hn. inversion Hn as [|? ? Hq Hl]; subst. apply elem_of_cons in Hin as [<-|Hin].
      - rewrite Hall by (intros x Hx; apply (Hp r x); [set_solver|done|done]).
        assert (List.filter p (flat_map (crash_entries dec) l) = []) as ->; [|by rewrite app_nil_r].
        clear IH Hl Hn. assert (Hne : forall r', r' ∈ l -> r' <> r).
        { intros r' Hr' ->. apply Hq. apply elem_of_list_fmap. eauto. }
        induction l as [|q l IH]; [done|]. cbn [flat_map]. rewrite List.filter_app, IH.
        + rewrite app_nil_r. apply Hnone. intros x Hx. destruct (p x) eqn:E; [|done]. apply (Hp q x) in E; [|set_solver|done]. exfalso. apply (Hne q); [set_solver|done].
        + set_solver.
        + intros r' x Hr'. apply Hp. set_solver.
        + intros r' Hr'. apply Hne. set_solver.
      - rewrite IH by (try done; intros r' x Hr'; apply Hp; set_solver). rewrite Hnone; [done|].
        intros x Hx. destruct (p x) eqn:E; [|done]. apply (Hp q x) in E; [|set_solver|done]. subst. exfalso. apply Hq. apply elem_of_list_fmap. eauto.
    Qed.

    Lemma record_crashes_own h : holds dec rs h -> record_crashes h (session_id r) ≡ₚ map c_data (crashes r).
    Proof.
      intros (_ & _ & _ & Ha). unfold record_crashes, find_all.
      assert (Hperm : List.filter (fun '(k, _) => occurs_in (session_id r) k) (h_crashes h) ≡ₚ
        List.filter (fun '(k, _) => occurs_in (session_id r) k) (flat_map (crash_entries dec) rs)).
      { clear -Ha. induction Ha as [|[k v] l l' _ IH|[k v] [k' v'] l|l1 l2 l3 _ IH1 _ IH2]; cbn.
        - done.
        - destruct (occurs_in _ _); [by constructor|done].
        - destruct (occurs_in _ k), (occurs_in _ k'); try done. constructor.
        - by etrans. }
      rewrite Hperm, filter_flat; [|done|apply sep|].
      - unfold crash_entries. assert (forall l (f : nat -> crash Crash -> text) , map snd (imap (fun i c => (f i c, c_data c)) l) = map c_data l) as Hm.
        { clear. induction l as [|c l IH]; intros f; [done|]. cbn. f_equal. apply (IH (fun i => f (S i))). }
        rewrite (Hm (crashes r) (fun i c => _)). done.
      - intros r' [k d] Hr' Hx. unfold crash_entries in Hx. apply elem_of_lookup_imap in Hx as (i & c & [= -> ->] & Hc).
        apply elem_of_list_lookup_2 in Hc. split.
        + intros Ho. apply occurs_in_iff in Ho. cbn [lit list_ascii_of_string app] in Ho.
          apply part_split in Ho as [Ho|Ho]; [by exfalso; apply (names_ok r' c)| |by apply session_no_us, sess].
          apply part_split in Ho as [Ho|Ho]; [| |by apply session_no_us, sess].
          * symmetry. destruct sep as [Hn Hs]. apply (nodup_same rs); auto.
          * exfalso. apply (not_in_short (dec i)); auto.
        + intros ->. apply occurs_in_iff. exists (c_name c ++ lit "_"), (lit "_" ++ dec i). by rewrite <- !app_assoc.
    Qed.
  End Fix.

  Lemma records_list rs h : holds dec rs h -> execution_records h ≡ₚ map session_id rs.
  Proof.
    intros (Ha & _). unfold execution_records. rewrite Ha, map_map. rewrite (map_ext _ session_id); [done|]. intros r.
    unfold attempt_entry, drop_last2. rewrite app_length. cbn [lit list_ascii_of_string length].
    replace (length (session_id r) + 2 - 2) with (length (session_id r)) by lia. apply take_app.
  Qed.

  Lemma equal_length_separated rs n : NoDup (map session_id rs) -> (forall r, r ∈ rs -> length (session_id r) = n) -> separated rs.
  Proof. intros Hn Hl. split; [done|]. intros r r' Hr Hr' Hp. apply part_eq; [done|]. by rewrite !Hl. Qed.
End P.
