(** Registration of functions: every session keeps the invariant. *)
From Coq Require Import String Sorted.
From stdpp Require Import gmap.
From Verif Require Import Lib.Py Lib.DictLemmas Model.PyAst Model.Normalizer Model.NamesAnalyzer Model.CallGraph Model.Registry.
From Verif.Spec Require Import RegistrySpec.
From Verif.Proofs Require Import RegistryP RegistryInvP RegistryOpsP RegistryCompleteP.
Local Open Scope nat_scope.

Ltac rd := repeat first [apply reader_bnd; [|intros] | apply reader_ret | apply reader_lift | apply reader_raise | apply reader_get | apply reader_island | apply reader_check
    | apply reader_or | apply reader_dependencies | apply reader_augmented | apply reader_mapm; intros | match goal with |- reader (match ?x with _ => _ end) => destruct x end | match goal with |- reader (if ?x then _ else _) => destruct x end].

Section Run.
  Variable normalise : bool -> string -> res string.
  Variable names_of : string -> res ana.
  Variable name_of : string -> res string.
  Variable builtins : gset string.
  Variable strong : Prop.
  Variable ord : nat -> gset string -> list string.
  Variable default_island : nat -> string.
  Hypothesis ord_perm : forall t X, ord t X ≡ₚ elements X.
  Hypothesis function_name : forall src n a, normalise false src = Ok src -> name_of src = Ok n -> names_of src = Ok a -> a_function a = Some n.
  Hypothesis no_empty : forall n, name_of "" <> Ok n.
  Notation invx := (invx normalise names_of name_of builtins strong).
  Notation inv := (invx None).
  Notation ev := (ev strong).
  Notation complete := (complete normalise names_of builtins ord).
  Notation new_fn := (new_fn normalise names_of name_of default_island).
  Notation wrap_fn := (wrap_fn normalise names_of default_island).
  Notation process_augmented := (process_augmented normalise names_of name_of default_island).
  Notation set_state := (set_state normalise names_of name_of builtins ord default_island).
  Notation get_state := (get_state normalise names_of builtins ord).
  Notation prepare := (prepare normalise names_of builtins ord).
  Notation step := (step normalise names_of name_of builtins ord default_island).
  Notation run := (run normalise names_of name_of builtins ord default_island).

  Definition keeps {A} (m : M A) : Prop := forall s s' r, inv s -> m s = (s', r) -> inv s' /\ ev s s'.
  Lemma keeps_reader {A} (m : M A) : reader m -> keeps m.
  Proof. intros H s s' r Hi Hr. apply H in Hr as ->. split; [done|apply ev_refl]. Qed.
  Lemma keeps_bnd {A B} (m : M A) (k : A -> M B) : keeps m -> (forall a, keeps (k a)) -> keeps (bnd m k).
  Proof.
    intros Hm Hk s s' r Hi. unfold bnd. destruct (m s) as [s1 [a|e]] eqn:E; destruct (Hm _ _ _ Hi E) as [Hi1 He1].
    - intros Hr. destruct (Hk a _ _ _ Hi1 Hr) as [Hi2 He2]. split; [done|by eapply ev_trans].
    - intros [= <- <-]. done.
  Qed.
  Lemma keeps_complete self : keeps (complete self).
  Proof.
    intros s s' r Hi Hr. destruct (heap s !! self) as [me|] eqn:E.
    - by eapply (complete_ok normalise names_of name_of builtins strong ord ord_perm function_name no_empty).
    - unfold Registry.complete, bnd, get in Hr. rewrite E in Hr. injection Hr as <- <-. split; [done|apply ev_refl].
  Qed.
  Lemma keeps_get_state self : keeps (get_state self).
  Proof.
    unfold Registry.get_state. apply keeps_bnd; [apply keeps_reader; rd|]. intros me. destruct (o_kind me); [apply keeps_reader; rd|].
    apply keeps_bnd; [apply keeps_complete|]. intros _. apply keeps_reader. rd.
  Qed.
  Lemma keeps_prepare self : keeps (prepare self).
  Proof. unfold Registry.prepare. apply keeps_bnd; [apply keeps_complete|]. intros _. apply keeps_reader. rd. Qed.
  Lemma keeps_new_fn k code isl strictly gs p : keeps (new_fn k code isl strictly gs p).
  Proof. intros s s' r Hi Hr. destruct (new_fn_run normalise names_of name_of builtins strong default_island s k code isl strictly gs p s' r Hi Hr) as (H1 & H2 & _). done. Qed.
  Lemma keeps_process p es : keeps (process_augmented p es).
  Proof.
    induction es as [|[d src] es IH]; cbn [Registry.process_augmented]; [apply keeps_reader; rd|]. apply keeps_bnd; [|done]. destruct d; apply keeps_new_fn.
  Qed.

  Notation honest_state := (honest_state name_of).

  Lemma keeps_begin s me s' r : inv s -> raw_ok name_of me ->
    let self := List.length (heap s) in let s1 := St (heap s ++ [me]) (known s) in
    discard self (o_portal me) (begin_registration normalise names_of self) s1 = (s', r) ->
    inv s' /\ ev s s' /\ beside self s1 s' /\ match r with
      | Err _ => forall k n, reg s' k n = reg s k n
      | Ok _ => exists me' j o, heap s' !! self = Some me' /\ same_identity me me'
         /\ reg s' (home me) (o_name me) = Some j /\ heap s' !! j = Some o /\ o_kind o = o_kind me /\ o_src o = o_src me /\ decorator o = decorator me'
         /\ (forall k n, reg s' k n = if decide (k = home me /\ n = o_name me) then Some j else reg s k n)
         /\ decorator o = decorator me /\ (reg s (home me) (o_name me) = None -> j = self /\ o = me' /\ me' = me)
         /\ (forall j', reg s (home me) (o_name me) = Some j' -> j' = j /\ me' = (upd me o).1 /\ (upd me o).2 = Ok tt)
      end.
  Proof.
    intros Hinv Hraw self s1 Hrun.
    pose proof (pending_alloc normalise names_of name_of builtins strong s me Hinv) as Hpend. cbn zeta in Hpend. fold self s1 in Hpend.
    destruct (inv_alloc normalise names_of name_of builtins strong s me Hinv) as (Hix & Hev & Hne & Hl). fold self s1 in Hix, Hev, Hne, Hl.
    destruct (begin_registration normalise names_of self s1) as [s2 r2] eqn:E.
    destruct (begin_ok normalise names_of name_of builtins strong s1 self me s2 r2 Hix Hl Hne Hraw E) as [Hb Hr2].
    destruct (discard_ok normalise names_of name_of builtins strong s1 self (o_portal me) _ s' r s2 r2 E Hrun) as (D1 & D2 & -> & D4 & D5).
    { by eapply (proj1 (begin_pending _ _ _ _ _ _ _ _ _ _ _ Hpend Hl Hraw E)). }
    split; [done|]. split; [eapply ev_beside; [done| |done]; unfold self; lia|]. split; [done|]. destruct r2 as [[]|]; [|exact (D5 eq_refl)].
    rewrite (D4 eq_refl). destruct Hr2 as (_ & me' & j & o & H1 & H2 & H3 & H4 & H5 & H6 & H7 & H8 & H9 & H10 & H11 & H12 & H13).
    exists me', j, o. split; [done|]. split; [repeat split; congruence|]. done.
  Qed.

  Lemma set_state_ok x p s s' r : inv s -> honest_state x -> set_state x p s = (s', r) -> inv s' /\ ev s s'.
  Proof.
    intros Hinv Hh Hrun. destruct x as [name src isl strictly|name src isl aug strictly gs]; cbn in Hh; unfold Registry.set_state in Hrun; rewrite bnd_alloc in Hrun.
    - set (me := FnObj Aut p src name isl strictly false None None None None) in *.
      unfold bnd in Hrun. destruct (discard _ _ _ _) as [s2 r2] eqn:E.
      assert (Hraw : raw_ok name_of me) by done.
      destruct (keeps_begin s me s2 r2 Hinv Hraw E) as (H1 & H2 & _). destruct r2; injection Hrun as <- _; done.
    - set (me := FnObj Pure p src name isl strictly false None None gs None) in *.
      set (self := List.length (heap s)) in *. unfold bnd at 1 in Hrun. destruct (discard _ _ _ _) as [s2 r2] eqn:E.
      assert (Hraw : raw_ok name_of me) by (destruct Hh; done).
      destruct (keeps_begin s me s2 r2 Hinv Hraw E) as (H1 & H2 & _ & H3). destruct r2 as [[]|]; [|injection Hrun as <- _; done].
      destruct H3 as (me' & j & o & Hm' & Hid & Hj & Ho & Hk & Hs & Hd & Hreg & _). revert Hrun. ms. cbn in Hj. unfold reg in Hj. change (home me) with (p, isl) in Hj.
      destruct (dict_get (p, isl) (known s2)) as [il|] eqn:Eil; [|done]. cbn [or_raise]. ms. rewrite Hj. cbn [or_raise]. ms. rewrite (bnd_get _ _ _ _ Ho).
      match goal with |- bnd ?m0 ?k0 s2 = _ -> _ => set (m1 := m0); set (k1 := k0) end.
      assert (Hkk : keeps (k1 tt)). { unfold k1. apply keeps_bnd; [apply keeps_complete|]. intros _. apply keeps_reader. rd. }
      intros Hrun. assert (Hm1 : forall s3 r3, m1 s2 = (s3, r3) -> inv s3 /\ ev s2 s3).
      { intros s3 r3. unfold m1. destruct (o_full o) eqn:Ef; [apply keeps_reader; [rd|done]|]. ms. rewrite (alter_eq_insert _ _ _ o Ho). intros Hp.
        assert (Ht : inv (St (<[j := set_aug (Some aug) o]> (heap s2)) (known s2)) /\ ev s2 (St (<[j := set_aug (Some aug) o]> (heap s2)) (known s2))).
        { apply (inv_touch normalise names_of name_of builtins strong s2); [done|done|]. intros i. cbn. destruct (decide (i = j)) as [->|Hne].
          - right. exists o, (set_aug (Some aug) o). split; [done|]. split; [apply list_lookup_insert; by eapply lookup_lt_Some|].
            split; [done|]. split; [done|]. split; [done|]. split.
            + assert (Hok : obj_ok strong s2 o) by (by eapply inv_obj). apply Hok.
            + split; [cbn; rewrite Hk; done|]. split; [intros q ->; done|done].
          - left. by rewrite list_lookup_insert_ne. }
        destruct Ht as [Ht1 Ht2]. destruct (keeps_process p aug _ _ _ Ht1 Hp) as [Hp1 Hp2]. split; [done|by eapply ev_trans]. }
      unfold bnd in Hrun. destruct (m1 s2) as [s3 [[]|e]] eqn:Em.
      + destruct (Hm1 _ _ eq_refl) as [A1 A2]. destruct (Hkk _ _ _ A1 Hrun) as [B1 B2]. split; [done|]. eapply ev_trans; [done|]. by eapply ev_trans.
      + injection Hrun as <- <-. destruct (Hm1 _ _ eq_refl) as [A1 A2]. split; [done|]. by eapply ev_trans.
  Qed.

  Notation honest_op := (honest_op name_of).
  Notation regular := (regular normalise names_of name_of builtins ord default_island).

  Lemma step_ok o s s' r : inv s -> honest_op o -> (strong -> regular_op s o) -> step o s = (s', r) -> inv s' /\ ev s s'.
  Proof.
    intros Hinv Hh Hreg.
    assert (Hu : forall A (m : M A) s' r, bnd m (fun _ => ret tt) s = (s', r) -> exists r', m s = (s', r')).
    { intros A m s1 r1. unfold bnd. destruct (m s) as [s2 [a|e]]; intros [= <- <-]; eauto. }
    destruct o; cbn [Registry.step]; intros Hrun; apply Hu in Hrun as (r' & Hrun).
    - by eapply keeps_new_fn.
    - destruct (wrap_fn_ok normalise names_of name_of builtins strong default_island s k f island gs p s' r' Hinv Hreg Hrun) as [[(H1 & H2 & _)| ->] _]; [done|]. split; [done|apply ev_refl].
    - by eapply keeps_prepare.
    - by eapply keeps_get_state.
    - by eapply set_state_ok.
  Qed.

  Lemma run_ok h : forall s, inv s -> Forall honest_op h -> (strong -> regular h s) -> inv (run h s) /\ ev s (run h s).
  Proof.
    induction h as [|o h IH]; intros s Hinv Hh Hreg; cbn; [split; [done|apply ev_refl]|].
    inversion Hh as [|? ? H1 H2]; subst. destruct (step o s) as [s1 r] eqn:E.
    destruct (step_ok o s s1 r Hinv H1) as [I1 E1]; [intros Hst; by apply Hreg|done|].
    destruct (IH s1 I1 H2) as [I2 E2]; [intros Hst; specialize (Hreg Hst); cbn in Hreg; rewrite E in Hreg; apply Hreg|]. split; [done|by eapply ev_trans].
  Qed.

  Lemma session_ok ps : inv (session default_island ps).
  Proof.
    assert (H : forall ps (d : dict (nat * string) (dict string nat)), (forall k isl, dict_get k d = Some isl -> isl = []) -> NoDup (dict_keys d) ->
      let d' := fold_left (fun d p => dict_set (p, default_island p) [] d) ps d in (forall k isl, dict_get k d' = Some isl -> isl = []) /\ NoDup (dict_keys d')).
    { clear ps. intros ps. induction ps as [|p ps IH]; intros d Hd Hnd; [done|]. cbn. apply IH.
      - intros k isl. rewrite dict_get_set. destruct (decide _); [by intros [= <-]|apply Hd].
      - by apply dict_set_NoDup. }
    destruct (H ps [] ltac:(done) ltac:(constructor)) as [H1 H2].
    assert (Hr : forall k n, reg (session default_island ps) k n = None).
    { intros k n. unfold reg, session. cbn [known]. destruct (dict_get k _) as [isl|] eqn:E; [|done]. apply H1 in E. by subst isl. }
    split.
    - intros k n j Hj. by rewrite Hr in Hj.
    - split; [done|]. intros k isl E. apply H1 in E. subst isl. constructor.
    - intros k n j o Hj. by rewrite Hr in Hj.
    - intros i o _ Hi. cbn in Hi; by rewrite lookup_nil in Hi.
  Qed.
End Run.
