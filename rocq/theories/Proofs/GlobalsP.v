(** Proofs for C133. *)
From Coq Require Import String.
From stdpp Require Import gmap.
From Verif Require Import Lib.Py Model.Globals Spec.GlobalsSpec.
Local Open Scope nat_scope.

Section globals.
Context (builtins : gmap string val) (fs : gmap string fn).
Notation run := (run builtins). Notation exec := (exec builtins fs). Notation python := (python builtins fs).

Lemma dict_at_set_same m l d : l < length (dicts m) -> dict_at (set_at m l d) l = d.
Proof. intros H. unfold dict_at, set_at. simpl. by rewrite list_lookup_insert. Qed.
Lemma lookup_set_other m l l' d : l <> l' -> dicts (set_at m l d) !! l' = dicts m !! l'.
Proof. intros H. unfold set_at. simpl. by rewrite list_lookup_insert_ne. Qed.
Lemma length_set m l d : length (dicts (set_at m l d)) = length (dicts m).
Proof. unfold set_at. simpl. by rewrite insert_length. Qed.

(** a memory that grew, all dictionaries below [b] being as they were *)
Definition keeps (b : nat) (m m' : memory) := length (dicts m) <= length (dicts m') /\ forall l, l < b -> dicts m' !! l = dicts m !! l.
Lemma keeps_trans b m1 m2 m3 : keeps b m1 m2 -> keeps b m2 m3 -> keeps b m1 m3.
Proof. intros [L1 H1] [L2 H2]. split; [lia|]. intros l Hl. by rewrite H2, H1. Qed.
Lemma keeps_refl b m : keeps b m m. Proof. by split. Qed.
Lemma keeps_le b b' m m' : b' <= b -> keeps b m m' -> keeps b' m m'.
Proof. intros H [L K]. split; [done|]. intros l Hl. apply K. lia. Qed.

Lemma run_keeps call (Hc : forall m f a m' o, call m f a = Some (m', o) -> keeps (length (dicts m)) m m') (l : nat) :
  forall b m m' o, run call l m b = Some (m', o) -> l < length (dicts m) -> keeps l m m'.
Proof.
  induction b as [z|e|x k IH|x v k IH|x k IH|ob a k IH|ob a z k IH|f arg k IH]; intros m m' o E Hl; simpl in E.
  - injection E as <- <-. apply keeps_refl.
  - injection E as <- <-. apply keeps_refl.
  - destruct (dict_at m l !! x); [by eapply IH|]. destruct (builtins !! x); [by eapply IH|]. injection E as <- <-. apply keeps_refl.
  - apply IH in E; [|by rewrite length_set]. destruct E as [L K]. rewrite length_set in L. split; [done|]. intros j Hj.
    rewrite K by done. apply lookup_set_other. lia.
  - destruct (dict_at m l !! x); [|injection E as <- <-; apply keeps_refl].
    apply IH in E; [|by rewrite length_set]. destruct E as [L K]. rewrite length_set in L. split; [done|]. intros j Hj.
    rewrite K by done. apply lookup_set_other. lia.
  - by eapply IH.
  - by apply IH in E.
  - destruct f; try by eapply IH. destruct (call m f arg) as [[m1 o1]|] eqn:Ec; [|done]. pose proof (Hc _ _ _ _ _ Ec) as K.
    eapply keeps_trans; [|eapply IH; [exact E|]]; [eapply keeps_le; [|exact K]; lia|]. destruct K. lia.
Qed.

Lemma exec_keeps n : forall m f a m' o, exec n m f a = Some (m', o) -> keeps (length (dicts m)) m m'.
Proof.
  induction n as [|n IH]; intros m f a m' o E; [done|]. simpl in E. destruct (fs !! f) as [F|] eqn:EF; [|injection E as <- <-; apply keeps_refl].
  apply run_keeps in E; [|exact IH|simpl; rewrite app_length; simpl; lia]. destruct E as [L K]. simpl in L. rewrite app_length in L. simpl in L.
  split; [lia|]. intros l Hl. rewrite K by done. simpl. by rewrite lookup_app_l.
Qed.

(** two runs that agree on the library, the attributes and their own dictionaries *)
Record alike (l1 l2 : nat) (m1 m2 : memory) : Prop := {
  al_lib : dicts m1 !! 0 = dicts m2 !! 0;
  al_attrs : attrs m1 = attrs m2;
  al_own : dict_at m1 l1 = dict_at m2 l2;
  al_l1 : 0 < l1 < length (dicts m1);
  al_l2 : 0 < l2 < length (dicts m2) }.
Definition similar (m1 m2 : memory) := dicts m1 !! 0 = dicts m2 !! 0 /\ attrs m1 = attrs m2 /\ 0 < length (dicts m1) /\ 0 < length (dicts m2).
Definition agree (r1 r2 : option (memory * outcome)) : Prop :=
  match r1, r2 with Some (m1, o1), Some (m2, o2) => o1 = o2 /\ similar m1 m2 | None, None => True | _, _ => False end.

Lemma alike_set l1 l2 m1 m2 d : alike l1 l2 m1 m2 -> alike l1 l2 (set_at m1 l1 d) (set_at m2 l2 d).
Proof.
  intros [H1 H2 H3 H4 H5]. split; rewrite ?length_set; try done.
  - rewrite !lookup_set_other by lia. done.
  - rewrite !dict_at_set_same by lia. done.
Qed.
Lemma alike_similar l1 l2 m1 m2 : alike l1 l2 m1 m2 -> similar m1 m2.
Proof. intros [H1 H2 H3 H4 H5]. split; [done|]. split; [done|]. lia. Qed.

Lemma run_alike call (Hk : forall m f a m' o, call m f a = Some (m', o) -> keeps (length (dicts m)) m m')
  (Hc : forall m1 m2 f a, similar m1 m2 -> agree (call m1 f a) (call m2 f a)) (l1 l2 : nat) :
  forall b m1 m2, alike l1 l2 m1 m2 -> agree (run call l1 m1 b) (run call l2 m2 b).
Proof.
  induction b as [z|e|x k IH|x v k IH|x k IH|ob a k IH|ob a z k IH|f arg k IH]; intros m1 m2 A; simpl.
  - split; [done|]. by eapply alike_similar.
  - split; [done|]. by eapply alike_similar.
  - rewrite (al_own _ _ _ _ A). destruct (dict_at m2 l2 !! x); [by apply IH|]. destruct (builtins !! x); [by apply IH|].
    split; [done|]. by eapply alike_similar.
  - rewrite (al_own _ _ _ _ A). apply IH. by apply alike_set.
  - rewrite (al_own _ _ _ _ A). destruct (dict_at m2 l2 !! x); [|split; [done|]; by eapply alike_similar]. apply IH. by apply alike_set.
  - rewrite (al_attrs _ _ _ _ A). by apply IH.
  - apply IH. destruct A as [H1 H2 H3 H4 H5]. split; try done. simpl. by rewrite H2.
  - destruct f; try by apply IH. pose proof (Hc m1 m2 f arg (alike_similar _ _ _ _ A)) as H.
    destruct (call m1 f arg) as [[n1 o1]|] eqn:E1, (call m2 f arg) as [[n2 o2]|] eqn:E2; try done.
    destruct H as [<- (S1 & S2 & S3 & S4)]. apply IH. apply Hk in E1 as [L1 K1], E2 as [L2 K2]. destruct A as [H1 H2 H3 H4 H5].
    split; try done; [|lia|lia]. unfold dict_at in *. rewrite K1, K2 by lia. done.
Qed.

Lemma exec_alike n : forall m1 m2 f a, similar m1 m2 -> agree (exec n m1 f a) (exec n m2 f a).
Proof.
  induction n as [|n IH]; intros m1 m2 f a S; [done|]. simpl. destruct (fs !! f) as [F|]; [|by split].
  destruct S as (S1 & S2 & S3 & S4). apply run_alike; [apply exec_keeps|done|]. split; simpl; rewrite ?app_length; simpl; try lia; try done.
  - by rewrite !lookup_app_l.
  - unfold dict_at. simpl. rewrite !lookup_app_r, !Nat.sub_diag by lia. simpl. unfold available_names, dict_at. by rewrite S1.
Qed.

(** without SetAttr the attributes stay *)
Lemma run_sealed call (Hc : forall m f a m' o, call m f a = Some (m', o) -> attrs m' = attrs m) l b : sealed b ->
  forall m m' o, run call l m b = Some (m', o) -> attrs m' = attrs m.
Proof.
  induction 1 as [z|e|x k _ IH|x v k _ IH|x k _ IH|ob a k _ IH|f arg k _ IH]; intros m m' o E; simpl in E.
  - by injection E as <- <-.
  - by injection E as <- <-.
  - destruct (dict_at m l !! x); [by eapply IH|]. destruct (builtins !! x); [by eapply IH|]. by injection E as <- <-.
  - by apply IH in E.
  - destruct (dict_at m l !! x); [by apply IH in E|]. by injection E as <- <-.
  - by eapply IH.
  - destruct f; try by eapply IH. destruct (call m f arg) as [[m1 o1]|] eqn:Ec; [|done]. apply IH in E. rewrite E. by eapply Hc.
Qed.
Lemma exec_sealed (Hs : all_sealed fs) n : forall m f a m' o, exec n m f a = Some (m', o) -> attrs m' = attrs m.
Proof.
  induction n as [|n IH]; intros m f a m' o E; [done|]. simpl in E. destruct (fs !! f) as [F|] eqn:EF; [|by injection E as <- <-].
  apply (run_sealed _ IH _ _ (Hs _ _ a EF)) in E. done.
Qed.

(** scripts *)
Lemma script_dicts n : forall ops m m', script builtins fs n m ops = Some m' -> 2 <= length (dicts m) ->
  dicts m' !! 0 = dicts m !! 0 /\ dict_at m' 1 = assigned ops (dict_at m 1) /\ 2 <= length (dicts m').
Proof.
  induction ops as [|op ops IH]; intros m m' E Hl; simpl in E; [injection E as <-; by split|]. destruct op as [x v|f a].
  - apply IH in E; [|by rewrite length_set]. destruct E as (E0 & E1 & E2). rewrite lookup_set_other in E0 by lia.
    rewrite dict_at_set_same in E1 by lia. by split.
  - destruct (exec n m f a) as [[m1 o]|] eqn:Ee; [|done]. apply exec_keeps in Ee as [L K]. apply IH in E; [|lia]. destruct E as (E0 & E1 & E2).
    split; [rewrite E0; apply K; lia|]. split; [|done]. rewrite E1. unfold dict_at. rewrite K by lia. done.
Qed.
Lemma script_attrs (Hs : all_sealed fs) n : forall ops m m', script builtins fs n m ops = Some m' -> attrs m' = attrs m.
Proof.
  induction ops as [|op ops IH]; intros m m' E; simpl in E; [by injection E as <-|]. destruct op as [x v|f a]; [by apply IH in E|].
  destruct (exec n m f a) as [[m1 o]|] eqn:Ee; [|done]. apply IH in E. rewrite E. by eapply exec_sealed.
Qed.

(** names *)
Lemma available_lookup m f helpers x : available_names m f helpers !! x =
  if decide (x ∈ helpers) then Some (VFn x) else if decide (x = "pth"%string) then Some VPkg
  else if decide (x = "self"%string \/ x = f) then Some (VFn f) else dict_at m 0 !! x.
Proof.
  unfold available_names. induction helpers as [|h t IH]; cbn [foldr].
  - rewrite decide_False by (apply not_elem_of_nil). destruct (decide (x = "pth"%string)) as [->|N1]; [by rewrite lookup_insert|].
    rewrite lookup_insert_ne by done. destruct (decide (x = "self"%string)) as [->|N2]; [by rewrite lookup_insert, decide_True by (by left)|].
    rewrite lookup_insert_ne by done. destruct (decide (x = f)) as [->|N3]; [by rewrite lookup_insert, decide_True by (by right)|].
    rewrite lookup_insert_ne by done. by rewrite decide_False by tauto.
  - destruct (decide (x = h)) as [->|N]; [by rewrite lookup_insert, decide_True by left|]. rewrite lookup_insert_ne by done. rewrite IH.
    rewrite (decide_ext (x ∈ h :: t) (x ∈ t)); [done|]. rewrite elem_of_cons. tauto.
Qed.

(** decorated and undecorated runs of modest functions *)
Definition plain_name (script_globals lib : gmap string val) (f : string) (helpers : list string) (x : string) : Prop :=
  script_globals !! x = Some (VFn x) /\ (x ∈ helpers \/ x = f /\ x <> "pth"%string) \/
  script_globals !! x = None /\ lib !! x = None /\ x ∉ helpers /\ x <> "pth"%string /\ x <> "self"%string /\ x <> f.

Lemma exec_python n :
  forall G L, (forall f F a, fs !! f = Some F -> modest (plain_name G L f (deps F)) (code F a)) ->
  forall m m2 f a, dict_at m 0 = L -> 0 < length (dicts m) -> dict_at m2 1 = G ->
  match exec n m f a, python n m2 f a with
  | Some (m', o), Some (m2', o2) => o = o2 /\ m2' = m2
  | None, None => True | _, _ => False end.
Proof.
  intros G L Hm. induction n as [|n IH]; intros m m2 f a EL Hl EG; [done|]. simpl. destruct (fs !! f) as [F|] eqn:EF; [|done].
  pose proof (Hm f F a EF) as Hb. set (m1 := Memory _ _). assert (E1 : dict_at m1 (length (dicts m)) = available_names m f (deps F)).
  { unfold dict_at, m1. simpl. by rewrite lookup_app_r, Nat.sub_diag by lia. }
  assert (E0 : dict_at m1 0 = L). { unfold dict_at, m1. simpl. rewrite lookup_app_l by lia. exact EL. }
  assert (El : length (dicts m) < length (dicts m1)). { unfold m1. simpl. rewrite app_length. simpl. lia. }
  set (l := length (dicts m)) in *. clearbody m1 l. revert m1 E1 E0 El.
  induction Hb as [z|e|x k Hx _ IHk|g arg k _ IHk]; intros m1 E1 E0 El; simpl; [done|done| |].
  - rewrite E1, EG, available_lookup, EL. destruct Hx as [[Hg Hh]|(Hg & Hlib & Nh & Np & Ns & Nf)].
    + rewrite Hg. assert (Ev : (if decide (x ∈ deps F) then Some (VFn x) else if decide (x = "pth"%string) then Some VPkg
        else if decide (x = "self"%string \/ x = f) then Some (VFn f) else L !! x) = Some (VFn x)).
      { destruct (decide (x ∈ deps F)); [done|]. destruct Hh as [Hh|[-> Np]]; [done|]. rewrite decide_False by done. by rewrite decide_True by (by right). }
      rewrite Ev. apply IHk; done.
    + rewrite decide_False by done. rewrite decide_False by done. rewrite decide_False by tauto. rewrite Hlib, Hg.
      destruct (builtins !! x); [apply IHk; done|done].
  - destruct g as [z|g| |y]; try (apply IHk; done).
    assert (K0 : 0 < length (dicts m1)) by lia. specialize (IH m1 m2 g arg E0 K0 EG).
    destruct (exec n m1 g arg) as [[m' o]|] eqn:Ee, (python n m2 g arg) as [[m2' o2]|]; try done. destruct IH as [<- ->].
    apply exec_keeps in Ee as [L' K']. apply IHk; [unfold dict_at in *; rewrite K' by lia; done|unfold dict_at in *; rewrite K' by lia; done|lia].
Qed.
End globals.
