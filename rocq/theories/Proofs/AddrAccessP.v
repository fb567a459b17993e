From Verif.Lib Require Import Py.
From Verif.Model Require Import PureAddr PureExec AddrAccess.
From Verif.Spec Require Import PureAddrSpec PureExecSpec.
From Verif.Proofs Require Import PureAddrP PureExecP PureExecSeqP.
From stdpp Require Import gmap sets list_numbers.
Local Open Scope nat_scope.

Section P.
  Context {D : Type} (data_prefix : D -> string) (hash_of : value D -> string).
  Notation text_of := (text_of data_prefix hash_of).
  Notation state := (@state D).
  Context (CF : collision_free data_prefix hash_of) (ses : session).
  Notation loc := (loc ses).

  (** some portal of the session holds v *)
  Definition held (σ : state) (v : value D) : Prop := exists q, q < length (places ses) /\ vals (σ (loc q)) !! text_of v = Some v.
  (** nothing but more values; all under their own addresses *)
  Definition copied (σ σ' : state) : Prop :=
    (forall l b v, vals (σ l) !! b = Some v -> vals (σ' l) !! b = Some v) /\ same_but_vals σ σ' /\
    (values_correct data_prefix hash_of σ -> values_correct data_prefix hash_of σ').
  Lemma copied_refl σ : copied σ σ.
  Proof. split; [done|]. split; [done|done]. Qed.
  Lemma copied_trans σ1 σ2 σ3 : copied σ1 σ2 -> copied σ2 σ3 -> copied σ1 σ3.
  Proof.
    intros (A1 & B1 & C1) (A2 & B2 & C2). split; [auto|]. split; [|auto]. intros l. destruct (B1 l) as (?&?&?), (B2 l) as (?&?&?). split; [|split]; congruence.
  Qed.
  Lemma held_copied σ σ' v : copied σ σ' -> held σ v -> held σ' v.
  Proof. intros (A & _) (q & Hq & Hv). exists q. auto. Qed.

  Lemma put_run p v σ μ : exists σ', run (put ses p (text_of v) v) σ μ = (σ', μ, Some (Ok tt)) /\ copied σ σ'.
  Proof.
    unfold put. rewrite run_pbind, run_acc. cbn [perform]. case_bool_decide as H; cbn.
    - exists σ. split; [done|apply copied_refl].
    - eexists. split; [done|]. split; [|split].
      + intros l b w Hw. unfold upd. destruct (decide (l = loc p)) as [->|]; [|done]. cbn. rewrite lookup_insert_ne; [done|].
        intros <-. apply H. eauto.
      + intros l. unfold upd. destruct (decide (l = loc p)) as [->|]; done.
      + intros Hc l b w. unfold upd. destruct (decide (l = loc p)) as [->|]; [|apply Hc]. cbn. intros Hw.
        apply lookup_insert_Some in Hw as [[<- <-]|[_ Hw]]; [done|by apply Hc in Hw].
  Qed.
  Lemma find_other_run p v qs σ μ : values_correct data_prefix hash_of σ -> (exists q, q ∈ qs /\ vals (σ (loc q)) !! text_of v = Some v) ->
    exists σ', run (find_other ses p (text_of v) qs) σ μ = (σ', μ, Some (Ok v)) /\ copied σ σ'.
  Proof.
    intros Hc. induction qs as [|q qs IH]; intros (q0 & Hin & Hv); [by apply elem_of_nil in Hin|]. cbn [find_other].
    rewrite run_pbind, run_acc. cbn [perform]. destruct (vals (σ (loc q)) !! text_of v) as [w|] eqn:E.
    - apply Hc in E as E'. apply CF in E' as ->. rewrite run_pbind. destruct (put_run p v σ μ) as (σ' & -> & Hcp). exists σ'. done.
    - apply IH. apply elem_of_cons in Hin as [->|Hin]; [congruence|]. eauto.
  Qed.
  Lemma resolve_run p v σ μ : values_correct data_prefix hash_of σ -> held σ v ->
    exists σ', run (resolve ses p (text_of v)) σ μ = (σ', μ, Some (Ok v)) /\ copied σ σ'.
  Proof.
    intros Hc (q & Hq & Hv). unfold resolve. rewrite run_pbind, run_acc. cbn [perform].
    destruct (vals (σ (loc p)) !! text_of v) as [w|] eqn:E.
    - apply Hc in E as E'. apply CF in E' as ->. exists σ. split; [done|apply copied_refl].
    - apply find_other_run; [done|]. exists q. split; [|done]. unfold others. apply elem_of_list_filter. split; [intros [= ->]; congruence|]. apply elem_of_seq. lia.
  Qed.

  (** the call f(packed arguments) with address a is held *)
  Definition call_held (σ : state) (a : addr) (f : fn_state) (packed : list (string * addr)) : Prop :=
    values_correct data_prefix hash_of σ /\
    signature_addr a = text_of (VSig (fn_name f) (text_of (VFn f)) (island_name f) (text_of (VArgs packed))) /\
    held σ (VSig (fn_name f) (text_of (VFn f)) (island_name f) (text_of (VArgs packed))) /\ held σ (VFn f) /\ held σ (VArgs packed).
  Lemma call_held_copied σ σ' a f packed : copied σ σ' -> call_held σ a f packed -> call_held σ' a f packed.
  Proof. intros Hc (A & B & C & E & F). split; [by apply Hc|]. split; [done|]. split; [|split]; by eapply held_copied. Qed.

  Lemma load_function_run p a f packed σ μ : call_held σ a f packed ->
    exists σ', run (load_function ses p a) σ μ = (σ', μ, Some (Ok f)) /\ copied σ σ'.
  Proof.
    intros (Hc & Hs & H1 & H2 & H3). unfold load_function. rewrite run_pbind, Hs.
    destruct (resolve_run p _ σ μ Hc H1) as (σ1 & -> & C1). rewrite run_pbind.
    destruct (resolve_run p (VFn f) σ1 μ) as (σ2 & -> & C2); [by apply C1|by eapply held_copied|]. exists σ2. split; [done|by eapply copied_trans].
  Qed.
  Lemma load_arguments_run p a f packed σ μ : call_held σ a f packed ->
    exists σ', run (load_arguments ses p a) σ μ = (σ', μ, Some (Ok (as_args packed))) /\ copied σ σ'.
  Proof.
    intros (Hc & Hs & H1 & H2 & H3). unfold load_arguments. rewrite run_pbind, Hs.
    destruct (resolve_run p _ σ μ Hc H1) as (σ1 & -> & C1). rewrite run_pbind.
    destruct (resolve_run p (VArgs packed) σ1 μ) as (σ2 & -> & C2); [by apply C1|by eapply held_copied|]. exists σ2. split; [done|by eapply copied_trans].
  Qed.
  Lemma fn_name_run p a f packed σ μ : call_held σ a f packed ->
    exists σ', run (addr_fn_name ses p a) σ μ = (σ', μ, Some (Ok (fn_name f))) /\ copied σ σ'.
  Proof.
    intros (Hc & Hs & H1 & _). unfold addr_fn_name. rewrite run_pbind, Hs. destruct (resolve_run p _ σ μ Hc H1) as (σ1 & -> & C1). exists σ1. done.
  Qed.
  Lemma unpack_run p (kw : list (string * arg D)) σ μ : values_correct data_prefix hash_of σ ->
    (forall k x, (k, x) ∈ kw -> exists v, x = AVal v /\ held σ v) ->
    exists σ', run (unpack_in ses p (as_args (pack data_prefix hash_of kw))) σ μ = (σ', μ, Some (Ok kw)) /\ copied σ σ'.
  Proof.
    revert σ. induction kw as [|[k x] kw IH]; intros σ Hc H; [exists σ; split; [done|apply copied_refl]|].
    destruct (H k x) as (v & -> & Hv); [apply elem_of_list_here|]. cbn [pack map as_args unpack_in addr_of_arg]. rewrite run_pbind.
    destruct (resolve_run p v σ μ Hc Hv) as (σ1 & -> & C1). rewrite run_pbind.
    destruct (IH σ1) as (σ2 & E & C2); [by apply C1| |].
    { intros k' x' Hin. destruct (H k' x') as (v' & -> & Hv'); [by apply elem_of_list_further|]. exists v'. split; [done|by eapply held_copied]. }
    unfold as_args, pack in E. rewrite E. exists σ2. split; [done|by eapply copied_trans].
  Qed.

  (** ** making an address *)
  Lemma put_stored p v σ μ : values_correct data_prefix hash_of σ ->
    exists σ', run (put ses p (text_of v) v) σ μ = (σ', μ, Some (Ok tt)) /\ copied σ σ' /\ vals (σ' (loc p)) !! text_of v = Some v.
  Proof.
    intros Hc. destruct (put_run p v σ μ) as (σ' & E & Hcp). exists σ'. split; [done|]. split; [done|]. revert E. unfold put.
    rewrite run_pbind, run_acc. cbn [perform]. case_bool_decide as H; cbn; intros [= <-].
    - destruct H as [w Hw]. rewrite Hw. apply Hc in Hw. by apply CF in Hw as ->.
    - unfold upd. rewrite decide_True by done. cbn. apply lookup_insert.
  Qed.
  Lemma mk_addr_run p x σ μ : values_correct data_prefix hash_of σ ->
    exists σ', run (mk_addr data_prefix hash_of ses p x) σ μ = (σ', μ, Some (Ok (addr_of_arg data_prefix hash_of x))) /\ copied σ σ' /\
      forall v, x = AVal v -> vals (σ' (loc p)) !! text_of v = Some v.
  Proof.
    intros Hc. destruct x as [v|b|b]; cbn [mk_addr].
    - rewrite run_pbind. destruct (put_stored p v σ μ Hc) as (σ' & -> & C & S). exists σ'. split; [done|]. split; [done|]. by intros ? [= <-].
    - exists σ. split; [done|]. split; [apply copied_refl|done].
    - exists σ. split; [done|]. split; [apply copied_refl|done].
  Qed.
  Lemma pack_run p l σ μ : values_correct data_prefix hash_of σ ->
    exists σ', run (pack_in data_prefix hash_of ses p l) σ μ = (σ', μ, Some (Ok (pack data_prefix hash_of l))) /\ copied σ σ' /\
      forall k v, (k, AVal v) ∈ l -> vals (σ' (loc p)) !! text_of v = Some v.
  Proof.
    revert σ. induction l as [|[k x] l IH]; intros σ Hc; cbn [pack_in].
    - exists σ. split; [done|]. split; [apply copied_refl|]. by intros ? ? ?%elem_of_nil.
    - rewrite run_pbind. destruct (mk_addr_run p x σ μ Hc) as (σ1 & -> & C1 & S1). rewrite run_pbind.
      destruct (IH σ1) as (σ2 & -> & C2 & S2); [by apply C1|]. exists σ2. split; [done|]. split; [by eapply copied_trans|].
      intros k' v [[= -> <-]|Hin]%elem_of_cons; [|by eapply S2]. apply C2. by apply S1.
  Qed.
  Lemma result_address_run p f (arguments s : list (string * arg D)) σ μ : values_correct data_prefix hash_of σ ->
    sorted_kwargs arguments = Ok s -> let packed := pack data_prefix hash_of s in
    let sg := VSig (fn_name f) (text_of (VFn f)) (island_name f) (text_of (VArgs packed)) in
    exists σ', run (result_address data_prefix hash_of ses p f arguments) σ μ =
        (σ', μ, Some (Ok ((fn_name f ++ "_" ++ island_name f)%string, hash_of sg))) /\ copied σ σ' /\
      vals (σ' (loc p)) !! text_of (VFn f) = Some (VFn f) /\ vals (σ' (loc p)) !! text_of (VArgs packed) = Some (VArgs packed) /\
      vals (σ' (loc p)) !! text_of sg = Some sg /\ (forall k v, (k, AVal v) ∈ s -> vals (σ' (loc p)) !! text_of v = Some v).
  Proof.
    intros Hc Hs packed sg. unfold result_address. rewrite run_pbind, Hs. cbn [mres run].
    rewrite run_pbind. destruct (mk_addr_run p (AVal (VFn f)) σ μ Hc) as (σ1 & -> & C1 & S1).
    rewrite run_pbind. destruct (pack_run p s σ1 μ) as (σ2 & -> & C2 & S2); [by apply C1|]. fold packed.
    rewrite run_pbind. destruct (mk_addr_run p (AVal (VArgs packed)) σ2 μ) as (σ3 & -> & C3 & S3); [by apply C2, C1|].
    rewrite run_pbind. cbn [addr_of_arg]. fold sg.
    destruct (mk_addr_run p (AVal sg) σ3 μ) as (σ4 & -> & C4 & S4); [by apply C3, C2, C1|].
    exists σ4. split; [done|]. split; [by eapply copied_trans; [exact C1|]; eapply copied_trans; [exact C2|]; eapply copied_trans|].
    split; [by apply C4, C3, C2, S1|]. split; [by apply C4, S3|]. split; [by apply S4|]. intros k v Hin. apply C4, C3. by eapply S2.
  Qed.
End P.
