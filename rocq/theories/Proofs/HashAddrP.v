From Verif.Lib Require Import Py.
From Verif.Model Require Import Base32 HashAddr.
From Verif.Spec Require Import Numerals.
From Verif.Proofs Require Import Base32P.
From stdpp Require Import pretty sets.
From Coq Require Import Ascii String List.

Notation L := list_ascii_of_string.
Notation us := ("_"%char).

Lemma L_app s t : L (s ++ t) = L s ++ L t.
Proof. induction s as [|c s IH]; [done|]. rewrite app_cons. cbn. by rewrite IH. Qed.
Lemma L_inj s t : L s = L t -> s = t.
Proof. intros H. rewrite <- (string_of_list_ascii_of_string s), <- (string_of_list_ascii_of_string t). by rewrite H. Qed.
Lemma L_length s : length (L s) = String.length s.
Proof. induction s as [|c s IH]; [done|]. cbn. by rewrite IH. Qed.

Lemma split_first {A} (c : A) (a a' b b' : list A) :
  c ∉ a -> c ∉ a' -> a ++ c :: b = a' ++ c :: b' -> a = a' /\ b = b'.
Proof.
  revert a'; induction a as [|x a IH]; intros [|x' a'] H1 H2 H; simpl in *.
  - by inversion H.
  - inversion H; subst. by destruct H2; left.
  - inversion H; subst. by destruct H1; left.
  - inversion H; subst. destruct (IH a') as [-> ->]; auto; set_solver.
Qed.

Lemma split_last {A} (c : A) (a a' b b' : list A) :
  c ∉ b -> c ∉ b' -> a ++ c :: b = a' ++ c :: b' -> a = a' /\ b = b'.
Proof.
  intros H1 H2 H. apply (f_equal (@rev A)) in H. rewrite !rev_app_distr in H. simpl in H.
  rewrite <- !app_assoc in H. simpl in H.
  apply split_first in H as [Hb Ha].
  - apply (f_equal (@rev A)) in Ha, Hb. by rewrite !rev_involutive in Ha, Hb.
  - rewrite elem_of_list_In, <- in_rev, <- elem_of_list_In. done.
  - rewrite elem_of_list_In, <- in_rev, <- elem_of_list_In. done.
Qed.

Lemma pretty_go_no_us x s : us ∉ L s -> us ∉ L (pretty_N_go x s).
Proof.
  revert s. induction (N.lt_wf_0 x) as [x _ IH]; intros s Hs.
  destruct (decide (0 < x)%N) as [Hx|Hx].
  - rewrite pretty_N_go_step by done. apply IH; [by apply N.div_lt|].
    cbn. intros [Hc|Hc]%elem_of_cons; [|done]. revert Hc.
    unfold pretty_N_char. by repeat case_match.
  - assert (x = 0%N) as -> by lia. by rewrite pretty_N_go_0.
Qed.

Lemma pretty_no_us (x : N) : us ∉ L (pretty x).
Proof.
  unfold pretty, pretty_N. case_decide.
  - cbn. set_solver.
  - apply pretty_go_no_us. cbn. set_solver.
Qed.

Definition dimtext (n : N) : list ascii := L (pretty n) ++ L "_x_".
Lemma concat_dims_inj l1 l2 : concat (map dimtext l1) = concat (map dimtext l2) -> l1 = l2.
Proof.
  revert l2; induction l1 as [|n l1 IH]; intros [|m l2]; unfold dimtext; cbn; auto.
  - intros H. exfalso. destruct (L (pretty m)); done.
  - intros H. exfalso. destruct (L (pretty n)); done.
  - rewrite <- !app_assoc. cbn. intros H.
    apply split_first in H as [H1 H2]; [|apply pretty_no_us..].
    apply L_inj in H1. apply (inj (pretty (A:=N))) in H1. subst m. inversion H2. f_equal. by apply IH.
Qed.

Lemma fold_shape dims s :
  L (fold_left (fun d n => String.append d (String.append (pretty n) shape_connector)) dims s)
  = L s ++ concat (map dimtext dims).
Proof.
  revert s; induction dims as [|n dims IH]; intros s; cbn.
  - by rewrite app_nil_r.
  - rewrite IH, !L_app. unfold dimtext. by rewrite <- !app_assoc.
Qed.

Lemma L_drop_last k s : L (str_drop_last k s) = take (String.length s - k) (L s).
Proof.
  unfold str_drop_last. generalize (String.length s - k). induction s as [|c s IH]; intros [|m]; cbn; auto.
  by rewrite IH.
Qed.

Lemma dims_end dims : dims <> [] -> exists l, concat (map dimtext dims) = l ++ L "_x_".
Proof.
  intros H. destruct (exists_last H) as (l & n & ->).
  rewrite map_app, concat_app. cbn. unfold dimtext at 2.
  exists (concat (map dimtext l) ++ L (pretty n)). by rewrite app_nil_r, app_assoc.
Qed.

Lemma shape_descriptor_text dims :
  L (shape_descriptor dims) =
  (match dims with [] => L "sha" | _ => take (String.length (string_of_list_ascii (L "shape_" ++ concat (map dimtext dims))) - 3) (L "shape_" ++ concat (map dimtext dims)) end) ++ [us].
Proof.
  unfold shape_descriptor. rewrite L_app, L_drop_last, fold_shape. f_equal.
  destruct dims as [|n dims]; [reflexivity|]. f_equal. f_equal.
  rewrite <- L_length, fold_shape. by rewrite <- L_length, list_ascii_of_string_of_list_ascii.
Qed.

Lemma shape_desc_form dims l : concat (map dimtext dims) = l ++ L "_x_" ->
  dims <> [] ->  L (shape_descriptor dims) = L "shape_" ++ l ++ [us].
Proof.
  intros Hl Hne. rewrite shape_descriptor_text. destruct dims as [|n dims]; [done|].
  rewrite Hl. rewrite <- L_length, list_ascii_of_string_of_list_ascii.
  rewrite !app_assoc. f_equal. rewrite take_app_alt; [done|].
  rewrite !app_length. cbn. lia.
Qed.

Lemma shape_descriptor_inj d1 d2 : shape_descriptor d1 = shape_descriptor d2 -> d1 = d2.
Proof.
  intros H. apply (f_equal L) in H.
  destruct (decide (d1 = [])) as [->|N1], (decide (d2 = [])) as [->|N2]; auto.
  - exfalso. destruct (dims_end d2 N2) as (l & Hl). rewrite (shape_desc_form d2 l Hl N2) in H.
    vm_compute in H. discriminate.
  - exfalso. destruct (dims_end d1 N1) as (l & Hl). rewrite (shape_desc_form d1 l Hl N1) in H.
    vm_compute in H. discriminate.
  - destruct (dims_end d1 N1) as (l1 & H1). destruct (dims_end d2 N2) as (l2 & H2).
    rewrite (shape_desc_form d1 l1 H1 N1), (shape_desc_form d2 l2 H2 N2) in H.
    apply app_inv_head in H. apply app_inv_tail in H. subst l2.
    apply concat_dims_inj. congruence.
Qed.

Lemma L_cons_inv c s : L (String c s) = c :: L s. Proof. done. Qed.

Lemma shape_hd d : exists l, L (shape_descriptor d) = "s"%char :: l.
Proof.
  destruct (decide (d = [])) as [->|Hne].
  - by eexists.
  - destruct (dims_end d Hne) as (l & Hl). rewrite (shape_desc_form d l Hl Hne). by eexists.
Qed.

Lemma descriptor_inj s1 s2 : descriptor_of s1 = descriptor_of s2 -> s1 = s2.
Proof.
  destruct s1 as [d1|n1|], s2 as [d2|n2|]; cbn [descriptor_of]; intros H;
    try (destruct (shape_hd d1) as (l1 & H1)); try (destruct (shape_hd d2) as (l2 & H2)).
  - f_equal. by apply shape_descriptor_inj.
  - exfalso. apply (f_equal L) in H. rewrite H1 in H. discriminate.
  - exfalso. apply (f_equal L) in H. rewrite H1 in H. discriminate.
  - exfalso. apply (f_equal L) in H. rewrite H2 in H. discriminate.
  - apply (f_equal L) in H. rewrite !L_app in H. apply app_inv_head in H. apply app_inv_tail in H.
    apply L_inj in H. apply (inj (pretty (A:=N))) in H. by subst.
  - exfalso. apply (f_equal L) in H. discriminate.
  - exfalso. apply (f_equal L) in H. rewrite H2 in H. discriminate.
  - exfalso. apply (f_equal L) in H. discriminate.
  - done.
Qed.

Lemma descriptor_end st : st = Plain \/ exists l, L (descriptor_of st) = l ++ [us].
Proof.
  destruct st as [d|n|]; [right|right|by left].
  - cbn. rewrite shape_descriptor_text. by eexists.
  - cbn. rewrite !L_app. rewrite app_assoc. by eexists.
Qed.

Lemma digits_no_us s : all_chars is_digit32 s = true -> us ∉ L s.
Proof.
  induction s as [|c s IH]; cbn; [set_solver|]. intros [H1 H2]%andb_prop.
  intros [Hc|Hc]%elem_of_cons; [by subst c|]. by apply IH.
Qed.

Lemma signature_digits h s : all_chars is_hex h = true -> hash_signature_of_digest h = Ok s ->
  all_chars is_digit32 s = true.
Proof.
  intros Hh. destruct (hex_convert h Hh) as (n & t & _ & E & _ & _ & Hc).
  unfold hash_signature_of_digest. rewrite E. cbn. intros [= <-].
  destruct (decide (h = ""%string)) as [->|Hne].
  - cbn in E. by inversion E.
  - apply all_chars_take. by apply Hc.
Qed.

Lemma hash_text_inj x1 x2 h :
  all_chars is_hex (o_digest16 x1) = true -> all_chars is_hex (o_digest16 x2) = true ->
  build_hash_signature x1 = Ok h -> build_hash_signature x2 = Ok h ->
  o_struct x1 = o_struct x2 /\ hash_signature_of_digest (o_digest16 x1) = hash_signature_of_digest (o_digest16 x2).
Proof.
  intros X1 X2. unfold build_hash_signature.
  destruct (hash_signature_of_digest (o_digest16 x1)) as [r1|] eqn:E1; [|done].
  destruct (hash_signature_of_digest (o_digest16 x2)) as [r2|] eqn:E2; [|done].
  cbn. intros [= H1] [= H2].
  pose proof (digits_no_us _ (signature_digits _ _ X1 E1)) as D1.
  pose proof (digits_no_us _ (signature_digits _ _ X2 E2)) as D2.
  assert (H : L (descriptor_of (o_struct x1)) ++ L r1 = L (descriptor_of (o_struct x2)) ++ L r2).
  { rewrite <- !L_app. congruence. }
  destruct (descriptor_end (o_struct x1)) as [P1|(l1 & P1)], (descriptor_end (o_struct x2)) as [P2|(l2 & P2)].
  - rewrite P1, P2 in *. cbn in H. apply L_inj in H. by subst.
  - exfalso. rewrite P1, P2 in H. cbn in H. apply D1. rewrite H. set_solver.
  - exfalso. rewrite P1, P2 in H. cbn in H. apply D2. rewrite <- H. set_solver.
  - rewrite P1, P2, <- !app_assoc in H. cbn in H. apply split_last in H as [H Hr]; auto.
    apply L_inj in Hr. subst r2. split; [|done]. apply descriptor_inj, L_inj. congruence.
Qed.

Lemma address_text_inj x1 x2 a :
  all_chars is_hex (o_digest16 x1) = true -> all_chars is_hex (o_digest16 x2) = true ->
  address_text x1 = Ok a -> address_text x2 = Ok a ->
  str_lower (o_class x1) = str_lower (o_class x2) /\ o_struct x1 = o_struct x2
  /\ hash_signature_of_digest (o_digest16 x1) = hash_signature_of_digest (o_digest16 x2).
Proof.
  intros X1 X2. unfold address_text.
  destruct (build_hash_signature x1) as [h1|] eqn:E1; [|done].
  destruct (build_hash_signature x2) as [h2|] eqn:E2; [|done].
  cbn. intros H1 H2. rewrite <- H1 in H2. inversion H2. subst h2.
  split; [done|]. by eapply hash_text_inj.
Qed.

Lemma address_total x : all_chars is_hex (o_digest16 x) = true -> is_ok (address_text x) = true.
Proof.
  intros Hh. destruct (hex_convert _ Hh) as (n & t & _ & E & _).
  unfold address_text, build_hash_signature, hash_signature_of_digest. by rewrite E.
Qed.
