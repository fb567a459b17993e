From Verif.Lib Require Import Py.
From Verif.Model Require Import Base32.
From Verif.Spec Require Import Numerals.
From Coq Require Import Ascii String List.
Local Open Scope Z_scope.

Ltac sweep_char c := destruct c as [[] [] [] [] [] [] [] []].

Lemma map_spec c :
  dict_get c base32_alphabet_map = if is_digit32 c then digit_value c else None.
Proof. sweep_char c; vm_compute; reflexivity. Qed.

Lemma digit32_get c d :
  is_digit32 c = true -> digit_value c = Some d ->
  String.get (Z.to_nat d) base32_alphabet = Some c /\ 0 <= d < 32.
Proof. sweep_char c; vm_compute; intros H1 H2; try discriminate; inversion H2; subst; split; auto;
  split; try discriminate; auto. Qed.

Lemma get_digit32 d :
  0 <= d < 32 -> exists c, String.get (Z.to_nat d) base32_alphabet = Some c
    /\ is_digit32 c = true /\ digit_value c = Some d.
Proof.
  intros H. assert (Hd : d = Z.of_nat (Z.to_nat d)) by lia.
  remember (Z.to_nat d) as k eqn:Hk. assert (k < 32)%nat by lia. clear Hk. subst d.
  assert (Hall : List.forallb (fun k => match String.get k base32_alphabet with
      | Some c => is_digit32 c && bool_decide (digit_value c = Some (Z.of_nat k)) | None => false end) (seq 0 32) = true)
    by (vm_compute; reflexivity).
  rewrite List.forallb_forall in Hall. specialize (Hall k). destruct (String.get k base32_alphabet) as [c|].
  - assert (Hc := Hall ltac:(apply List.in_seq; lia)). apply andb_prop in Hc as [Hc1 Hc2].
    apply bool_decide_eq_true_1 in Hc2. eauto.
  - assert (Hc := Hall ltac:(apply List.in_seq; lia)). discriminate.
Qed.

Lemma digit_nonneg c d : digit_value c = Some d -> 0 <= d < 36.
Proof. sweep_char c; vm_compute; intros H; inversion H; subst; split; try discriminate; auto. Qed.

Lemma zero_digit c d : is_digit32 c = true -> digit_value c = Some d -> c <> "0"%char -> 0 < d.
Proof. sweep_char c; vm_compute; intros H1 H2 H3; try discriminate; inversion H2; subst; auto; congruence. Qed.

Lemma digit32_some c : is_digit32 c = true -> exists d, digit_value c = Some d /\ 0 <= d < 32.
Proof. sweep_char c; vm_compute; intros H1; try discriminate; eexists; split; eauto; split; auto; discriminate. Qed.

Lemma hex_spec c : hex_digit c = if is_hex c then digit_value c else None.
Proof. sweep_char c; vm_compute; reflexivity. Qed.
Lemma hex_bound c d : is_hex c = true -> digit_value c = Some d -> 0 <= d < 16.
Proof. sweep_char c; vm_compute; intros H1 H2; try discriminate; inversion H2; subst; split; try discriminate; auto. Qed.
Lemma hex_some c : is_hex c = true -> exists d, digit_value c = Some d /\ 0 <= d < 16.
Proof. sweep_char c; vm_compute; intros H1; try discriminate; eexists; split; eauto; split; auto; discriminate. Qed.
Lemma digit_inj_lower c1 c2 d : is_upper c1 = false -> is_upper c2 = false ->
  digit_value c1 = Some d -> digit_value c2 = Some d -> c1 = c2.
Proof.
  intros U1 U2 H1 H2. unfold digit_value, is_upper in *.
  rewrite <- (ascii_nat_embedding c1), <- (ascii_nat_embedding c2). f_equal.
  set (n1 := nat_of_ascii c1) in *. set (n2 := nat_of_ascii c2) in *. clearbody n1 n2.
  repeat match goal with
  | H : (if ?b then _ else _) = _ |- _ => destruct b eqn:?; [| ]
  end; try discriminate;
  repeat match goal with H : Some _ = Some _ |- _ => inversion H; clear H; subst end;
  repeat match goal with H : (_ && _)%bool = true |- _ => apply andb_prop in H as [? ?]
                    | H : (_ && _)%bool = false |- _ => apply andb_false_iff in H end;
  rewrite ?Nat.leb_gt, ?Z.leb_le, ?Nat.leb_le in *; lia.
Qed.

Lemma lower_upper c : char_lower (upper_char c) = char_lower c.
Proof. sweep_char c; vm_compute; reflexivity. Qed.
Lemma lower_digit32 c : is_digit32 c = true -> char_lower c = c.
Proof. sweep_char c; vm_compute; intros; try discriminate; reflexivity. Qed.

Lemma str_lower_upper s : str_lower (upper s) = str_lower s.
Proof. induction s as [|c s IH]; cbn; [done|]. by rewrite lower_upper, IH. Qed.

Lemma str_lower_digits s : all_chars is_digit32 s = true -> str_lower s = s.
Proof.
  induction s as [|c s IH]; cbn; [done|]. intros [H1 H2]%andb_prop.
  by rewrite lower_digit32, IH.
Qed.

(** ** fold view of numerals *)
Fixpoint fold_digits (b : Z) (s : string) (acc : Z) : option Z :=
  match s with
  | EmptyString => Some acc
  | String c s' =>
      match digit_value c with
      | Some d => if d <? b then fold_digits b s' (acc * b + d) else None
      | None => None
      end
  end.

Lemma fold_digits_app b s1 s2 acc :
  fold_digits b (s1 ++ s2) acc =
  match fold_digits b s1 acc with Some n => fold_digits b s2 n | None => None end.
Proof.
  revert acc; induction s1 as [|c s1 IH]; intros acc; [done|].
  change (String c s1 ++ s2)%string with (String c (s1 ++ s2)). cbn.
  destruct (digit_value c); [|done]. destruct (_ <? b); [|done]. apply IH.
Qed.

Lemma app_cons c (s t : string) : (String c s ++ t)%string = String c (s ++ t)%string.
Proof. reflexivity. Qed.

Lemma app_String_assoc (s1 : string) c s2 : ((s1 ++ String c "") ++ s2)%string = (s1 ++ String c s2)%string.
Proof. induction s1 as [|c' s1 IH]; [done|]. rewrite ?app_cons. cbn [String.length plus]. f_equal. exact IH. Qed.

Lemma sapp_assoc (s1 s2 s3 : string) : ((s1 ++ s2) ++ s3)%string = (s1 ++ (s2 ++ s3))%string.
Proof. induction s1 as [|c' s1 IH]; [done|]. rewrite ?app_cons. cbn [String.length plus]. f_equal. exact IH. Qed.
Lemma sapp_nil (s1 : string) : (s1 ++ "")%string = s1.
Proof. induction s1 as [|c' s1 IH]; [done|]. rewrite ?app_cons. cbn [String.length plus]. f_equal. exact IH. Qed.
Lemma slen_app (s1 s2 : string) : String.length (s1 ++ s2) = (String.length s1 + String.length s2)%nat.
Proof. induction s1 as [|c' s1 IH]; [done|]. rewrite ?app_cons. cbn [String.length plus]. f_equal. exact IH. Qed.

Lemma denotes_fold_aux b s acc s0 n :
  denotes b s0 acc -> fold_digits b s acc = Some n -> denotes b (s0 ++ s) n.
Proof.
  revert s0 acc; induction s as [|c s IH]; intros s0 acc H0; cbn.
  - intros [= <-]. by rewrite sapp_nil.
  - destruct (digit_value c) as [d|] eqn:Hd; [|done].
    destruct (Z.ltb_spec d b) as [Hb|Hb]; [|done]. intros H.
    rewrite <- app_String_assoc. eapply IH; [|exact H]. by constructor.
Qed.

Lemma denotes_fold b s n : denotes b s n <-> fold_digits b s 0 = Some n.
Proof.
  split.
  - induction 1 as [|s n c d H IH Hd Hb]; [done|].
    rewrite fold_digits_app, IH. cbn. rewrite Hd.
    by destruct (Z.ltb_spec d b); [|lia].
  - intros H. apply (denotes_fold_aux b s 0 "" n); [constructor|done].
Qed.

Lemma denotes_fun b s n m : denotes b s n -> denotes b s m -> n = m.
Proof. rewrite !denotes_fold. congruence. Qed.

Lemma fold_digits_acc b s acc n :
  0 < b -> fold_digits b s 0 = Some n ->
  fold_digits b s acc = Some (acc * b ^ Z.of_nat (String.length s) + n).
Proof.
  intros Hb. revert acc n.
  enough (Hgen : forall acc0 acc n, fold_digits b s acc0 = Some n ->
    fold_digits b s acc = Some ((acc - acc0) * b ^ Z.of_nat (String.length s) + n)).
  { intros acc n H. rewrite (Hgen 0 acc n H). f_equal. lia. }
  induction s as [|c s IH]; intros acc0 acc n.
  - cbn. intros [= <-]. f_equal. lia.
  - cbn [fold_digits String.length]. destruct (digit_value c) as [d|]; [|done]. destruct (_ <? b); [|done].
    intros H. rewrite (IH _ (acc * b + d) _ H). f_equal.
    rewrite Nat2Z.inj_succ, Z.pow_succ_r by lia. ring.
Qed.

Lemma fold_digits_bound b s n :
  0 < b -> fold_digits b s 0 = Some n -> 0 <= n < b ^ Z.of_nat (String.length s).
Proof.
  intros Hb. revert n; induction s as [|c s IH]; intros n.
  - cbn. intros [= <-]. lia.
  - cbn [fold_digits String.length]. destruct (digit_value c) as [d|] eqn:Hd; [|done].
    destruct (Z.ltb_spec d b) as [Hdb|]; [|done]. intros H.
    pose proof (digit_nonneg _ _ Hd) as Hd0.
    destruct (fold_digits b s 0) as [m|] eqn:Hm.
    + rewrite (fold_digits_acc b s _ m Hb Hm) in H. inversion H; subst n.
      specialize (IH m eq_refl). rewrite Nat2Z.inj_succ, Z.pow_succ_r by lia. nia.
    + exfalso. revert H Hm. clear. generalize (0 * b + d) as a.
      generalize 0 as a0. induction s as [|c s IH]; intros a0 a; cbn; [done|].
      destruct (digit_value c); [|done]. destruct (_ <? b); [|done]. apply IH.
Qed.

Lemma denotes_app_inv b s1 s2 n : 0 < b ->
  denotes b (s1 ++ s2) n -> exists n1 n2,
  denotes b s1 n1 /\ denotes b s2 n2 /\ n = n1 * b ^ Z.of_nat (String.length s2) + n2.
Proof.
  intros Hb. rewrite denotes_fold, fold_digits_app.
  destruct (fold_digits b s1 0) as [n1|] eqn:H1; [|done]. intros H.
  destruct (fold_digits b s2 0) as [n2|] eqn:H2.
  - exists n1, n2. rewrite !denotes_fold. repeat split; auto.
    rewrite (fold_digits_acc b s2 n1 n2 Hb H2) in H. by inversion H.
  - exfalso. revert H H2. clear. revert n1. generalize 0 as a0. induction s2 as [|c s IH]; intros a0 a; cbn; [done|].
    destruct (digit_value c); [|done]. destruct (_ <? b); [|done]. apply IH.
Qed.

Lemma denotes_nonneg b s n : 0 < b -> denotes b s n -> 0 <= n < b ^ Z.of_nat (String.length s).
Proof. rewrite denotes_fold. apply fold_digits_bound. Qed.

Lemma all_chars_app P s1 s2 : all_chars P (s1 ++ s2) = (all_chars P s1 && all_chars P s2)%bool.
Proof. induction s1 as [|c s1 IH]; [done|]. rewrite app_cons. cbn [all_chars]. by rewrite IH, andb_assoc. Qed.

Lemma canonical_prefix s1 s2 : canonical32 (s1 ++ s2) -> canonical32 s1.
Proof.
  intros [H1 H2]. rewrite all_chars_app in H1. apply andb_prop in H1 as [H1 _]. split; [done|].
  by destruct s1.
Qed.

Lemma canonical_lower s n : canonical32 s -> s <> ""%string -> denotes 32 s n ->
  32 ^ (Z.of_nat (String.length s) - 1) <= n.
Proof.
  destruct s as [|c s]; [done|]. intros [H1 H2] _ Hden. cbn in H1. apply andb_prop in H1 as [Hc Hs].
  change (String c s) with (String c "" ++ s)%string in Hden.
  apply denotes_app_inv in Hden as (n1 & n2 & Hn1 & Hn2 & ->); [|lia].
  apply denotes_nonneg in Hn2; [|lia].
  destruct (digit32_some c Hc) as (d & Hd & Hb).
  apply denotes_fold in Hn1. cbn in Hn1. rewrite Hd in Hn1.
  destruct (Z.ltb_spec d 32); [|lia]. inversion Hn1; subst n1.
  assert (0 < d). { eapply zero_digit; eauto. intros ->. done. }
  cbn [String.length]. replace (Z.of_nat (S (String.length s)) - 1) with (Z.of_nat (String.length s)) by lia.
  assert (0 < 32 ^ Z.of_nat (String.length s)) by (apply Z.pow_pos_nonneg; lia). nia.
Qed.

Lemma log2_shift n : 0 < Z.shiftr n 5 -> Z.log2 (Z.shiftr n 5) < Z.log2 n.
Proof.
  intros H. assert (0 < n).
  { destruct (Z_lt_le_dec 0 n); [done|]. exfalso. rewrite Z.shiftr_div_pow2 in H by lia.
    pose proof (Z.div_le_upper_bound n (2^5) 0). lia. }
  rewrite Z.log2_shiftr by done.
  destruct (Z_lt_le_dec (Z.log2 n) 5) as [Hl|Hl].
  - exfalso. apply Z.log2_lt_pow2 in Hl; [|done]. rewrite Z.shiftr_div_pow2 in H by lia.
    rewrite Z.div_small in H; lia.
  - lia.
Qed.

Lemma loop_canonical s n : denotes 32 s n -> canonical32 s -> forall fuel acc,
  (0 < n -> Z.log2 n < Z.of_nat fuel) ->
  int_to_base32_loop fuel n acc = Ok (s ++ acc)%string.
Proof.
  induction 1 as [|s n c d H IH Hd Hb]; intros Hcan fuel acc Hf.
  - by destruct fuel.
  - pose proof (canonical_prefix _ _ Hcan) as Hcs.
    assert (Hc : is_digit32 c = true).
    { destruct Hcan as [Ha _]. rewrite all_chars_app in Ha. apply andb_prop in Ha as [_ Ha].
      cbn in Ha. by rewrite andb_true_r in Ha. }
    pose proof (denotes_nonneg 32 s n ltac:(lia) H) as Hn.
    pose proof (digit_nonneg _ _ Hd) as Hd0.
    assert (Hpos : 0 < n * 32 + d).
    { destruct (decide (s = ""%string)) as [->|Hne].
      - apply denotes_fold in H. inversion H; subst n.
        assert (0 < d); [|lia]. eapply zero_digit; eauto. intros ->. by destruct Hcan.
      - pose proof (canonical_lower s n Hcs Hne H) as Hl.
        destruct s as [|c' s]; [done|]. cbn [String.length] in Hl.
        assert (0 < 32 ^ (Z.of_nat (S (String.length s)) - 1)) by (apply Z.pow_pos_nonneg; lia). lia. }
    specialize (Hf Hpos). destruct fuel as [|fuel].
    { pose proof (Z.log2_nonneg (n*32+d)). lia. }
    assert (Hland : Z.land (n * 32 + d) 31 = d).
    { change 31 with (Z.ones 5). rewrite Z.land_ones by lia. change (2^5) with 32.
      rewrite Z.add_comm, Z.mod_add by lia. apply Z.mod_small; lia. }
    assert (Hshr : Z.shiftr (n * 32 + d) 5 = n).
    { rewrite Z.shiftr_div_pow2 by lia. change (2^5) with 32. rewrite Z.div_add_l by lia.
      rewrite Z.div_small; lia. }
    cbn [int_to_base32_loop]. destruct (Z.ltb_spec 0 (n*32+d)); [|lia].
    rewrite Hland, Hshr. destruct (digit32_get c d Hc Hd) as [-> _].
    rewrite IH; [by rewrite app_String_assoc|done|].
    intros Hn0. rewrite <- Hshr. pose proof (log2_shift (n*32+d)). rewrite Hshr in *. lia.
Qed.

Lemma convert_canonical s n : denotes 32 s n -> canonical32 s -> convert_int_to_base32 n = Ok s.
Proof.
  intros H1 H2. unfold convert_int_to_base32. rewrite (loop_canonical s n H1 H2), sapp_nil; [done|].
  intros Hn. pose proof (Z.log2_nonneg n). lia.
Qed.

Lemma canonical_snoc s c : canonical32 s -> is_digit32 c = true -> (s = ""%string -> c <> "0"%char) ->
  canonical32 (s ++ String c "").
Proof.
  intros [H1 H2] Hc Hne. split.
  - rewrite all_chars_app, H1. cbn. by rewrite Hc.
  - destruct s as [|c' s]; cbn in *.
    + specialize (Hne eq_refl). sweep_char c; try done.
    + destruct c' as [[] [] [] [] [] [] [] []]; done.
Qed.

Lemma exists_canonical n : 0 <= n -> exists s, denotes 32 s n /\ canonical32 s.
Proof.
  intros Hn. pattern n. apply (Zlt_lower_bound_ind _ 0); [|exact Hn]. clear n Hn.
  intros n IH Hn. destruct (Z.eq_dec n 0) as [->|Hn0].
  - exists ""%string. split; [constructor|]. by split.
  - pose proof (Z.div_mod n 32 ltac:(lia)) as Hdm. pose proof (Z.mod_pos_bound n 32 ltac:(lia)) as Hm.
    destruct (IH (n / 32)) as (s & Hs1 & Hs2).
    { split; [apply Z.div_pos; lia|]. apply Z.div_lt; lia. }
    destruct (get_digit32 (n mod 32) Hm) as (c & _ & Hc1 & Hc2).
    exists (s ++ String c "")%string. split.
    + replace n with (n / 32 * 32 + n mod 32) by lia. constructor; auto; lia.
    + apply canonical_snoc; auto. intros -> ->. apply denotes_fold in Hs1. inversion Hs1 as [Hz].
      change (Some 0 = Some (n mod 32)) in Hc2. inversion Hc2. lia.
Qed.

Lemma canonical_unique s1 s2 n : canonical32 s1 -> canonical32 s2 ->
  denotes 32 s1 n -> denotes 32 s2 n -> s1 = s2.
Proof.
  intros C1 C2 D1 D2. pose proof (convert_canonical _ _ D1 C1). pose proof (convert_canonical _ _ D2 C2).
  congruence.
Qed.

Lemma decode_loop s acc : all_chars is_digit32 s = true ->
  base32_to_int_loop s acc = match fold_digits 32 s acc with Some n => Ok n | None => Err KeyError end.
Proof.
  revert acc; induction s as [|c s IH]; intros acc; cbn; [done|]. intros [Hc Hs]%andb_prop.
  rewrite map_spec, Hc. destruct (digit32_some c Hc) as (d & -> & Hd).
  destruct (Z.ltb_spec d 32); [|lia]. by apply IH.
Qed.

Lemma decode_digits s : all_chars is_digit32 s = true ->
  exists n, convert_base_32_to_int s = Ok n /\ denotes 32 s n.
Proof.
  intros H. unfold convert_base_32_to_int. rewrite str_lower_digits by done.
  rewrite decode_loop by done.
  assert (Hsome : forall acc, exists n, fold_digits 32 s acc = Some n).
  { revert H. clear. induction s as [|c s IH]; cbn; intros H acc; [eauto|].
    apply andb_prop in H as [Hc Hs]. destruct (digit32_some c Hc) as (d & -> & Hd).
    destruct (Z.ltb_spec d 32); [|lia]. eauto. }
  destruct (Hsome 0) as [n Hn]. exists n. rewrite Hn. split; [done|]. by apply denotes_fold.
Qed.

Lemma encode_decode n : 0 <= n -> exists s,
  convert_int_to_base32 n = Ok s /\ convert_base_32_to_int s = Ok n /\ canonical32 s /\ denotes 32 s n.
Proof.
  intros Hn. destruct (exists_canonical n Hn) as (s & Hd & Hc).
  exists s. split; [by apply convert_canonical|]. split; [|done].
  destruct (decode_digits s) as (m & Hm & Hdm); [apply Hc|].
  by rewrite (denotes_fun _ _ _ _ Hd Hdm).
Qed.

Lemma decode_encode s : canonical32 s -> exists n,
  convert_base_32_to_int s = Ok n /\ 0 <= n /\ convert_int_to_base32 n = Ok s /\ denotes 32 s n.
Proof.
  intros Hc. destruct (decode_digits s) as (m & Hm & Hdm); [apply Hc|].
  exists m. split; [done|]. split; [by eapply denotes_nonneg in Hdm; [|lia]; lia|].
  split; [by apply convert_canonical|done].
Qed.

Lemma encode_nonpos n : n <= 0 -> convert_int_to_base32 n = Ok ""%string.
Proof.
  intros H. unfold convert_int_to_base32. cbn. destruct (Z.ltb_spec 0 n); [lia|done].
Qed.

Lemma decode_case s : convert_base_32_to_int (upper s) = convert_base_32_to_int s.
Proof. unfold convert_base_32_to_int. by rewrite str_lower_upper. Qed.

Lemma lower_digit_char c : is_digit32 (char_lower c) = (is_digit32 c || (is_digit32 (char_lower c) && is_upper c))%bool.
Proof. sweep_char c; vm_compute; reflexivity. Qed.

Lemma decode_loop_err s acc e : base32_to_int_loop s acc = Err e -> e = KeyError.
Proof.
  revert acc; induction s as [|c s IH]; intros acc; cbn; [done|].
  destruct (dict_get c _); [apply IH|]. by intros [= <-].
Qed.

Lemma anydigit_lower c : is_digit32 (char_lower c) = anydigit c.
Proof. sweep_char c; vm_compute; reflexivity. Qed.

Lemma decode_ok_iff s : is_ok (convert_base_32_to_int s) = all_chars anydigit s.
Proof.
  unfold convert_base_32_to_int. generalize 0 as acc.
  induction s as [|c s IH]; intros acc; cbn; [done|].
  rewrite map_spec, anydigit_lower. destruct (anydigit c) eqn:Hc; [|done].
  destruct (digit32_some (char_lower c)) as (d & -> & _); [by rewrite anydigit_lower|].
  apply IH.
Qed.

Lemma decode_keyerror s :
  all_chars anydigit s = false -> convert_base_32_to_int s = Err KeyError.
Proof.
  intros H. rewrite <- decode_ok_iff in H. destruct (convert_base_32_to_int s) as [|e] eqn:He; [done|].
  unfold convert_base_32_to_int in He. by rewrite (decode_loop_err _ _ _ He).
Qed.

(** ** hexadecimal *)
Lemma int16_loop_spec s acc : all_chars is_hex s = true ->
  int16_loop s acc = match fold_digits 16 s acc with Some n => Ok n | None => Err ValueError end.
Proof.
  revert acc; induction s as [|c s IH]; intros acc; cbn; [done|]. intros [Hc Hs]%andb_prop.
  rewrite hex_spec, Hc. destruct (hex_some c Hc) as (d & -> & Hd).
  destruct (Z.ltb_spec d 16); [|lia]. by apply IH.
Qed.

Lemma hex_denotes s : all_chars is_hex s = true -> exists n, denotes 16 s n /\ int16_loop s 0 = Ok n.
Proof.
  intros H. rewrite int16_loop_spec by done.
  assert (Hsome : forall acc, exists n, fold_digits 16 s acc = Some n).
  { revert H. clear. induction s as [|c s IH]; cbn; intros H acc; [eauto|].
    apply andb_prop in H as [Hc Hs]. destruct (hex_some c Hc) as (d & -> & Hd).
    destruct (Z.ltb_spec d 16); [|lia]. eauto. }
  destruct (Hsome 0) as [n Hn]. exists n. rewrite Hn. split; [|done]. by apply denotes_fold.
Qed.

Lemma hex_convert h : all_chars is_hex h = true -> exists n s,
  denotes 16 h n /\ convert_base16_to_base32 h = Ok s /\ denotes 32 s n
  /\ (0 < n -> s <> ""%string /\ canonical32 s)
  /\ (h <> ""%string -> canonical32 s).
Proof.
  intros Hh. destruct (hex_denotes h Hh) as (n & Hn & Hi).
  pose proof (denotes_nonneg 16 h n ltac:(lia) Hn) as Hb.
  destruct h as [|c h].
  - exists n, "0"%string. apply denotes_fold in Hn. inversion Hn; subst.
    split; [constructor|]. split; [done|]. split; [by apply denotes_fold|]. split; [lia|done].
  - destruct (encode_decode n) as (s & He & _ & Hc & Hd); [lia|].
    exists n, s. split; [done|]. split.
    { unfold convert_base16_to_base32, int16. rewrite Hi. exact He. }
    split; [done|]. split; [|done]. intros Hpos. split; [|done]. intros ->.
    apply denotes_fold in Hd. inversion Hd. lia.
Qed.

Lemma denotes_inj_len b s1 s2 n : 0 < b ->
  all_chars (fun c => negb (is_upper c)) s1 = true -> all_chars (fun c => negb (is_upper c)) s2 = true ->
  String.length s1 = String.length s2 -> denotes b s1 n -> denotes b s2 n -> s1 = s2.
Proof.
  intros Hb U1 U2 HL D1. revert s2 U2 HL.
  induction D1 as [|s n c d H IH Hd Hdb]; intros s2 U2 HL D2.
  - by destruct s2.
  - inversion D2 as [Hs2 Hn|s' n' c' d' H' Hd' Hb' Hs' Hn'].
    + subst s2. rewrite slen_app in HL. cbn in HL. lia.
    + subst s2. pose proof (digit_nonneg _ _ Hd). pose proof (digit_nonneg _ _ Hd').
      assert (n' = n /\ d' = d) as [-> ->]
        by (destruct (Z.div_mod_unique b n' n d' d); [lia|lia|lia|lia]).
      rewrite !slen_app in HL. cbn in HL.
      rewrite !all_chars_app in U1, U2. cbn in U1, U2. rewrite !andb_true_r in U1, U2.
      apply andb_prop in U1 as [U1 Uc1]. apply andb_prop in U2 as [U2 Uc2].
      rewrite (IH U1 s'); auto; [|lia].
      rewrite (digit_inj_lower c c' d); auto; by apply negb_true_iff.
Qed.

Lemma hex_convert_inj h1 h2 s : all_chars is_hex h1 = true -> all_chars is_hex h2 = true ->
  all_chars (fun c => negb (is_upper c)) h1 = true -> all_chars (fun c => negb (is_upper c)) h2 = true ->
  String.length h1 = String.length h2 ->
  convert_base16_to_base32 h1 = Ok s -> convert_base16_to_base32 h2 = Ok s -> h1 = h2.
Proof.
  intros H1 H2 U1 U2 HL E1 E2.
  destruct (hex_convert h1 H1) as (n1 & s1 & D1 & F1 & G1 & _).
  destruct (hex_convert h2 H2) as (n2 & s2 & D2 & F2 & G2 & _).
  assert (s1 = s) as -> by congruence. assert (s2 = s) as -> by congruence.
  assert (n1 = n2) as -> by (eapply denotes_fun; eauto).
  eapply (denotes_inj_len 16); eauto. lia.
Qed.

(** ** truncation *)
Lemma str_take_ge k s : (String.length s <= k)%nat -> str_take k s = s.
Proof.
  unfold str_take. revert k; induction s as [|c s IH]; intros k; cbn; [by destruct k|].
  intros H. destruct k as [|k]; [lia|]. cbn. by rewrite IH; [|lia].
Qed.

Lemma str_take_split k s : (k <= String.length s)%nat ->
  exists t, s = (str_take k s ++ t)%string /\ String.length (str_take k s) = k.
Proof.
  unfold str_take. revert k; induction s as [|c s IH]; intros k; cbn.
  - intros H. assert (k = 0%nat) as -> by lia. by exists ""%string.
  - destruct k as [|k]; intros H.
    + by exists (String c s).
    + destruct (IH k) as (t & Ht & Hl); [lia|]. exists t. cbn. split; [|by rewrite Hl].
      by rewrite Ht at 1.
Qed.

Lemma take_denotes s n k : canonical32 s -> denotes 32 s n -> (k <= String.length s)%nat ->
  denotes 32 (str_take k s) (n / 32 ^ Z.of_nat (String.length s - k)) /\ canonical32 (str_take k s).
Proof.
  intros Hc Hd Hk. destruct (str_take_split k s Hk) as (t & Ht & Hl).
  rewrite Ht in Hc. split; [|by eapply canonical_prefix].
  pose proof Hd as Hd'. rewrite Ht in Hd'. apply denotes_app_inv in Hd' as (n1 & n2 & D1 & D2 & ->); [|lia].
  apply denotes_nonneg in D2; [|lia].
  assert (String.length s = k + String.length t)%nat as Hls by (rewrite Ht at 1; rewrite slen_app, Hl; lia).
  replace (String.length s - k)%nat with (String.length t) by lia.
  assert (0 < 32 ^ Z.of_nat (String.length t)) by (apply Z.pow_pos_nonneg; lia).
  rewrite Z.div_add_l by lia. rewrite (Z.div_small n2) by lia. by rewrite Z.add_0_r.
Qed.

Lemma canonical_length s n k : canonical32 s -> denotes 32 s n -> 0 < n ->
  32 ^ (Z.of_nat k - 1) <= n < 32 ^ Z.of_nat k -> String.length s = k.
Proof.
  intros Hc Hd Hn Hk.
  assert (s <> ""%string) as Hne. { intros ->. apply denotes_fold in Hd. inversion Hd. lia. }
  pose proof (canonical_lower s n Hc Hne Hd) as Hl. pose proof (denotes_nonneg 32 s n ltac:(lia) Hd) as Hu.
  destruct s as [|c s]; [done|]. set (L := String.length (String c s)) in *.
  assert (1 <= L)%nat by (unfold L; cbn; lia).
  destruct (lt_eq_lt_dec L k) as [[Hlt|Heq]|Hlt]; [|done|].
  - exfalso. assert (32 ^ Z.of_nat L <= 32 ^ (Z.of_nat k - 1)) by (apply Z.pow_le_mono_r; lia). lia.
  - exfalso. assert (32 ^ Z.of_nat k <= 32 ^ (Z.of_nat L - 1)) by (apply Z.pow_le_mono_r; lia). lia.
Qed.

Lemma all_chars_take P k s : all_chars P s = true -> all_chars P (str_take k s) = true.
Proof.
  unfold str_take. revert k; induction s as [|c s IH]; intros k; cbn; [by destruct k|].
  intros [H1 H2]%andb_prop. destruct k as [|k]; [done|]. cbn. by rewrite H1, IH.
Qed.

Lemma str_take_length k s : (String.length (str_take k s) <= k)%nat.
Proof.
  destruct (le_lt_dec (String.length s) k) as [H|H].
  - by rewrite str_take_ge.
  - destruct (str_take_split k s ltac:(lia)) as (t & _ & ->). lia.
Qed.

Lemma signature_shape n : 0 <= n -> exists s, random_signature_of_int n = Ok s
  /\ (String.length s <= 22)%nat /\ all_chars is_digit32 s = true
  /\ (32 ^ 21 <= n -> String.length s = 22%nat).
Proof.
  intros Hn. destruct (encode_decode n Hn) as (s & He & _ & Hc & Hd).
  unfold random_signature_of_int. rewrite He. cbn. exists (str_take max_signature_length s).
  split; [done|]. split; [apply str_take_length|]. split; [apply all_chars_take, Hc|].
  intros Hbig. destruct (le_lt_dec 22 (String.length s)) as [H|H].
  - by destruct (str_take_split 22 s H) as (t & _ & Hl).
  - exfalso. pose proof (denotes_nonneg 32 s n ltac:(lia) Hd) as Hu.
    assert (32 ^ Z.of_nat (String.length s) <= 32 ^ 21) by (apply Z.pow_le_mono_r; lia). lia.
Qed.

Lemma signature_eq k n1 n2 : 0 < n1 -> 0 < n2 ->
  32 ^ (Z.of_nat k - 1) <= n1 < 32 ^ Z.of_nat k ->
  32 ^ (Z.of_nat k - 1) <= n2 < 32 ^ Z.of_nat k ->
  random_signature_of_int n1 = random_signature_of_int n2 <->
  n1 / 32 ^ (Z.of_nat k - Z.min (Z.of_nat k) 22) = n2 / 32 ^ (Z.of_nat k - Z.min (Z.of_nat k) 22).
Proof.
  intros P1 P2 B1 B2.
  destruct (encode_decode n1) as (s1 & E1 & _ & C1 & D1); [lia|].
  destruct (encode_decode n2) as (s2 & E2 & _ & C2 & D2); [lia|].
  pose proof (canonical_length s1 n1 k C1 D1 P1 B1) as L1.
  pose proof (canonical_length s2 n2 k C2 D2 P2 B2) as L2.
  unfold random_signature_of_int. rewrite E1, E2. cbn.
  assert (Hm : forall s, String.length s = k -> str_take max_signature_length s = str_take (Nat.min k 22) s).
  { intros s Hs. unfold max_signature_length. destruct (le_lt_dec 22 k).
    - by rewrite Nat.min_r by lia.
    - rewrite Nat.min_l by lia. by rewrite !str_take_ge by lia. }
  rewrite (Hm s1 L1), (Hm s2 L2).
  destruct (take_denotes s1 n1 (Nat.min k 22) C1 D1 ltac:(lia)) as [T1 K1].
  destruct (take_denotes s2 n2 (Nat.min k 22) C2 D2 ltac:(lia)) as [T2 K2].
  rewrite L1 in T1. rewrite L2 in T2.
  replace (Z.of_nat (k - Nat.min k 22)) with (Z.of_nat k - Z.min (Z.of_nat k) 22) in * by lia.
  split.
  - intros [= Heq]. rewrite Heq in T1. by eapply denotes_fun.
  - intros Heq. f_equal. rewrite Heq in T1. by eapply canonical_unique.
Qed.

Lemma hash_signature_as_random h n : h <> ""%string -> all_chars is_hex h = true -> denotes 16 h n ->
  hash_signature_of_digest h = random_signature_of_int n.
Proof.
  intros Hne Hh Hd. destruct (hex_convert h Hh) as (m & s & Dm & Es & Ds & _ & Hc).
  assert (m = n) as -> by exact (denotes_fun 16 h m n Dm Hd).
  unfold hash_signature_of_digest, random_signature_of_int. rewrite Es.
  rewrite (convert_canonical s n Ds (Hc Hne)). reflexivity.
Qed.
