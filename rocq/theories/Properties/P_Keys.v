(** C127: which keys can be stored. *)
From Coq Require Import String Ascii NArith Lia.
From stdpp Require Import list numbers strings pretty.
From Verif Require Import Lib.Py Model.Stamps Model.Base32 Model.HashAddr Spec.Numerals Spec.StampsSpec Spec.KeysSpec Properties.P_Base32 Properties.P_Stamps.
Local Open Scope nat_scope.

Lemma all_app P s t : all_chars P (s ++ t)%string = all_chars P s && all_chars P t.
Proof. induction s as [|c s IH]; [done|]. change (String c s ++ t)%string with (String c (s ++ t)%string). cbn [all_chars]. by rewrite IH, andb_assoc. Qed.
Lemma all_weaken (P Q : ascii -> bool) s : (forall c, P c = true -> Q c = true) -> all_chars P s = true -> all_chars Q s = true.
Proof. intros H. induction s as [|c s IH]; [done|]. cbn [all_chars]. rewrite !andb_true_iff. intros [? ?]. auto. Qed.
Lemma digit_word n : n < 10 -> word_char (digit n) = true.
Proof. intros H. do 10 (destruct n as [|n]; [reflexivity|]). lia. Qed.
Lemma two_words n : n < 100 -> all_chars word_char (two n) = true.
Proof.
  intros H. unfold two. cbn [all_chars]. rewrite !digit_word; [done|apply Nat.mod_upper_bound; lia|apply Nat.div_lt_upper_bound; lia].
Qed.
Lemma date_words d : inside d -> year d < 100 * 100 -> all_chars word_char (date_text d) = true /\ date_text d <> ""%string.
Proof.
  intros [Hm Hd] Hy. pose proof (days_in_bounds (year d) (month d)). split; [|done]. unfold date_text, four. rewrite !all_app.
  assert (year d / 100 < 100) by (apply Nat.div_lt_upper_bound; lia). assert (year d mod 100 < 100) by (apply Nat.mod_upper_bound; lia).
  rewrite !two_words by lia. cbn [andb all_chars].
  assert (all_chars word_char (month_name (month d)) = true) as M; [|rewrite M; reflexivity].
  destruct (month d) as [|[|[|[|[|[|[|[|[|[|[|[|m]]]]]]]]]]]]; reflexivity.
Qed.
Lemma app_nonempty s t : t <> ""%string -> (s ++ t)%string <> ""%string.
Proof. intros H. by destruct s. Qed.
Lemma cons_nonempty a b x : (a ++ String b "" ++ x)%string <> ""%string.
Proof. apply app_nonempty. change (String b x <> "")%string. done. Qed.
Lemma id_nonempty w xname random frame : exception_id w xname random frame <> ""%string.
Proof. unfold exception_id. destruct w, frame as [[? ?]|]; apply cons_nonempty. Qed.
(** Logging an exception: the keys are accepted exactly if the names of the function, its island and the class of the exception consist of
    allowed characters - in particular if they are made of letters, digits and underscores. *)
Theorem C127_crash_keys : forall allowed w xname random frame s, allows_words allowed -> year (utc_date s) < 100 * 100 ->
  all_chars word_char random = true ->
  match frame with Some (session, n) => all_chars word_char session = true /\ all_chars word_char n = true | None => True end ->
  (forall k, In k (crash_keys w xname random frame s) -> accepted allowed k) <->
  all_chars allowed xname = true /\ Forall (fun x => all_chars allowed x = true) (names_of w).
Proof.
  intros allowed w xname random frame s Ha Hy Hr Hf.
  assert (forall x, all_chars word_char x = true -> all_chars allowed x = true) as W by (intros x; by apply all_weaken).
  destruct (date_words (utc_date s) (date_valid _) Hy) as [D Dn]. apply W in D. apply W in Hr.
  assert (all_chars allowed "_" = true /\ all_chars allowed "__CATCH_ALL__" = true /\ all_chars allowed "_ORD" = true /\ all_chars allowed "_AUTON" = true /\ all_chars allowed "_PURE" = true)
    as (U & C & O & A & P) by (split; [|split; [|split; [|split]]]; apply W; reflexivity).
  pose proof (id_nonempty w xname random frame) as In0.
  assert (all_chars allowed (exception_id w xname random frame) = true <->
    all_chars allowed xname = true /\ Forall (fun x => all_chars allowed x = true) (names_of w)) as I.
  { unfold exception_id. destruct w as [|f|f i|f i], frame as [[ses n]|]; try (destruct Hf as [Hs%W Hn%W]);
      rewrite !all_app, ?U, ?Hr, ?Hs, ?Hn; cbn [names_of andb]; rewrite ?Forall_cons, ?andb_true_r, ?andb_true_iff; intuition auto. }
  unfold accepted. split.
  - intros H. apply I. specialize (H ["__CATCH_ALL__"; current_date_gmt_string s; exception_id w xname random frame]%string).
    assert (In ["__CATCH_ALL__"; current_date_gmt_string s; exception_id w xname random frame]%string (crash_keys w xname random frame s)) as X by (destruct w; cbn; auto).
    apply H in X. rewrite !Forall_cons in X. tauto.
  - intros H k Hk. pose proof H as H'. apply I in H'. destruct H as [_ H].
    assert (Forall (fun part => part <> ""%string /\ all_chars allowed part = true) ["__CATCH_ALL__"; current_date_gmt_string s; exception_id w xname random frame]%string) as F.
    { repeat constructor; try done. }
    destruct w as [|f|f i|f i]; cbn in Hk; repeat (destruct Hk as [<-|Hk]); try done; cbn [names_of] in H; rewrite ?Forall_cons in H; constructor; try (by repeat constructor).
    all: split; [first [by apply app_nonempty|apply cons_nonempty]|]; rewrite !all_app, ?O, ?A, ?P, ?U; rewrite ?andb_true_iff; tauto.
Qed.
Print Assumptions C127_crash_keys.
(** Logging an event: exactly if the identifier given is not empty and has allowed characters only. *)
Theorem C127_event_keys : forall allowed e random s, allows_words allowed -> year (utc_date s) < 100 * 100 ->
  all_chars word_char random = true -> random <> ""%string ->
  accepted allowed (event_key e random s) <-> match e with Some x => x <> ""%string /\ all_chars allowed x = true | None => True end.
Proof.
  intros allowed e random s Ha Hy Hr Hn. destruct (date_words (utc_date s) (date_valid _) Hy) as [D Dn].
  unfold accepted, event_key. rewrite !Forall_cons. unfold current_date_gmt_string. apply (all_weaken _ _ _ Ha) in D, Hr. destruct e; split; intuition auto.
Qed.
Print Assumptions C127_event_keys.

(** ** Addresses as keys *)
Definition L := list_ascii_of_string.
Lemma all_L P s : all_chars P s = forallb P (L s).
Proof. induction s as [|c s IH]; [done|]. cbn. by rewrite IH. Qed.
Lemma all_take P n s : all_chars P s = true -> all_chars P (str_take n s) = true.
Proof.
  unfold str_take. revert n. induction s as [|c s IH]; intros [|n]; cbn; try done.
  rewrite !andb_true_iff. intros [-> H]. split; [done|]. by apply IH.
Qed.
Lemma digit32_word c : is_digit32 c = true -> word_char c = true.
Proof. destruct c as [[] [] [] [] [] [] [] []]; vm_compute; done. Qed.
Lemma hex_signature_words h s : all_chars is_hex h = true -> hash_signature_of_digest h = Ok s -> all_chars word_char s = true.
Proof.
  intros Hh. unfold hash_signature_of_digest. destruct (C02_hex_to_base32_same_number h Hh) as (n & t & Dn & Ct & Dt & Hc & Hc').
  rewrite Ct. cbn. intros [= <-]. apply all_take. destruct (decide (h = ""%string)) as [->|Hne].
  - vm_compute in Ct. injection Ct as <-. reflexivity.
  - destruct (Hc' Hne) as [H _]. revert H. apply all_weaken. exact digit32_word.
Qed.
Lemma pretty_go_words x s : all_chars word_char s = true -> all_chars word_char (pretty_N_go x s) = true.
Proof.
  revert s. induction (N.lt_wf_0 x) as [x _ IH]; intros s Hs.
  destruct (decide (0 < x)%N) as [Hx|Hx].
  - rewrite pretty_N_go_step by done. apply IH; [by apply N.div_lt|]. cbn [all_chars]. rewrite Hs, andb_true_r.
    unfold pretty_N_char. by repeat case_match.
  - assert (x = 0%N) as -> by lia. by rewrite pretty_N_go_0.
Qed.
Lemma pretty_words (x : N) : all_chars word_char (pretty x) = true.
Proof. unfold pretty, pretty_N. case_decide; [done|]. by apply pretty_go_words. Qed.
Lemma drop_last_words k s : all_chars word_char s = true -> all_chars word_char (str_drop_last k s) = true.
Proof. apply (all_take word_char). Qed.
Lemma descriptor_words st : all_chars word_char (descriptor_of st) = true.
Proof.
  destruct st as [dims|n|]; cbn [descriptor_of]; [|by rewrite !all_app, pretty_words|done].
  unfold shape_descriptor. rewrite all_app. rewrite drop_last_words; [done|].
  assert (forall s, all_chars word_char s = true -> all_chars word_char (fold_left (fun d n => String.append d (String.append (pretty n) shape_connector)) dims s) = true) as F.
  { induction dims as [|n dims IH]; intros s Hs; [done|]. cbn [fold_left]. apply IH. rewrite !all_app, Hs, pretty_words. done. }
  by apply F.
Qed.
(** The second part of the address of a value is always accepted; the first one - and with it the address - exactly if the name
    of the class of the value, in lower case, consists of allowed characters. *)
Theorem C127_addresses : forall allowed x p h, allows_words allowed -> all_chars is_hex (o_digest16 x) = true ->
  address_text x = Ok (p, h) ->
  all_chars allowed h = true /\ (all_chars allowed p = true <-> all_chars allowed (str_lower (o_class x)) = true) /\
  (all_chars word_char (o_class x) = true -> all_chars allowed p = true).
Proof.
  intros allowed x p h Ha Hx. unfold address_text, build_hash_signature.
  destruct (hash_signature_of_digest (o_digest16 x)) as [s|e] eqn:E; [|done]. cbn. intros [= <- <-].
  split; [|split; [done|]].
  - apply (all_weaken word_char); [exact Ha|]. rewrite all_app, descriptor_words. by apply hex_signature_words in E.
  - intros Hw. apply (all_weaken word_char); [exact Ha|]. unfold build_prefix. revert Hw. generalize (o_class x).
    intros t. unfold str_lower. induction t as [|c t IH]; [done|]. cbn. rewrite !andb_true_iff. intros [H1 H2]. split; [|by apply IH].
    revert H1. destruct c as [[] [] [] [] [] [] [] []]; vm_compute; done.
Qed.
Print Assumptions C127_addresses.
(** some characters that a dictionary might allow: letters, digits and _ - . ( ) ! ~ *)
Definition safe_char (c : ascii) : bool := word_char c || existsb (fun d => nat_of_ascii c =? nat_of_ascii d) ["-"; "."; "("; ")"; "!"; "~"]%char.
Lemma safe_allows_words : allows_words safe_char.
Proof. intros c H. unfold safe_char. by rewrite H. Qed.
(** ** C127 is false *)
(** An exception of a function of the island "my island" cannot be logged if the space is not allowed; an event with the identifier
    "value 7" neither. *)
Theorem C127_names_are_not_cleaned_refuted : forall allowed random frame s, allows_words allowed -> allowed " "%char = false ->
  year (utc_date s) < 100 * 100 -> all_chars word_char random = true -> random <> ""%string ->
  match frame with Some (session, n) => all_chars word_char session = true /\ all_chars word_char n = true | None => True end ->
  (exists k, In k (crash_keys (ByPure "f" "my island") "KeyError" random frame s) /\ ~ accepted allowed k) /\
  ~ accepted allowed (event_key (Some "value 7"%string) random s).
Proof.
  intros allowed random frame s Ha Hs Hy Hr Hn Hf.
  assert (forall t, existsb (fun c => nat_of_ascii c =? 32) (L t) = true -> all_chars allowed t <> true) as NO.
  { intros t E A. rewrite all_L, forallb_forall in A. apply existsb_exists in E as (c & Hc & E). apply Nat.eqb_eq in E.
    apply A in Hc. assert (c = " "%char) as -> by (rewrite <- (ascii_nat_embedding c), E; reflexivity). congruence. }
  split.
  - destruct (List.Forall_Exists_dec (accepted allowed)) with (l := crash_keys (ByPure "f" "my island") "KeyError" random frame s) as [F|E].
    { intros k. unfold accepted. apply Forall_dec. intros part. apply _. }
    + exfalso. assert (forall k, In k (crash_keys (ByPure "f" "my island") "KeyError" random frame s) -> accepted allowed k) as A
        by by apply List.Forall_forall.
      apply (C127_crash_keys _ _ _ _ _ _ Ha Hy Hr Hf) in A as [_ A]. cbn [names_of] in A.
      rewrite !Forall_cons in A. destruct A as (_ & A & _). revert A. by apply NO.
    + apply List.Exists_exists in E. exact E.
  - intros A. apply (C127_event_keys _ _ _ _ Ha Hy Hr Hn) in A as [_ A]. revert A. by apply NO.
Qed.
Print Assumptions C127_names_are_not_cleaned_refuted.
(** A value of a class whose name has a character that is not allowed (here é, code 233) has an address that is not accepted. *)
Theorem C127_class_names_are_not_cleaned_refuted : exists x p h, all_chars is_hex (o_digest16 x) = true /\ address_text x = Ok (p, h) /\
  forall allowed, allows_words allowed -> allowed (ascii_of_nat 233) = false -> ~ accepted allowed [p; h].
Proof.
  exists (Obj ("Caf" ++ String (ascii_of_nat 233) "")%string Plain "ff"). eexists _, _. split; [reflexivity|]. split; [vm_compute; reflexivity|].
  intros allowed _ Hc. unfold accepted. rewrite !Forall_cons. intros ((_ & H) & _). rewrite all_L, forallb_forall in H.
  rewrite H in Hc; [done|]. vm_compute. auto 10.
Qed.
Print Assumptions C127_class_names_are_not_cleaned_refuted.
(** The hypotheses are met by ordinary names. *)
Example C127_example : (forall k, In k (crash_keys (ByPure "my_function" "Samos") "ZeroDivisionError" "v0a" (Some ("ab1", "0")%string) 1700000000) -> accepted safe_char k) /\
  accepted safe_char (event_key (Some "value_7") "v0a" 1700000000) /\ accepted safe_char ["ndarray"; "shape_2_x_30_7v"]%string /\
  year (utc_date 1700000000) = 2023.
Proof.
  assert (year (utc_date 1700000000) = 2023) as Y by (vm_compute; reflexivity).
  split; [|split; [|split; [|done]]].
  - apply C127_crash_keys; [exact safe_allows_words|rewrite Y; lia|reflexivity|split; reflexivity|]. split; [reflexivity|].
    cbn [names_of]. repeat constructor.
  - apply C127_event_keys; [exact safe_allows_words|rewrite Y; lia|reflexivity|done|]. split; [done|reflexivity].
  - repeat constructor; done.
Qed.
