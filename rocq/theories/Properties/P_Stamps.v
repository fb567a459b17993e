(** C123: log folders tell days apart, in order.  C124: ... and functions. *)
From Coq Require Import String Ascii NArith Lia.
From stdpp Require Import list numbers strings.
From Verif Require Import Lib.Py Model.Stamps Spec.StampsSpec.
Local Open Scope nat_scope.

(** ** The calendar *)
Lemma days_in_bounds y m : 28 <= days_in y m <= 31.
Proof. unfold days_in. destruct m as [|[|[|[|[|[|[|[|[|[|[|[|m]]]]]]]]]]]]; cbn [days_in]; try destruct (leap y); lia. Qed.
Definition inside (d : date) : Prop := 1 <= month d <= 12 /\ 1 <= day d <= days_in (year d) (month d).
Lemma leap_is y : leap y = true <-> leap_year y.
Proof.
  assert (forall a, a <> 0 -> (y mod a =? 0) = true <-> Nat.divide a y) as D by (intros a Ha; rewrite Nat.eqb_eq; by apply Nat.mod_divide).
  unfold leap, leap_year. rewrite orb_true_iff, andb_true_iff, negb_true_iff, <- not_true_iff_false, !D by done. done.
Qed.
Lemma last_is y m d : last_day y m d <-> 1 <= m <= 12 /\ d = days_in y m.
Proof.
  pose proof (leap_is y) as L. unfold last_day. split.
  - intros [[H ->]|[[H ->]|[-> [[H ->]|[H ->]]]]].
    + cbn in H. destruct H as [<-|[<-|[<-|[<-|[<-|[<-|[<-|H]]]]]]]; [split; [lia|done]..|done].
    + cbn in H. destruct H as [<-|[<-|[<-|[<-|H]]]]; [split; [lia|done]..|done].
    + apply L in H. split; [lia|]. cbn. by rewrite H.
    + split; [lia|]. cbn. destruct (leap y); [|done]. by destruct H; apply L.
  - intros [Hm ->]. destruct m as [|[|[|[|[|[|[|[|[|[|[|[|[|m]]]]]]]]]]]]]; try lia; cbn [days_in].
    all: try (left; split; [cbn; tauto|reflexivity]).
    all: try (right; left; split; [cbn; tauto|reflexivity]).
    right; right. split; [done|]. destruct (leap y); [left; split; [by apply L|done]|right; split; [intros X; apply L in X; done|done]].
Qed.
Lemma valid_inside d : valid d <-> inside d.
Proof.
  unfold valid, inside. setoid_rewrite last_is. split; [intros (l & [H ->] & K); done|]. intros [H K]. by exists (days_in (year d) (month d)).
Qed.
Lemma next_valid d : inside d -> inside (next_day d).
Proof.
  destruct d as [y m k]. intros [Hm Hd]. cbn [year month day] in *. unfold next_day. cbn [year month day]. destruct (Nat.ltb_spec k (days_in y m)); [split; cbn [year month day]; lia|].
  destruct (Nat.ltb_spec m 12); split; cbn [year month day]; try lia; [|cbn; lia]. pose proof (days_in_bounds y (S m)); lia.
Qed.
Lemma date_valid n : inside (date_of n).
Proof. induction n as [|n IH]; [split; vm_compute; lia|]. exact (next_valid _ IH). Qed.
Lemma before_trans a b c : before a b -> before b c -> before a c.
Proof. unfold before. lia. Qed.
Lemma next_later d : inside d -> before d (next_day d).
Proof.
  destruct d as [y m k]. intros [Hm Hd]. cbn [year month day] in *. unfold next_day, before. cbn [year month day]. destruct (Nat.ltb_spec k (days_in y m)); cbn [year month day]; [lia|].
  destruct (Nat.ltb_spec m 12); cbn [year month day]; lia.
Qed.
Lemma next_least d e : inside d -> inside e -> before d e -> e = next_day d \/ before (next_day d) e.
Proof.
  destruct d as [y m k], e as [y' m' k']. intros [Hm Hd] [Hm' Hd'] B. cbn [year month day] in *. unfold before in B. cbn [year month day] in B. unfold next_day. cbn [year month day].
  destruct (Nat.ltb_spec k (days_in y m)).
  - destruct (decide (y = y' /\ m = m' /\ S k = k')) as [(-> & -> & ->)|N]; [by left|]. right. unfold before. cbn [year month day]. lia.
  - assert (~ (y = y' /\ m = m' /\ k < k')) as X by (intros (-> & -> & ?); lia). destruct (Nat.ltb_spec m 12).
    + destruct (decide (y = y' /\ S m = m' /\ 1 = k')) as [(-> & -> & ->)|N]; [by left|]. right. unfold before. cbn [year month day]. lia.
    + destruct (decide (S y = y' /\ 1 = m' /\ 1 = k')) as [(-> & -> & ->)|N]; [by left|]. right. unfold before. cbn [year month day]. lia.
Qed.
Lemma date_of_S n : date_of (S n) = next_day (date_of n). Proof. done. Qed.
Lemma date_of_mono m n : m < n -> before (date_of m) (date_of n).
Proof.
  induction 1 as [|n _ IH]; rewrite date_of_S; [apply next_later, date_valid|]. eapply before_trans; [exact IH|apply next_later, date_valid].
Qed.
Lemma before_irrefl d : ~ before d d. Proof. unfold before. lia. Qed.
Lemma date_of_before m n : before (date_of m) (date_of n) <-> m < n.
Proof.
  split; [|apply date_of_mono]. intros B. destruct (decide (m < n)) as [|N]; [done|]. exfalso.
  destruct (decide (m = n)) as [->|]; [by apply (before_irrefl (date_of n))|].
  apply (before_irrefl (date_of n)). eapply before_trans; [apply (date_of_mono n m); lia|done].
Qed.
(** Every date from 1970-01-01 on is the date of exactly one day, and later days have later dates. *)
Theorem C123_calendar : date_of 0 = Date 1970 1 1 /\ (forall n, valid (date_of n)) /\ (forall m n, before (date_of m) (date_of n) <-> m < n) /\
  (forall n e, valid e -> ~ (before (date_of n) e /\ before e (date_of (S n)))) /\
  (forall e, valid e -> 1970 <= year e -> exists n, date_of n = e).
Proof.
  split; [done|]. split; [intros n; apply valid_inside, date_valid|]. split; [apply date_of_before|].
  assert ((forall n e, inside e -> ~ (before (date_of n) e /\ before e (date_of (S n)))) /\
    (forall e, inside e -> 1970 <= year e -> exists n, date_of n = e)) as [H1 H2]; [split|split; intros *; rewrite valid_inside; [apply H1|apply H2]].
  - intros n e He [B1 B2]. destruct (next_least _ _ (date_valid n) He B1) as [->|B3]; [by apply before_irrefl in B2|].
    apply (before_irrefl e). eapply before_trans; [exact B2|]. by rewrite date_of_S.
  - intros e He Hy.
    assert (forall n, (exists k, k <= n /\ date_of k = e) \/ before (date_of n) e) as H.
    { induction n as [|n [(k & Hk & E)|B]].
      - destruct e as [y m k]. destruct He as [Hm Hd]. cbn in *. destruct (decide (y = 1970 /\ m = 1 /\ k = 1)) as [(-> & -> & ->)|N]; [left; by exists 0|].
        right. unfold before. cbn. lia.
      - left. exists k. split; [lia|done].
      - destruct (next_least _ _ (date_valid n) He B) as [->|B']; [left; by exists (S n)|by right]. }
    (* the year grows *)
    assert (forall n, exists k, 1970 + n <= year (date_of k)) as G.
    { induction n as [|n [k Hk]]; [by exists 0|].
      assert (forall j, exists i, (year (date_of i) = year (date_of k) /\ month (date_of i) * 31 + day (date_of i) >= j) \/ year (date_of k) < year (date_of i)) as X.
      { induction j as [|j [i [[E Hi]|Hi]]]; [exists k; left; split; [done|lia]| |by exists i; right].
        exists (S i). rewrite date_of_S. pose proof (next_later _ (date_valid i)) as B. destruct (next_valid _ (date_valid i)) as [Hm Hd].
        destruct (date_valid i) as [Hm0 Hd0]. pose proof (days_in_bounds (year (date_of i)) (month (date_of i))).
        unfold before in B. destruct B as [B|[B1 B2]]; [right; lia|]. left. split; [lia|].
        destruct B2 as [B2|[B2 B3]]; lia. }
      destruct (X 1000) as [i [[E Hi]|Hi]]; [|exists i; lia]. exfalso. destruct (date_valid i) as [Hm Hd].
      pose proof (days_in_bounds (year (date_of i)) (month (date_of i))). lia. }
    destruct (G (S (year e) - 1970)) as [k Hk]. destruct (H k) as [(j & _ & E)|B]; [by exists j|]. exfalso. unfold before in B. lia.
Qed.
Print Assumptions C123_calendar.

(** ** The texts *)
Lemma compare_cons a b s t : String.compare (String a s) (String b t) = match Ascii.compare a b with Eq => String.compare s t | c => c end.
Proof. done. Qed.
Lemma digit_compare x y : x < 10 -> y < 10 -> Ascii.compare (digit x) (digit y) = (x ?= y).
Proof.
  intros Hx Hy. do 10 (destruct x as [|x]; [destruct y as [|[|[|[|[|[|[|[|[|[|y]]]]]]]]]]; (reflexivity || lia)|]). lia.
Qed.
Lemma two_compare x y s t : x < 100 -> y < 100 ->
  String.compare (two x ++ s)%string (two y ++ t)%string = match x ?= y with Eq => String.compare s t | c => c end.
Proof.
  intros Hx Hy. unfold two. change (String ?a (String ?b "") ++ ?r)%string with (String a (String b r)). cbn [String.append].
  assert (x = 10 * (x / 10) + x mod 10) as Ex by (apply Nat.div_mod; lia). assert (y = 10 * (y / 10) + y mod 10) as Ey by (apply Nat.div_mod; lia).
  assert (x / 10 < 10 /\ y / 10 < 10) as [Hx1 Hy1] by (split; apply Nat.div_lt_upper_bound; lia).
  assert (x mod 10 < 10 /\ y mod 10 < 10) as [Hx2 Hy2] by (split; apply Nat.mod_upper_bound; lia).
  rewrite !compare_cons, !digit_compare by done.
  destruct (Nat.compare_spec (x / 10) (y / 10)), (Nat.compare_spec (x mod 10) (y mod 10)), (Nat.compare_spec x y); try done; lia.
Qed.
Lemma same_char_compare c s t : String.compare (String c s) (String c t) = String.compare s t.
Proof. rewrite compare_cons. unfold Ascii.compare. by rewrite N.compare_refl. Qed.
Lemma four_compare x y s t : x < 100 * 100 -> y < 100 * 100 ->
  String.compare (four x ++ s)%string (four y ++ t)%string = match x ?= y with Eq => String.compare s t | c => c end.
Proof.
  intros Hx Hy. unfold four.
  assert (forall n r, ((two (n / 100) ++ two (n mod 100)) ++ r)%string = (two (n / 100) ++ (two (n mod 100) ++ r))%string) as A by done. rewrite !A.
  assert (x = 100 * (x / 100) + x mod 100) as Ex by (apply Nat.div_mod; lia). assert (y = 100 * (y / 100) + y mod 100) as Ey by (apply Nat.div_mod; lia).
  assert (x / 100 < 100 /\ y / 100 < 100) as [Hx1 Hy1] by (split; apply Nat.div_lt_upper_bound; lia).
  assert (x mod 100 < 100 /\ y mod 100 < 100) as [Hx2 Hy2] by (split; apply Nat.mod_upper_bound; lia).
  rewrite !two_compare by done.
  destruct (Nat.compare_spec (x / 100) (y / 100)), (Nat.compare_spec (x mod 100) (y mod 100)), (Nat.compare_spec x y); try done; lia.
Qed.
Lemma append_compare p s t : String.compare (p ++ s)%string (p ++ t)%string = String.compare s t.
Proof. induction p as [|c p IH]; [done|]. change (String c p ++ ?x)%string with (String c (p ++ x)%string). by rewrite same_char_compare. Qed.
Lemma compare_same s : String.compare s s = Eq.
Proof. induction s as [|c s IH]; [done|]. by rewrite same_char_compare. Qed.
Lemma date_compare d e : inside d -> inside e -> year d < 100 * 100 -> year e < 100 * 100 ->
  String.compare (date_text d) (date_text e) =
    match year d ?= year e with Eq => match month d ?= month e with Eq => day d ?= day e | c => c end | c => c end.
Proof.
  intros [Hm Hd] [Hm' Hd'] Hy Hy'. unfold date_text.
  pose proof (days_in_bounds (year d) (month d)). pose proof (days_in_bounds (year e) (month e)).
  rewrite four_compare by done. destruct (year d ?= year e); [|done..].
  change ("_" ++ ?x)%string with (String "_" x). rewrite same_char_compare, two_compare by lia.
  destruct (Nat.compare_spec (month d) (month e)) as [->|?|?]; [|done..].
  rewrite !append_compare, two_compare by lia. by destruct (day d ?= day e).
Qed.
(** Until the end of the year 9999: the text of a day sorts before the text of every later day, and two moments have the same
    text exactly when they lie in the same day (UTC). *)
Theorem C123_dates : (forall m n, year (date_of m) < 100 * 100 -> year (date_of n) < 100 * 100 ->
    (sorts_before (date_text (date_of m)) (date_text (date_of n)) <-> m < n)) /\
  (forall s s', year (utc_date s) < 100 * 100 -> year (utc_date s') < 100 * 100 ->
    (current_date_gmt_string s = current_date_gmt_string s' <-> (s / 86400 = s' / 86400)%N)) /\
  (forall n s, (N.of_nat n * 86400 <= s < (N.of_nat n + 1) * 86400)%N -> current_date_gmt_string s = date_text (date_of n)).
Proof.
  assert (forall m n, year (date_of m) < 100 * 100 -> year (date_of n) < 100 * 100 ->
    (sorts_before (date_text (date_of m)) (date_text (date_of n)) <-> m < n)) as H.
  { intros m n Hm Hn. rewrite <- date_of_before. unfold sorts_before. rewrite date_compare by (done || apply date_valid). unfold before.
    destruct (Nat.compare_spec (year (date_of m)) (year (date_of n))), (Nat.compare_spec (month (date_of m)) (month (date_of n))),
      (Nat.compare_spec (day (date_of m)) (day (date_of n))); split; try done; try lia. }
  split; [exact H|]. split; [|intros n s Hs; unfold current_date_gmt_string, utc_date; f_equal; f_equal; rewrite <- (Nat2N.id n); f_equal; symmetry;
    apply (N.div_unique s 86400 (N.of_nat n) (s - N.of_nat n * 86400)%N); lia].
  intros s s' Hs Hs'. unfold current_date_gmt_string, utc_date in *. split; [|by intros ->].
  intros E. set (a := N.to_nat (s / 86400)) in *. set (b := N.to_nat (s' / 86400)) in *.
  assert (a = b) as X; [|subst a b; lia]. destruct (Nat.lt_trichotomy a b) as [L|[L|L]]; [exfalso| done|exfalso].
  - apply (H a b Hs Hs') in L. unfold sorts_before in L. rewrite E in L.
    rewrite compare_same in L. done.
  - apply (H b a Hs' Hs) in L. unfold sorts_before in L. rewrite E in L.
    rewrite compare_same in L. done.
Qed.
Print Assumptions C123_dates.
Example C123_today : current_date_gmt_string 1709164799 = "2024_02Feb_28_utc"%string /\ current_date_gmt_string 1709164800 = "2024_02Feb_29_utc"%string /\
  current_date_gmt_string 1709251200 = "2024_03Mar_01_utc"%string.
Proof. split; [|split]; vm_compute; reflexivity. Qed.

(** ** Who logs *)
Fixpoint last_char (s : string) : option ascii :=
  match s with EmptyString => None | String c EmptyString => Some c | String _ r => last_char r end.
Lemma last_char_app s t : t <> ""%string -> last_char (s ++ t)%string = last_char t.
Proof.
  intros H. induction s as [|c s IH]; [done|]. change (String c s ++ t)%string with (String c (s ++ t)%string). cbn [last_char].
  destruct (s ++ t)%string eqn:E; [|by rewrite <- IH]. destruct s; [|done]. destruct t; done.
Qed.
Lemma app_inv_r s s' t : (s ++ t)%string = (s' ++ t)%string -> s = s'.
Proof.
  intros E. assert (String.length s = String.length s') as L.
  { assert (forall a b, String.length (a ++ b)%string = String.length a + String.length b) as AL.
    { intros a b. induction a as [|c a IH]; [done|]. change (S (String.length (a ++ b)%string) = S (String.length a) + String.length b). lia. }
    apply (f_equal String.length) in E. rewrite !AL in E. lia. }
  revert s' E L. induction s as [|c s IH]; intros [|c' s'] E L; try done. injection L as L.
  change (String c (s ++ t)%string = String c' (s' ++ t)%string) in E. injection E as -> E. f_equal. by apply IH.
Qed.
Lemma split_under a b i j : has_underscore i = false -> has_underscore j = false -> (a ++ "_" ++ i)%string = (b ++ "_" ++ j)%string -> a = b /\ i = j.
Proof.
  intros Hi Hj. revert b. induction a as [|c a IH]; intros b E.
  - destruct b as [|c b]; [injection E as ->; done|]. exfalso. change (String "_" i = String c (b ++ "_" ++ j)%string) in E. injection E as <- E.
    subst i. clear -Hi. induction b as [|c b IH]; [done|]. change (String c b ++ ?x)%string with (String c (b ++ x)%string) in Hi.
    cbn [has_underscore] in Hi. apply orb_false_iff in Hi as [_ Hi]. by apply IH.
  - destruct b as [|c' b].
    + exfalso. change (String c (a ++ "_" ++ i)%string = String "_" j) in E. injection E as -> E. subst j. clear -Hj. induction a as [|c a IH]; [done|].
      change (String c a ++ ?x)%string with (String c (a ++ x)%string) in Hj. cbn [has_underscore] in Hj. apply orb_false_iff in Hj as [_ Hj]. by apply IH.
    + change (String c (a ++ "_" ++ i)%string = String c' (b ++ "_" ++ j)%string) in E. injection E as -> E. destruct (IH _ E) as [-> ->]. done.
Qed.

Lemma last_ord f : last_char (f ++ "_ORD")%string = Some "D"%char. Proof. by rewrite last_char_app. Qed.
Lemma last_auton f i : last_char (f ++ "_" ++ i ++ "_AUTON")%string = Some "N"%char.
Proof. rewrite !last_char_app; [done|done|by destruct i|done]. Qed.
Lemma last_pure f i : last_char (f ++ "_" ++ i ++ "_PURE")%string = Some "E"%char.
Proof. rewrite !last_char_app; [done|done|by destruct i|done]. Qed.

(** An exception is stored once under the folder of all crashes of its day and, if a function reports it, once more in a folder of
    its own kind.  Two functions of different kinds never share a folder; two functions that share one are the same function if
    their islands have no underscore in their names. *)
Theorem C124_folders_partial (w w' : logger) (xname xname' r r' : string) (f f' : option (string * string)) (s s' : N) :
  In ["__CATCH_ALL__"; current_date_gmt_string s; exception_id w xname r f]%string (crash_keys w xname r f s) /\
  (forall k, In k (crash_keys w xname r f s) -> last k = Some (exception_id w xname r f)) /\
  length (crash_keys w xname r f s) = (match w with ByPortal => 1 | _ => 2 end) /\
  (forall k k' folder, In k (crash_keys w xname r f s) -> In k' (crash_keys w' xname' r' f' s') -> length k = 2 ->
     head k = Some folder -> head k' = Some folder -> same_kind w w' /\ (plain_island w -> plain_island w' -> w = w')) /\
  (forall k, In k (crash_keys w xname r f s) -> length k = 2 -> head k <> Some "__CATCH_ALL__"%string) /\
  (has_underscore r = false -> has_underscore r' = false -> f = None -> f' = None ->
   exception_id w xname r f = exception_id w' xname' r' f' -> r = r').
Proof.
  split; [destruct w; cbn; auto|]. split; [|split; [by destruct w|split; [|split]]].
  - intros k. destruct w; cbn; intuition (subst; done).
  - intros k k' folder Hk Hk' L E E'.
    destruct w, w'; cbn in Hk, Hk'.
    all: destruct Hk as [<-|Hk]; [|repeat (destruct Hk as [<-|Hk]; [done|]); done].
    all: repeat (destruct Hk' as [<-|Hk']; [|]); try done.
    all: rewrite <- E in E'; cbn in E'; try (exfalso; injection E' as E'; apply (f_equal last_char) in E'; rewrite ?last_ord, ?last_auton, ?last_pure in E'; done).
    all: split; [exact I|]; cbn [plain_island]; intros P P'; apply (f_equal (fun x => match x with Some y => y | None => ""%string end)) in E'.
    + apply app_inv_r in E'. by subst.
    + assert (forall a b, (a ++ "_" ++ b ++ "_AUTON")%string = ((a ++ "_" ++ b) ++ "_AUTON")%string) as A.
      { intros a b. induction a as [|c a IH]; [done|]. change (String c (a ++ "_" ++ b ++ "_AUTON")%string = String c ((a ++ "_" ++ b) ++ "_AUTON")%string). by f_equal. }
      rewrite !A in E'. apply app_inv_r in E'. apply split_under in E' as [-> ->]; done.
    + assert (forall a b, (a ++ "_" ++ b ++ "_PURE")%string = ((a ++ "_" ++ b) ++ "_PURE")%string) as A.
      { intros a b. induction a as [|c a IH]; [done|]. change (String c (a ++ "_" ++ b ++ "_PURE")%string = String c ((a ++ "_" ++ b) ++ "_PURE")%string). by f_equal. }
      rewrite !A in E'. apply app_inv_r in E'. apply split_under in E' as [-> ->]; done.
  - intros k Hk L E. destruct w; cbn in Hk; intuition (subst; try done).
    all: cbn in E; injection E as E; apply (f_equal last_char) in E; rewrite ?last_ord, ?last_auton, ?last_pure in E; done.
  - intros Hr Hr' -> -> E. unfold exception_id in E.
    assert (forall a b, (a ++ "_" ++ r)%string = (b ++ "_" ++ r')%string -> r = r') as K by (intros a b Q; by apply split_under in Q as [_ Q]).
    destruct w, w'; by apply K in E.
Qed.
Print Assumptions C124_folders_partial.
(** In full it does not hold: a_b of island c and a of island b_c share a folder (finding 55). *)
Theorem C124_refuted : exists w w' folder (x r : string) (s : N), w <> w' /\
  (exists k, In k (crash_keys w x r None s) /\ length k = 2 /\ head k = Some folder) /\
  (exists k, In k (crash_keys w' x r None s) /\ length k = 2 /\ head k = Some folder).
Proof.
  exists (ByAutonomous "a_b" "c"), (ByAutonomous "a" "b_c"), "a_b_c_AUTON"%string, "ValueError"%string, "xyz"%string, 0%N.
  split; [done|]. split; eexists; (split; [left; reflexivity|]); split; vm_compute; reflexivity.
Qed.
Print Assumptions C124_refuted.
Example C124_example : crash_keys (ByPure "f" "isl") "ValueError" "xyz" (Some ("s1", "3")) 1709164800 =
  [["f_isl_PURE"; "ValueError_f_isl_s1_3"]; ["__CATCH_ALL__"; "2024_02Feb_29_utc"; "ValueError_f_isl_s1_3"]]%string /\
  plain_island (ByPure "f" "isl").
Proof. split; [vm_compute; reflexivity|done]. Qed.
(** An event is stored under the day on which it happened, and events of different days never share a key; events that name
    themselves do overwrite the earlier event of that day with that name. *)
Theorem C123_events e e' r r' s s' : year (utc_date s) < 100 * 100 -> year (utc_date s') < 100 * 100 ->
  (event_key e r s = event_key e' r' s' <->
   (s / 86400 = s' / 86400)%N /\ match e with Some x => x | None => r end = match e' with Some x => x | None => r' end).
Proof.
  intros H H'. unfold event_key. rewrite <- (proj1 (proj2 C123_dates) s s' H H'). split; [|by intros [-> ->]]. intros E. split; [exact (f_equal (fun l => match l with x :: _ => x | _ => ""%string end) E)|exact (f_equal (fun l => match l with _ :: x :: _ => x | _ => ""%string end) E)].
Qed.
Print Assumptions C123_events.
