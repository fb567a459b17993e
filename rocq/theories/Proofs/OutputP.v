From Coq Require Import String.
From stdpp Require Import base list strings gmap.
From Verif Require Import Model.Output Spec.OutputSpec.
Local Open Scope nat_scope.

Lemma sapp_nil (a : string) : (a ++ "")%string = a.
Proof. induction a as [|c a IH]; [done|]. change (String c (a ++ "")%string = String c a). by rewrite IH. Qed.
Lemma sapp_assoc (a b c : string) : ((a ++ b) ++ c)%string = (a ++ (b ++ c))%string.
Proof. induction a as [|x a IH]; [done|]. change (String x ((a ++ b) ++ c)%string = String x (a ++ (b ++ c))%string). by rewrite IH. Qed.
Lemma joined_app l1 l2 : joined (l1 ++ l2) = (joined l1 ++ joined l2)%string.
Proof. induction l1 as [|x l IH]; [done|]. cbn [app joined foldr]. unfold joined in *. cbn [foldr app]. by rewrite IH, sapp_assoc. Qed.
Lemma text_in_app d w1 w2 : text_in d (w1 ++ w2) = (text_in d w1 ++ text_in d w2)%string.
Proof. unfold text_in. by rewrite List.filter_app, map_app, joined_app. Qed.
Lemma text_in_cons_eq d x w : text_in d ((d, x) :: w) = (x ++ text_in d w)%string.
Proof. unfold text_in. cbn [List.filter fst]. by rewrite bool_decide_true. Qed.
Lemma text_in_cons_ne d d' x w : d' <> d -> text_in d ((d', x) :: w) = text_in d w.
Proof. intros H. unfold text_in. cbn [List.filter fst]. by rewrite bool_decide_false. Qed.
Lemma text_in_none d ws : (forall x, (d, x) ∉ ws) -> text_in d ws = EmptyString.
Proof.
  induction ws as [|[d' x] ws IH]; intros H; [done|]. rewrite text_in_cons_ne.
  - apply IH. intros y Hy. apply (H y). by right.
  - intros ->. apply (H x). left.
Qed.

Definition old (d : device) (n : nat) : Prop := forall b, d = Buf b -> b < n.
(** the writes one piece causes in a state *)
Definition effect (s : ostate) (x : piece) : list (device * string) :=
  match x with ToOut t => stream_write (sys_out s) t | ToErr t => stream_write (sys_err s) t | Logged r => call_handlers s r end.
Definition effects (s : ostate) (d : device) (l : list piece) : string := joined (map (fun x => text_in d (effect s x)) l).
Lemma effects_app s d l1 l2 : effects s d (l1 ++ l2) = (effects s d l1 ++ effects s d l2)%string.
Proof. unfold effects. by rewrite map_app, joined_app. Qed.
Lemma effects_ext s1 s2 d l : (forall x, x ∈ l -> text_in d (effect s1 x) = text_in d (effect s2 x)) -> effects s1 d l = effects s2 d l.
Proof.
  intros H. unfold effects. f_equal. induction l as [|x l IH]; [done|]. cbn [map]. rewrite (H x) by left. f_equal. apply IH. intros y Hy. apply H. by right.
Qed.

Lemma emit_cap b hs r : emit (HCap b hs) r = (Buf b, (msg r ++ nl)%string) :: flat_map (fun h => emit h r) hs.
Proof. done. Qed.
Lemma handled_emit hs r : (forall st a f, HStream st a f ∈ hs -> a r = true) -> flat_map (fun h => handle h r) hs = flat_map (fun h => emit h r) hs.
Proof.
  induction hs as [|h t IH]; intros H; [done|]. cbn [flat_map]. rewrite IH by (intros; eapply H; right; eauto). f_equal.
  destruct h as [st a f|b l]; [|done]. unfold handle. by rewrite (H st a f) by left.
Qed.
Lemma call_handled s r : normally_handled (root_handlers s) r -> call_handlers s r = flat_map (fun h => emit h r) (root_handlers s).
Proof. intros [Hn Ha]. unfold call_handlers. rewrite <- handled_emit by done. by destruct (root_handlers s). Qed.

(** the state a capturer installs *)
Definition entered (s : ostate) : ostate :=
  let b := next_buf s in OState (written s) (Tee (sys_out s) b) (Tee (sys_err s) b) [HCap b (root_handlers s)] (S b).
Lemma entered_call s r : call_handlers (entered s) r = (Buf (next_buf s), (msg r ++ nl)%string) :: flat_map (fun h => emit h r) (root_handlers s).
Proof. unfold call_handlers, entered. cbn [root_handlers flat_map handle]. rewrite emit_cap. by rewrite app_nil_r. Qed.
Lemma text_other_buf d n t : old d n -> text_in d [(Buf n, t)] = EmptyString.
Proof. intros H. rewrite text_in_cons_ne; [done|]. intros <-. specialize (H n eq_refl). lia. Qed.
Lemma entered_effect s d x : old d (next_buf s) -> (forall r, x = Logged r -> normally_handled (root_handlers s) r) ->
  text_in d (effect (entered s) x) = text_in d (effect s x).
Proof.
  intros Ho Hh. destruct x as [t|t|r]; cbn [effect].
  - cbn [entered sys_out stream_write]. rewrite text_in_app, (text_other_buf d) by done. apply sapp_nil.
  - cbn [entered sys_err stream_write]. rewrite text_in_app, (text_other_buf d) by done. apply sapp_nil.
  - rewrite entered_call, call_handled by auto. rewrite text_in_cons_ne; [done|]. intros <-. specialize (Ho _ eq_refl). lia.
Qed.
Lemma null_effects s d l : (forall r, Logged r ∈ l -> root_handlers s <> []) ->
  effects (set_streams DevNull DevNull s) d l = effects s d (List.filter is_logged l).
Proof.
  induction l as [|x l IH]; intros H; [done|].
  assert (IH' : effects (set_streams DevNull DevNull s) d l = effects s d (List.filter is_logged l)).
  { apply IH. intros r Hr. apply (H r). by right. }
  change (x :: l) with ([x] ++ l). rewrite effects_app, IH', List.filter_app, effects_app. f_equal.
  destruct x as [t|t|r]; [done|done|]. cbn [List.filter is_logged]. unfold effects. cbn [map effect].
  unfold call_handlers. cbn [set_streams root_handlers sys_err]. destruct (root_handlers s) eqn:E; [|done]. exfalso. apply (H r); [left|done].
Qed.

Lemma run_effect p : forall s s' e, no_add p -> (forall r, Logged r ∈ fst (pieces p) -> normally_handled (root_handlers s) r) ->
  orun p s = (s', e) ->
  e = snd (pieces p) /\ sys_out s' = sys_out s /\ sys_err s' = sys_err s /\ root_handlers s' = root_handlers s /\ next_buf s <= next_buf s' /\
  exists ws, written s' = written s ++ ws /\ forall d, old d (next_buf s) -> text_in d ws = effects s d (fst (pieces p)).
Proof.
  assert (Hsame : forall s1 s2 d l, sys_out s1 = sys_out s2 -> sys_err s1 = sys_err s2 -> root_handlers s1 = root_handlers s2 -> effects s1 d l = effects s2 d l).
  { intros s1 s2 d l H1 H2 H3. apply effects_ext. intros x _. unfold effect, call_handlers. by rewrite H1, H2, H3. }
  assert (Hone : forall s d x, effects s d [x] = text_in d (effect s x)).
  { intros s d x. unfold effects. cbn. apply sapp_nil. }
  assert (Hseq : forall p q s s1 s' e e1, 
    (forall s s' e, no_add q -> (forall r, Logged r ∈ fst (pieces q) -> normally_handled (root_handlers s) r) -> orun q s = (s', e) ->
      e = snd (pieces q) /\ sys_out s' = sys_out s /\ sys_err s' = sys_err s /\ root_handlers s' = root_handlers s /\ next_buf s <= next_buf s' /\
      exists ws, written s' = written s ++ ws /\ forall d, old d (next_buf s) -> text_in d ws = effects s d (fst (pieces q))) ->
    no_add q -> pieces p = (fst (pieces p), e1) -> 
    (forall r, Logged r ∈ fst (pieces p) ++ fst (pieces q) -> normally_handled (root_handlers s) r) ->
    (sys_out s1 = sys_out s /\ sys_err s1 = sys_err s /\ root_handlers s1 = root_handlers s /\ next_buf s <= next_buf s1 /\
      exists ws, written s1 = written s ++ ws /\ forall d, old d (next_buf s) -> text_in d ws = effects s d (fst (pieces p))) ->
    orun q s1 = (s', e) ->
    e = snd (pieces q) /\ sys_out s' = sys_out s /\ sys_err s' = sys_err s /\ root_handlers s' = root_handlers s /\ next_buf s <= next_buf s' /\
    exists ws, written s' = written s ++ ws /\ forall d, old d (next_buf s) -> text_in d ws = effects s d (fst (pieces p) ++ fst (pieces q))).
  { intros p0 q s s1 s' e e1 IHq Hq _ Hh (O1 & E1 & R1 & N1 & ws1 & W1 & T1) Er.
    destruct (IHq s1 s' e Hq) as (He & O2 & E2 & R2 & N2 & ws2 & W2 & T2); [|done|].
    { intros r Hr. rewrite R1. apply Hh, elem_of_app. by right. }
    split_and!; [done|congruence|congruence|congruence|lia|]. exists (ws1 ++ ws2). split; [by rewrite W2, W1, app_assoc|].
    intros d Hd. rewrite text_in_app, effects_app, T1 by done. f_equal. rewrite T2.
    - by apply Hsame.
    - intros b Hb. specialize (Hd b Hb). lia. }
  induction p as [|err data|r|a f|p IHp q IHq|t|p IHp q IHq|p IHp|p IHp]; intros s s' e Hn Hh Er; cbn [orun] in Er.
  - injection Er as <- <-. split_and!; try done. exists []. split; [by rewrite app_nil_r|]. done.
  - injection Er as <- <-. cbn [pieces]. split_and!; try done; [by destruct err|].
    exists (stream_write (if err then sys_err s else sys_out s) data). split; [done|]. intros d _. destruct err; cbn [fst]; by rewrite Hone.
  - injection Er as <- <-. cbn [pieces]. split_and!; try done. exists (call_handlers s r). split; [done|]. intros d _. cbn [fst]. by rewrite Hone.
  - done.
  - cbn [no_add] in Hn. cbn [pieces] in Hh |- *. destruct Hn as [Hp Hq]. destruct (orun p s) as [s1 e1] eqn:Ep.
    destruct (pieces p) as [lp ep] eqn:Pp. destruct (pieces q) as [lq eq] eqn:Pq. cbn [fst snd] in IHp, IHq.
    assert (Hlp : forall r, Logged r ∈ lp -> normally_handled (root_handlers s) r).
    { intros r Hr. destruct ep; cbn [fst] in Hh; apply Hh; [done|]. apply elem_of_app. by left. }
    destruct (IHp s s1 e1 Hp Hlp Ep) as (-> & K). destruct ep as [t|].
    + injection Er as <- <-. split; [done|]. exact K.
    + cbn [fst snd] in Hh |- *. specialize (Hseq p q s s1 s' e None). rewrite Pp, Pq in Hseq. cbn [fst snd] in Hseq. by apply Hseq.
  - injection Er as <- <-. split_and!; try done. exists []. split; [by rewrite app_nil_r|]. done.
  - cbn [no_add] in Hn. cbn [pieces] in Hh |- *. destruct Hn as [Hp Hq]. destruct (orun p s) as [s1 e1] eqn:Ep.
    destruct (pieces p) as [lp ep] eqn:Pp. destruct (pieces q) as [lq eq] eqn:Pq. cbn [fst snd] in IHp, IHq.
    assert (Hlp : forall r, Logged r ∈ lp -> normally_handled (root_handlers s) r).
    { intros r Hr. destruct ep; cbn [fst] in Hh; apply Hh; [|done]. apply elem_of_app. by left. }
    destruct (IHp s s1 e1 Hp Hlp Ep) as (-> & K). destruct ep as [t|].
    + cbn [fst snd] in Hh |- *. specialize (Hseq p q s s1 s' e (Some t)). rewrite Pp, Pq in Hseq. cbn [fst snd] in Hseq. by apply Hseq.
    + injection Er as <- <-. split; [done|]. exact K.
  - cbn [no_add] in Hn. fold (entered s) in Er. destruct (orun p (entered s)) as [s1 e1] eqn:Ep. cbn [pieces] in Hh |- *.
    destruct (pieces p) as [lp ep] eqn:Pp. cbn [fst snd] in IHp, Hh |- *.
    destruct (IHp (entered s) s1 e1 Hn) as (-> & O1 & E1 & R1 & N1 & ws & W & T); [|done|].
    { intros r _. split; [done|]. intros st a f Hin. cbn in Hin. apply elem_of_list_singleton in Hin. done. }
    injection Er as <- <-. cbn [entered next_buf] in N1.
    split_and!; try done.
    { destruct ep; cbn; lia. }
    exists (ws ++ match ep with None => [] | Some t => stream_write (sys_err s1) t end). split.
    { destruct ep; cbn [set_handlers set_streams written emit_all]; rewrite W; cbn [entered written]; [by rewrite app_assoc|by rewrite app_nil_r]. }
    intros d Hd. rewrite text_in_app, effects_app. rewrite T by (intros b Hb; specialize (Hd b Hb); cbn; lia). f_equal.
    { apply effects_ext. intros x Hx. apply entered_effect; [done|]. intros r ->. apply Hh, elem_of_app. by left. }
    destruct ep as [t|]; [|done]. rewrite E1, Hone. cbn [entered sys_err stream_write effect]. rewrite text_in_app, (text_other_buf d) by done. apply sapp_nil.
  - cbn [no_add] in Hn. destruct (orun p (set_streams DevNull DevNull s)) as [s1 e1] eqn:Ep. cbn [pieces] in Hh |- *.
    destruct (pieces p) as [lp ep] eqn:Pp. cbn [fst snd] in IHp, Hh |- *.
    assert (Hlp : forall r, Logged r ∈ lp -> normally_handled (root_handlers s) r).
    { intros r Hr. apply Hh. apply elem_of_list_In, filter_In. split; [by apply elem_of_list_In|done]. }
    destruct (IHp (set_streams DevNull DevNull s) s1 e1 Hn Hlp Ep) as (-> & O1 & E1 & R1 & N1 & ws & W & T).
    injection Er as <- <-. split_and!; try done. exists ws. split; [done|]. intros d Hd. rewrite T by done. apply null_effects. intros r Hr. by apply (Hlp r).
Qed.

(** what lands in the capturer's own buffer *)
Lemma entered_buffer s l : fresh_ok s -> effects (entered s) (Buf (next_buf s)) l = transcript l.
Proof.
  intros (_ & Ho & He & Hh). unfold effects, transcript. f_equal. apply map_ext. intros x.
  assert (Hu : forall ws, uses_only_old (next_buf s) ws -> text_in (Buf (next_buf s)) ws = EmptyString).
  { intros ws Hw. apply text_in_none. intros y Hy. specialize (Hw _ _ Hy). lia. }
  destruct x as [t|t|r]; cbn [effect].
  - cbn [entered sys_out stream_write]. rewrite text_in_app, (Hu _ (Ho t)), text_in_cons_eq. apply sapp_nil.
  - cbn [entered sys_err stream_write]. rewrite text_in_app, (Hu _ (He t)), text_in_cons_eq. apply sapp_nil.
  - rewrite entered_call, text_in_cons_eq. rewrite Hu; [apply sapp_nil|]. intros b data Hin.
    apply elem_of_list_In, in_flat_map in Hin as (h & Hi & Hin). eapply (Hh h r); [by apply elem_of_list_In|by apply elem_of_list_In].
Qed.

Lemma old_mono n m ws : uses_only_old n ws -> n <= m -> uses_only_old m ws.
Proof. intros H Hl b t Hb. specialize (H b t Hb). lia. Qed.
Lemma old_app n w1 w2 : uses_only_old n w1 -> uses_only_old n w2 -> uses_only_old n (w1 ++ w2).
Proof. intros H1 H2 b t Hb. apply elem_of_app in Hb as [Hb|Hb]; eauto. Qed.
Lemma old_flat {A} n (f : A -> list (device * string)) l : (forall x, x ∈ l -> uses_only_old n (f x)) -> uses_only_old n (flat_map f l).
Proof. intros H b t Hb. apply elem_of_list_In, in_flat_map in Hb as (x & Hx & Hb). eapply (H x); [by apply elem_of_list_In|by apply elem_of_list_In]. Qed.
Lemma old_handlers s r : fresh_ok s -> uses_only_old (next_buf s) (call_handlers s r).
Proof.
  intros (_ & _ & He & Hh). unfold call_handlers. destruct (root_handlers s) as [|h hs] eqn:E.
  - destruct (WARNING <=? lvl r); [apply He|]. intros b t Hb. by apply elem_of_nil in Hb.
  - apply old_flat. intros x Hx. specialize (Hh x r Hx). destruct x as [st a f|b l]; cbn [handle]; [|done].
    destruct (a r); [done|]. intros b t Hb. by apply elem_of_nil in Hb.
Qed.
Lemma fresh_emit s ws : fresh_ok s -> uses_only_old (next_buf s) ws -> fresh_ok (emit_all ws s).
Proof. intros (H1 & H2 & H3 & H4) Hw. split_and!; try done. by apply old_app. Qed.
Lemma fresh_entered s : fresh_ok s -> fresh_ok (entered s).
Proof.
  intros (Hw & Ho & He & Hh). assert (Hb : forall t, uses_only_old (S (next_buf s)) [(Buf (next_buf s), t)]).
  { intros t b t' Hin. apply elem_of_list_singleton in Hin as [= -> _]. lia. }
  split_and!; cbn [entered next_buf written sys_out sys_err root_handlers].
  - eapply old_mono; [done|lia].
  - intros t. cbn [stream_write]. apply old_app; [|done]. eapply old_mono; [apply Ho|lia].
  - intros t. cbn [stream_write]. apply old_app; [|done]. eapply old_mono; [apply He|lia].
  - intros h r Hin. apply elem_of_list_singleton in Hin as ->. rewrite emit_cap. apply (old_app _ [_]); [done|].
    apply old_flat. intros x Hx. eapply old_mono; [by apply Hh|lia].
Qed.
Lemma fresh_run p : forall s s' e, fresh_ok s -> orun p s = (s', e) -> fresh_ok s' /\ next_buf s <= next_buf s' /\ sys_out s' = sys_out s /\ sys_err s' = sys_err s.
Proof.
  induction p as [|err data|r|a f|p IHp q IHq|t|p IHp q IHq|p IHp|p IHp]; intros s s' e Hf Er; cbn [orun] in Er.
  - by injection Er as <- <-.
  - injection Er as <- <-. split_and!; try done. apply fresh_emit; [done|]. destruct Hf as (_ & Ho & He & _). destruct err; [apply He|apply Ho].
  - injection Er as <- <-. split_and!; try done. apply fresh_emit; [done|]. by apply old_handlers.
  - injection Er as <- <-. split_and!; try done. destruct Hf as (Hw & Ho & He & Hh). split_and!; try done.
    cbn. intros h r Hin. apply elem_of_app in Hin as [Hin|Hin]; [by apply Hh|]. apply elem_of_list_singleton in Hin as ->. apply He.
  - destruct (orun p s) as [s1 e1] eqn:Ep. destruct (IHp _ _ _ Hf Ep) as (F1 & N1 & O1 & E1). destruct e1 as [t|].
    + by injection Er as <- <-.
    + destruct (IHq _ _ _ F1 Er) as (F2 & N2 & O2 & E2). split_and!; [done|lia|congruence|congruence].
  - by injection Er as <- <-.
  - destruct (orun p s) as [s1 e1] eqn:Ep. destruct (IHp _ _ _ Hf Ep) as (F1 & N1 & O1 & E1). destruct e1 as [t|].
    + destruct (IHq _ _ _ F1 Er) as (F2 & N2 & O2 & E2). split_and!; [done|lia|congruence|congruence].
    + by injection Er as <- <-.
  - fold (entered s) in Er. destruct (orun p (entered s)) as [s1 e1] eqn:Ep.
    destruct (IHp _ _ _ (fresh_entered s Hf) Ep) as (F1 & N1 & O1 & E1). cbn [entered next_buf] in N1.
    injection Er as <- <-. set (s2 := match e1 with None => s1 | Some t => emit_all (stream_write (sys_err s1) t) s1 end).
    assert (F2 : fresh_ok s2 /\ next_buf s2 = next_buf s1).
    { unfold s2. destruct e1 as [t|]; [|done]. split; [|done]. apply fresh_emit; [done|]. destruct F1 as (_ & _ & He & _). apply He. }
    destruct F2 as [(Hw & _) N2]. split_and!; try done; [|cbn; lia]. destruct Hf as (_ & Ho & He & Hh).
    split_and!; cbn; rewrite ?N2.
    + by rewrite N2 in Hw.
    + intros d. eapply old_mono; [apply Ho|lia].
    + intros d. eapply old_mono; [apply He|lia].
    + intros h r Hin. eapply old_mono; [by apply Hh|lia].
  - destruct (orun p (set_streams DevNull DevNull s)) as [s1 e1] eqn:Ep.
    assert (F0 : fresh_ok (set_streams DevNull DevNull s)).
    { destruct Hf as (Hw & Ho & He & Hh). split_and!; try done; intros d b t Hb; by apply elem_of_nil in Hb. }
    destruct (IHp _ _ _ F0 Ep) as (F1 & N1 & O1 & E1). injection Er as <- <-. cbn in N1. split_and!; try done.
    destruct Hf as (_ & Ho & He & Hh), F1 as (Hw & _ & _ & Hh1). split_and!; cbn; [done| | |done].
    + intros d. eapply old_mono; [apply Ho|lia].
    + intros d. eapply old_mono; [apply He|lia].
Qed.
