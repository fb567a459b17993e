(** C57, C58, C66: OutputCapturer and OutputSuppressor. *)
From Coq Require Import String.
From stdpp Require Import base list strings.
From Verif Require Import Model.Output Spec.OutputSpec Proofs.OutputP.
Local Open Scope nat_scope.

(** The usual interpreter: two terminals, any ordinary handlers on them. *)
Definition usual (levels : list nat) : ostate :=
  OState [] (Plain 1) (Plain 2) (map (fun l => HStream (Plain 2) (fun r => l <=? lvl r) (fun r => ("LOG:" ++ msg r)%string)) levels) 0.
(** Every state reached from it by any program is one the theorems speak about. *)
Theorem C57_reachable_states : forall levels p s' e, orun p (usual levels) = (s', e) -> fresh_ok s'.
Proof.
  intros levels p s' e H. eapply fresh_run; [|exact H]. split_and!.
  - intros b t Hb. by apply elem_of_nil in Hb.
  - intros d b t Hb. by apply elem_of_list_singleton in Hb.
  - intros d b t Hb. by apply elem_of_list_singleton in Hb.
  - intros h r Hh b t Hb. apply elem_of_list_fmap in Hh as (l & -> & _). by apply elem_of_list_singleton in Hb.
Qed.
Print Assumptions C57_reachable_states.

(** * C57 *)
(** The capturer's buffer holds exactly what the body output, in order - writes to stdout and stderr, log records of any
    level, and the traceback of an exception that leaves the block - for any nesting of capturers and suppressors and any
    exceptions inside. *)
Theorem C57_everything_captured : forall body s s' e, no_add body -> fresh_ok s -> orun (OCapture body) s = (s', e) ->
  e = snd (pieces body) /\ text (Buf (next_buf s)) s' = transcript (fst (pieces (OCapture body))).
Proof.
  intros body s s' e Hn Hf Er. cbn [orun] in Er. fold (entered s) in Er. destruct (orun body (entered s)) as [s1 e1] eqn:Ep.
  destruct (run_effect body (entered s) s1 e1 Hn) as (-> & O1 & E1 & R1 & N1 & ws & W & T); [|done|].
  { intros r _. split; [done|]. intros st a f Hin. cbn in Hin. by apply elem_of_list_singleton in Hin. }
  injection Er as <- <-. split; [done|].
  assert (Ht : text (Buf (next_buf s)) s1 = transcript (fst (pieces body))).
  { unfold text. rewrite W, text_in_app. rewrite (T (Buf (next_buf s))); [|intros b [= <-]; cbn; lia]. rewrite entered_buffer by done.
    rewrite text_in_none; [done|]. intros x Hx. destruct Hf as [Hw _]. specialize (Hw _ _ Hx). lia. }
  cbn [pieces]. destruct (pieces body) as [l ep]. cbn [fst snd] in *. destruct ep as [t|].
  - unfold text in *. cbn [set_handlers set_streams written emit_all]. rewrite text_in_app, Ht. unfold transcript. rewrite map_app, joined_app. f_equal.
    rewrite E1. cbn [entered sys_err stream_write]. rewrite text_in_app, text_in_none.
    + rewrite text_in_cons_eq. done.
    + intros x Hx. destruct Hf as (_ & _ & He & _). specialize (He t _ _ Hx). lia.
  - rewrite app_nil_r. exact Ht.
Qed.
Print Assumptions C57_everything_captured.
(** On leaving - normally or with an exception, whatever the body did - streams and root handlers are the ones before, and
    the exception goes on. *)
Theorem C57_streams_restored : forall body s s' e, orun (OCapture body) s = (s', e) ->
  sys_out s' = sys_out s /\ sys_err s' = sys_err s /\ root_handlers s' = root_handlers s.
Proof. intros body s s' e Er. cbn [orun] in Er. destruct (orun body _) as [s1 e1]. by injection Er as <- <-. Qed.
Print Assumptions C57_streams_restored.
(** Everything written still reaches its usual place: on every device that existed before, a captured run leaves the same
    text as an uncaptured one, plus the traceback (on stderr) if the block was left by an exception. *)
Theorem C57_output_still_printed : forall body s s' e s1 e1, no_add body -> (forall r, Logged r ∉ fst (pieces body)) ->
  orun (OCapture body) s = (s', e) -> orun body s = (s1, e1) ->
  e = e1 /\ forall d, (forall b, d = Buf b -> b < next_buf s) ->
    text d s' = (text d s1 ++ match e with Some t => text_in d (stream_write (sys_err s) t) | None => "" end)%string.
Proof.
  intros body s s' e s1 e1 Hn Hl Ec Eu.
  destruct (run_effect (OCapture body) s s' e Hn) as (He & _ & _ & _ & _ & ws & W & T); [|done|].
  { intros r Hr. exfalso. apply (Hl r). cbn [pieces] in Hr. destruct (pieces body) as [l ep]. cbn [fst] in *. apply elem_of_app in Hr as [Hr|Hr]; [done|].
    destruct ep; [by apply elem_of_list_singleton in Hr|by apply elem_of_nil in Hr]. }
  destruct (run_effect body s s1 e1 Hn) as (He1 & _ & _ & _ & _ & ws1 & W1 & T1); [intros r Hr; by destruct (Hl r)|done|].
  cbn [pieces] in He, T. destruct (pieces body) as [l ep]. cbn [fst snd] in *. subst e e1. split; [done|]. intros d Hd.
  unfold text. rewrite W, W1, !text_in_app, T, T1 by done. rewrite effects_app, sapp_assoc. f_equal. f_equal. destruct ep as [t|]; [|done].
  unfold effects. cbn. apply sapp_nil.
Qed.
Print Assumptions C57_output_still_printed.
(** Missing: a body that installs a handler on the captured stderr has its records captured twice. *)
Theorem C57_handler_added_inside_refuted :
  let body := OSeq (OAddHandler (fun _ => true) msg) (OLog (LRec 30 "m")) in
  text (Buf 0) (fst (orun (OCapture body) (usual [0]))) = ("m" ++ nl ++ "m" ++ nl)%string.
Proof. by vm_compute. Qed.
Print Assumptions C57_handler_added_inside_refuted.
Example C57_example :
  let body := OSeq (OWrite false "a") (OSeq (OTry (OCapture (OSeq (OWrite true "b") (ORaise "tb1"))) OSkip)
    (OSeq (OLog (LRec 10 "dbg")) (OSeq (OSuppress (OWrite false "hidden")) (ORaise "tb2")))) in
  no_add body /\ fresh_ok (usual [30]) /\ text (Buf 0) (fst (orun (OCapture body) (usual [30]))) = ("abtb1dbg" ++ nl ++ "tb2")%string /\
  text (Buf 1) (fst (orun (OCapture body) (usual [30]))) = "btb1".
Proof.
  split; [by cbn|]. split; [|by vm_compute]. by apply (C57_reachable_states [30] OSkip (usual [30]) None).
Qed.

(** * C58 *)
(** With at least one handler configured, and all configured handlers taking the records that are logged, capturing
    changes nothing on any device that existed before (but adds the traceback of an escaping exception to stderr). *)
Theorem C58_same_logging_partial : forall body s s' e s1 e1, no_add body ->
  (forall r, Logged r ∈ fst (pieces body) -> normally_handled (root_handlers s) r) ->
  orun (OCapture body) s = (s', e) -> orun body s = (s1, e1) ->
  e = e1 /\ forall d, (forall b, d = Buf b -> b < next_buf s) ->
    text d s' = (text d s1 ++ match e with Some t => text_in d (stream_write (sys_err s) t) | None => "" end)%string.
Proof.
  intros body s s' e s1 e1 Hn Hl Ec Eu.
  destruct (run_effect (OCapture body) s s' e Hn) as (He & _ & _ & _ & _ & ws & W & T); [|done|].
  { intros r Hr. apply Hl. cbn [pieces] in Hr. destruct (pieces body) as [l ep]. cbn [fst] in *. apply elem_of_app in Hr as [Hr|Hr]; [done|].
    destruct ep; [by apply elem_of_list_singleton in Hr|by apply elem_of_nil in Hr]. }
  destruct (run_effect body s s1 e1 Hn Hl Eu) as (He1 & _ & _ & _ & _ & ws1 & W1 & T1).
  cbn [pieces] in He, T. destruct (pieces body) as [l ep]. cbn [fst snd] in *. subst e e1. split; [done|]. intros d Hd.
  unfold text. rewrite W, W1, !text_in_app, T, T1 by done. rewrite effects_app, sapp_assoc. f_equal. f_equal. destruct ep as [t|]; [|done].
  unfold effects. cbn. apply sapp_nil.
Qed.
Print Assumptions C58_same_logging_partial.
(** Refutation 1: a handler for errors prints debug records when a capturer is active. *)
Theorem C58_levels_ignored_refuted : forall m,
  text (Sink 2) (fst (orun (OLog (LRec 10 m)) (usual [40]))) = ""%string /\
  text (Sink 2) (fst (orun (OCapture (OLog (LRec 10 m))) (usual [40]))) = ("LOG:" ++ m ++ nl)%string.
Proof.
  intros m. split; [done|]. cbn -[String.append]. change (text_in (Sink 2) [(Buf 0, (m ++ nl)%string); (Sink 2, (("LOG:" ++ m) ++ nl)%string)] = ("LOG:" ++ m ++ nl)%string).
  rewrite text_in_cons_ne by done. rewrite text_in_cons_eq. change (text_in (Sink 2) []) with ""%string. by rewrite sapp_nil, sapp_assoc.
Qed.
Print Assumptions C58_levels_ignored_refuted.
(** Refutation 2: with logging not configured (the default) warnings are printed to stderr, but not while captured. *)
Theorem C58_default_warnings_lost_refuted : forall m,
  text (Sink 2) (fst (orun (OLog (LRec 30 m)) (usual []))) = (m ++ nl)%string /\
  text (Sink 2) (fst (orun (OCapture (OLog (LRec 30 m))) (usual []))) = ""%string.
Proof.
  intros m. split; [|done]. change (text_in (Sink 2) [(Sink 2, (m ++ nl)%string)] = (m ++ nl)%string). rewrite text_in_cons_eq. apply sapp_nil.
Qed.
Print Assumptions C58_default_warnings_lost_refuted.
(** Refutation 3: a handler the captured program installs is gone when the capturer is left. *)
Theorem C58_added_handler_dropped_refuted : forall a f s,
  root_handlers (fst (orun (OAddHandler a f) s)) = root_handlers s ++ [HStream (sys_err s) a f] /\
  root_handlers (fst (orun (OCapture (OAddHandler a f)) s)) = root_handlers s.
Proof. done. Qed.
Print Assumptions C58_added_handler_dropped_refuted.
Example C58_example : let body := OSeq (OLog (LRec 30 "w")) (OCapture (OSeq (OLog (LRec 40 "e")) (ORaise "tb"))) in
  no_add body /\ (forall r, Logged r ∈ fst (pieces body) -> normally_handled (root_handlers (usual [10; 30])) r).
Proof.
  split; [by cbn|]. intros r Hr. split; [done|]. intros st a f Hin. cbn in Hr.
  repeat (apply elem_of_cons in Hr as [Hr|Hr]; [try discriminate; injection Hr as ->; cbn in Hin; repeat (apply elem_of_cons in Hin as [Hin|Hin]; [injection Hin as -> -> ->; done|]); by apply elem_of_nil in Hin|]).
  by apply elem_of_nil in Hr.
Qed.

(** * C66 *)
(** Under the suppressor no write to stdout or stderr reaches any device, and afterwards the streams are the ones before;
    log records go to the configured handlers as without it. *)
Theorem C66_suppressed : forall body s s' e, no_add body -> (forall r, Logged r ∈ fst (pieces body) -> normally_handled (root_handlers s) r) ->
  orun (OSuppress body) s = (s', e) ->
  sys_out s' = sys_out s /\ sys_err s' = sys_err s /\ root_handlers s' = root_handlers s /\ e = snd (pieces body) /\
  forall d, (forall b, d = Buf b -> b < next_buf s) ->
    text d s' = (text d s ++ joined (map (fun x => match x with Logged r => text_in d (call_handlers s r) | _ => "" end%string) (fst (pieces body))))%string.
Proof.
  intros body s s' e Hn Hl Er.
  destruct (run_effect (OSuppress body) s s' e Hn) as (He & O & E & R & _ & ws & W & T); [|done|].
  { intros r Hr. apply Hl. cbn [pieces] in Hr. destruct (pieces body) as [l ep]. cbn [fst] in *. apply elem_of_list_In, filter_In in Hr as [Hr _]. by apply elem_of_list_In. }
  cbn [pieces] in He, T. destruct (pieces body) as [l ep]. cbn [fst snd] in *. split_and!; try done. intros d Hd.
  unfold text. rewrite W, text_in_app, T by done. f_equal. clear. unfold effects.
  induction l as [|[t|t|r] l IH]; [done|exact IH|exact IH|]. cbn. unfold joined in IH. by rewrite IH.
Qed.
Print Assumptions C66_suppressed.
Theorem C66_silence : forall body s s' e, no_add body -> (forall r, Logged r ∉ fst (pieces body)) -> orun (OSuppress body) s = (s', e) ->
  forall d, (forall b, d = Buf b -> b < next_buf s) -> text d s' = text d s.
Proof.
  intros body s s' e Hn Hl Er d Hd. destruct (C66_suppressed body s s' e Hn) as (_ & _ & _ & _ & H); [|done|].
  { intros r Hr. by destruct (Hl r). }
  rewrite (H d Hd). assert (E : forall l, (forall r, Logged r ∉ l) -> joined (map (fun x => match x with Logged r => text_in d (call_handlers s r) | _ => "" end%string) l) = ""%string).
  { clear. induction l as [|x l IH]; intros Hl; [done|]. assert (IH' := IH ltac:(intros r Hr; apply (Hl r); by right)).
    destruct x as [t|t|r]; [exact IH'|exact IH'|]. destruct (Hl r). left. }
  rewrite E by done. apply sapp_nil.
Qed.
Print Assumptions C66_silence.
(** Missing: a handler installed inside keeps writing to the suppressed stream after the suppressor is left. *)
Theorem C66_handler_added_inside_refuted : forall m,
  text (Sink 2) (fst (orun (OSeq (OAddHandler (fun _ => true) msg) (OLog (LRec 30 m))) (usual []))) = (m ++ nl)%string /\
  text (Sink 2) (fst (orun (OSeq (OSuppress (OAddHandler (fun _ => true) msg)) (OLog (LRec 30 m))) (usual []))) = ""%string.
Proof. intros m. split; [|done]. change (text_in (Sink 2) [(Sink 2, (m ++ nl)%string)] = (m ++ nl)%string). rewrite text_in_cons_eq. apply sapp_nil. Qed.
Print Assumptions C66_handler_added_inside_refuted.
Example C66_example : let body := OSeq (OWrite false "a") (OTry (OSeq (OWrite true "b") (ORaise "t")) (OCapture (OWrite false "c"))) in
  no_add body /\ (forall r, Logged r ∉ fst (pieces body)) /\ text (Sink 1) (fst (orun (OSeq body (OSuppress body)) (usual []))) = "ac"%string.
Proof.
  split; [by cbn|]. split; [|by vm_compute]. intros r Hr. cbn in Hr. repeat (apply elem_of_cons in Hr as [Hr|Hr]; [discriminate|]). by apply elem_of_nil in Hr.
Qed.
