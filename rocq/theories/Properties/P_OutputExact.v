(** C109: what a captured block shows outside, exactly. *)
From Coq Require Import String.
From stdpp Require Import base list strings.
From Verif Require Import Model.Output Spec.OutputSpec Proofs.OutputP Properties.P_Output.
Local Open Scope nat_scope.

(** What one piece of output inside a capturer writes to an outside device [d], in terms of the streams and handlers that were
    there when the capturer was entered: text written to a stream goes there as usual; a log record is emitted by every
    handler that was configured, whatever its level and filters say, and by nothing else. *)
Definition shown_outside (s : ostate) (d : device) (x : piece) : string :=
  match x with
  | ToOut t => text_in d (stream_write (sys_out s) t)
  | ToErr t => text_in d (stream_write (sys_err s) t)
  | Logged r => joined (map (fun h => text_in d (emit h r)) (root_handlers s))
  end.
Lemma text_flat d {A} (f : A -> list (device * string)) l : text_in d (flat_map f l) = joined (map (fun x => text_in d (f x)) l).
Proof. induction l as [|x l IH]; [done|]. cbn [flat_map map]. rewrite text_in_app, IH. done. Qed.
(** On every device that existed before, a captured block leaves exactly this, in order: nothing is lost, reordered or doubled
    (in nested capturers too), except that handler levels and filters are not consulted.  An exception that leaves the block
    is printed to the stderr of the capturer as the last piece (part of [pieces (OCapture body)]). *)
Theorem C109_shown_outside : forall body s s' e, no_add body -> orun (OCapture body) s = (s', e) ->
  e = snd (pieces body) /\
  forall d, (forall b, d = Buf b -> b < next_buf s) ->
    text d s' = (text d s ++ joined (map (shown_outside s d) (fst (pieces (OCapture body)))))%string.
Proof.
  intros body s s' e Hn Er. cbn [orun] in Er. fold (entered s) in Er. destruct (orun body (entered s)) as [s1 e1] eqn:Ep.
  destruct (run_effect body (entered s) s1 e1 Hn) as (-> & O1 & E1 & R1 & N1 & ws & W & T); [|done|].
  { intros r _. split; [done|]. intros st a f Hin. cbn in Hin. by apply elem_of_list_singleton in Hin. }
  injection Er as <- <-. split; [done|]. intros d Hd.
  assert (Hx : forall x, text_in d (effect (entered s) x) = shown_outside s d x).
  { intros [t|t|r]; cbn [effect shown_outside].
    - cbn [entered sys_out stream_write]. rewrite text_in_app, (text_other_buf d) by done. apply sapp_nil.
    - cbn [entered sys_err stream_write]. rewrite text_in_app, (text_other_buf d) by done. apply sapp_nil.
    - rewrite entered_call, text_in_cons_ne; [apply text_flat|]. intros <-. specialize (Hd _ eq_refl). lia. }
  assert (Hold : old d (next_buf (entered s))) by (intros b Hb; specialize (Hd b Hb); cbn; lia).
  specialize (T d Hold). cbn [pieces]. destruct (pieces body) as [l e0] eqn:El. cbn [fst snd] in *.
  assert (Hl : effects (entered s) d l = joined (map (shown_outside s d) l)) by (unfold effects; f_equal; by apply map_ext).
  rewrite Hl in T. rewrite map_app, joined_app, <- T.
  destruct e0 as [t|]; unfold text; cbn [set_handlers set_streams emit_all written]; rewrite W.
  - rewrite !text_in_app. rewrite E1. cbn [entered written map]. rewrite <- (Hx (ToErr t)). cbn [effect]. rewrite !sapp_assoc.
    f_equal. f_equal. change (joined [text_in d (stream_write (sys_err (entered s)) t)]) with (text_in d (stream_write (sys_err (entered s)) t) ++ "")%string. by rewrite sapp_nil.
  - rewrite text_in_app. cbn [entered written map]. change (joined []) with ""%string. by rewrite sapp_nil.
Qed.
Print Assumptions C109_shown_outside.
Lemma append_cancel (a b c : string) : (a ++ b)%string = (a ++ c)%string -> b = c.
Proof. induction a as [|x a IH]; [done|]. intros H. apply IH. change (String x (a ++ b)%string = String x (a ++ c)%string) in H. by injection H. Qed.
(** When capturing is invisible: a record logged inside reads outside as it would without the capturer, on every device, exactly
    if the configured handlers together write what they would write if each of them accepted the record - for instance if one
    is configured and all accept it, or if none is configured and the record is below WARNING. *)
Theorem C109_invisible_exactly : forall r s d, (forall b, d = Buf b -> b < next_buf s) ->
  text d (fst (orun (OCapture (OLog r)) s)) = text d (fst (orun (OLog r) s)) <->
  joined (map (fun h => text_in d (emit h r)) (root_handlers s)) = text_in d (call_handlers s r).
Proof.
  intros r s d Hd. destruct (orun (OCapture (OLog r)) s) as [s' e] eqn:E. destruct (C109_shown_outside (OLog r) s s' e I E) as [_ H].
  cbn [fst]. rewrite (H d Hd). cbn [fst pieces app map shown_outside orun]. unfold text. cbn [emit_all written]. rewrite text_in_app.
  change (joined [joined (map (fun h => text_in d (emit h r)) (root_handlers s))]) with (joined (map (fun h => text_in d (emit h r)) (root_handlers s)) ++ "")%string.
  rewrite sapp_nil. split; [apply append_cancel|by intros ->].
Qed.
Print Assumptions C109_invisible_exactly.
Theorem C109_invisible_cases : forall r s d, (forall b, d = Buf b -> b < next_buf s) ->
  normally_handled (root_handlers s) r \/ root_handlers s = [] /\ lvl r < WARNING ->
  text d (fst (orun (OCapture (OLog r)) s)) = text d (fst (orun (OLog r) s)).
Proof.
  intros r s d Hd H. apply C109_invisible_exactly; [done|]. destruct H as [H|[H1 H2]].
  - rewrite call_handled by done. by rewrite text_flat.
  - unfold call_handlers. rewrite H1. destruct (Nat.leb_spec WARNING (lvl r)); [lia|done].
Qed.
Print Assumptions C109_invisible_cases.
Example C109_example : let body := OSeq (OLog (LRec 10 "debug")) (OCapture (OSeq (OWrite true "x") (ORaise "tb"))) in
  no_add body /\ text (Sink 2) (fst (orun (OCapture body) (usual [40; 20]))) = ("LOG:debug" ++ nl ++ "LOG:debug" ++ nl ++ "xtbtb")%string.
Proof. by vm_compute. Qed.
