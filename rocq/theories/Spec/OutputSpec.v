(** What a program outputs, said without streams, handlers or buffers. *)
From Coq Require Import String.
From stdpp Require Import base list strings.
From Verif Require Import Model.Output.
Local Open Scope nat_scope.

(** One piece of output. *)
Inductive piece := ToOut (data : string) | ToErr (data : string) | Logged (r : lrec).
(** The pieces a program outputs, in order, and the exception that ends it.  A capturer adds the traceback of an exception
    that leaves it (to stderr); what is written inside a suppressor is not output, but log records are. *)
Definition is_logged (x : piece) : bool := match x with Logged _ => true | _ => false end.
Fixpoint pieces (p : oprog) : list piece * option string :=
  match p with
  | OSkip | OAddHandler _ _ => ([], None)
  | OWrite false d => ([ToOut d], None)
  | OWrite true d => ([ToErr d], None)
  | OLog r => ([Logged r], None)
  | OSeq p q => let '(l, e) := pieces p in match e with None => let '(l', e') := pieces q in (l ++ l', e') | Some t => (l, Some t) end
  | ORaise t => ([], Some t)
  | OTry p q => let '(l, e) := pieces p in match e with None => (l, None) | Some _ => let '(l', e') := pieces q in (l ++ l', e') end
  | OCapture p => let '(l, e) := pieces p in (l ++ match e with None => [] | Some t => [ToErr t] end, e)
  | OSuppress p => let '(l, e) := pieces p in (List.filter is_logged l, e)
  end.
(** How a piece reads in a transcript. *)
Definition transcript (l : list piece) : string :=
  joined (map (fun x => match x with ToOut d | ToErr d => d | Logged r => msg r ++ nl end)%string l).
(** The program installs no logging handlers of its own. *)
Fixpoint no_add (p : oprog) : Prop :=
  match p with
  | OAddHandler _ _ => False
  | OSeq p q | OTry p q => no_add p /\ no_add q
  | OCapture p | OSuppress p => no_add p
  | _ => True
  end.
(** Every configured handler takes record [r], and there is one. *)
Definition normally_handled (hs : list handler) (r : lrec) : Prop :=
  hs <> [] /\ forall st accepts fmt, HStream st accepts fmt ∈ hs -> accepts r = true.
(** Buffers not created yet are used nowhere; every new interpreter state satisfies this. *)
Definition uses_only_old (n : nat) (ws : list (device * string)) : Prop := forall b data, (Buf b, data) ∈ ws -> b < n.
Definition fresh_ok (s : ostate) : Prop :=
  uses_only_old (next_buf s) (written s) /\
  (forall data, uses_only_old (next_buf s) (stream_write (sys_out s) data)) /\
  (forall data, uses_only_old (next_buf s) (stream_write (sys_err s) data)) /\
  (forall h r, h ∈ root_handlers s -> uses_only_old (next_buf s) (emit h r)).
