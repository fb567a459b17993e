(** Model of pythagoras/_810_output_manipulators: OutputCapturer and OutputSuppressor, and of the parts of Python's
    sys.stdout, sys.stderr and logging.root they replace.  Definitions only.

    Simplifications: flush() is not modelled; os.devnull discards (after OutputSuppressor closes it a later write to it
    raises ValueError, which logging reports on stderr: the message itself is lost in both cases); loggers other than the
    root are taken to propagate to it and to pass the record (the logger's own level is checked before, unchanged). *)
From Coq Require Import String.
From stdpp Require Import base list strings.
Local Open Scope nat_scope.

(** Devices that keep text: files or terminals of the system, and StringIO buffers (numbered in order of creation). *)
Inductive device := Sink (k : nat) | Buf (b : nat).
Global Instance device_eq_dec : EqDecision device.
Proof. solve_decision. Defined.

(** Objects sys.stdout can be: an ordinary stream, output_capturer.py:15-45 _TeeStream, and open(os.devnull). *)
Inductive stream := Plain (k : nat) | Tee (original : stream) (buffer : nat) | DevNull.

(** A logging.LogRecord: level and message. *)
Record lrec := LRec { lvl : nat; msg : string }.
(** Handlers: an ordinary one (level and filters: [accepts]; formatter: [fmt]), and output_capturer.py:47-73 _CaptureHandler. *)
Inductive handler :=
  | HStream (target : stream) (accepts : lrec -> bool) (fmt : lrec -> string)
  | HCap (buffer : nat) (original_handlers : list handler).

Record ostate := OState {
  written : list (device * string);  (* every write so far, in order *)
  sys_out : stream; sys_err : stream;
  root_handlers : list handler;
  next_buf : nat
}.
Definition emit_all (ws : list (device * string)) (s : ostate) : ostate :=
  OState (written s ++ ws) (sys_out s) (sys_err s) (root_handlers s) (next_buf s).
Definition set_streams (o e : stream) (s : ostate) : ostate := OState (written s) o e (root_handlers s) (next_buf s).
Definition set_handlers (h : list handler) (s : ostate) : ostate := OState (written s) (sys_out s) (sys_err s) h (next_buf s).
(** what can be read from a device *)
Definition joined (l : list string) : string := foldr String.append EmptyString l.
Definition text_in (d : device) (ws : list (device * string)) : string :=
  joined (map snd (List.filter (fun w => bool_decide (fst w = d)) ws)).
Definition text (d : device) (s : ostate) : string := text_in d (written s).

(** output_capturer.py:32-39 _TeeStream.write: the original first, then the buffer *)
Fixpoint stream_write (st : stream) (data : string) : list (device * string) :=
  match st with
  | Plain k => [(Sink k, data)]
  | Tee o b => stream_write o data ++ [(Buf b, data)]
  | DevNull => []
  end.
(** handler.emit.  For _CaptureHandler (output_capturer.py:64-73): format, write to the buffer, then emit() of each
    original handler - emit, not handle, so their levels and filters are not consulted. *)
Definition nl : string := String (Ascii.ascii_of_nat 10) EmptyString.
Fixpoint emit (h : handler) (r : lrec) : list (device * string) :=
  match h with
  | HStream st _ fmt => stream_write st (fmt r ++ nl)%string
  | HCap b hs => (Buf b, (msg r ++ nl)%string) :: (fix go (l : list handler) := match l with [] => [] | h :: t => emit h r ++ go t end) hs
  end.
(** logging.Logger.callHandlers + Handler.handle: level and filters, then emit; logging.Handler.__init__ leaves a
    _CaptureHandler at level NOTSET with no filters (output_capturer.py:61). *)
Definition handle (h : handler) (r : lrec) : list (device * string) :=
  match h with HStream _ accepts _ => if accepts r then emit h r else [] | HCap _ _ => emit h r end.
(** With no handler at all, logging.lastResort prints to the current sys.stderr at level WARNING or more. *)
Definition WARNING : nat := 30.
Definition call_handlers (s : ostate) (r : lrec) : list (device * string) :=
  match root_handlers s with
  | [] => if WARNING <=? lvl r then stream_write (sys_err s) (msg r ++ nl)%string else []
  | hs => flat_map (fun h => handle h r) hs
  end.

(** Programs run under the manipulators. *)
Inductive oprog :=
  | OSkip
  | OWrite (err : bool) (data : string)       (* sys.stdout.write / sys.stderr.write, print *)
  | OLog (r : lrec)                           (* logger.log *)
  | OAddHandler (accepts : lrec -> bool) (fmt : lrec -> string)  (* root.addHandler(StreamHandler()): targets sys.stderr *)
  | OSeq (p q : oprog)
  | ORaise (tb : string)                      (* an exception; tb is its printed traceback *)
  | OTry (p q : oprog)                        (* try: p  except: q *)
  | OCapture (p : oprog)                      (* with OutputCapturer(): p *)
  | OSuppress (p : oprog).                    (* with OutputSuppressor(): p *)

(** output_capturer.py:75-90 __init__ and 92-98 __enter__; 100-107 __exit__ (traceback.print_exc() goes to the current
    sys.stderr before the streams are restored; nothing is returned, so the exception goes on).
    output_suppressor.py:10-23. *)
Fixpoint orun (p : oprog) (s : ostate) : ostate * option string :=
  match p with
  | OSkip => (s, None)
  | OWrite err data => (emit_all (stream_write (if err then sys_err s else sys_out s) data) s, None)
  | OLog r => (emit_all (call_handlers s r) s, None)
  | OAddHandler a f => (set_handlers (root_handlers s ++ [HStream (sys_err s) a f]) s, None)
  | OSeq p q => let '(s1, e) := orun p s in match e with None => orun q s1 | Some t => (s1, Some t) end
  | ORaise t => (s, Some t)
  | OTry p q => let '(s1, e) := orun p s in match e with None => (s1, None) | Some _ => orun q s1 end
  | OCapture p =>
      let b := next_buf s in
      let entered := OState (written s) (Tee (sys_out s) b) (Tee (sys_err s) b) [HCap b (root_handlers s)] (S b) in
      let '(s1, e) := orun p entered in
      let s2 := match e with None => s1 | Some t => emit_all (stream_write (sys_err s1) t) s1 end in
      (set_handlers (root_handlers s) (set_streams (sys_out s) (sys_err s) s2), e)
  | OSuppress p =>
      let '(s1, e) := orun p (set_streams DevNull DevNull s) in
      (set_streams (sys_out s) (sys_err s) s1, e)
  end.
