(** The storage accesses of PureExec.v, done on files as Layout.v places them.  Definitions only.
    hash_addresses.py:16 (an address is a tuple of two strings, used as a key as it is); pure_core_classes.py:601-668, 689-705
    (execution_results, execution_requests), value_addresses.py:44-133 (value_store), pure_core_classes.py:834-864, 951-976
    (run_history).
    Simplified: a write goes to its file directly.  (FileDirDict.__setitem__ of the protected stores tests once more whether the
    file exists; PureExec.v makes this test before, as FirstEntryDict does; a file that appears between the test and the write
    is overwritten in both.)  The two source texts of run_history.py are left out, as in PureExec.v. *)
From Coq Require Import QArith String.
From stdpp Require Import gmap.
From Verif Require Import Lib.Py Model.PureAddr Model.PureExec Model.Layout.
Local Open Scope nat_scope.

Section OnFiles.
  Context {D : Type}.
  (** what files hold: a pickled value, a pickled address, the pickled True of a request, an environment summary, a text *)
  Inductive content := CValue (v : value D) | CAddress (b : addr) | CTrue | CSummary | CText.
  Context (digest : nat -> string -> string).
  Context (root_of : nat -> settings).          (* the root dictionary at each location *)
  Context (run_text : nat -> string).           (* session_id: "run" and a random signature, pure_core_classes.py:928 *)

  Definition addr_key (a : addr) : key := [fst a; snd a].
  Definition at_ (l : nat) (st : Layout.store) (k : key) : path := file_of digest (store_settings digest (root_of l) st) k.
  Definition val_file (l : nat) (b : addr) : path := at_ l ValueStore (addr_key b).
  Definition res_file (l : nat) (a : addr) : path := at_ l ExecutionResults (addr_key a).
  Definition req_file (l : nat) (a : addr) : path := at_ l ExecutionRequests (addr_key a).
  (** pure_core_classes.py:953-956, 965-967, 972-974: the files of run_history *)
  Definition hist_file (l : nat) (h : hrec) : path :=
    match h with
    | HAttempt a r => at_ l HistoryJson (addr_key a ++ ["attempts"; (run_text r +:+ "_a")]%string)
    | HResult a r _ => at_ l HistoryPkl (addr_key a ++ ["results"; run_text r]%string)
    | HOutput a r => at_ l HistoryTxt (addr_key a ++ ["outputs"; (run_text r +:+ "_output")]%string)
    end.
  Definition hist_content (h : hrec) : content := match h with HAttempt _ _ => CSummary | HResult _ _ b => CAddress b | HOutput _ _ => CText end.

  Definition fperform (e : event (D := D)) (f : gmap path content) (μ : local) : gmap path content * local * ans e :=
    match e return gmap path content * local * ans e with
    | EHasVal l b => (f, μ, bool_decide (is_Some (f !! val_file l b)))
    | EGetVal l b => (f, μ, match f !! val_file l b with Some (CValue v) => Some v | _ => None end)
    | EWriteVal l b v => (<[val_file l b := CValue v]> f, μ, tt)
    | EHasRes l a => (f, μ, bool_decide (is_Some (f !! res_file l a)))
    | EGetRes l a => (f, μ, match f !! res_file l a with Some (CAddress b) => Some b | _ => None end)
    | EWriteRes l a b => (<[res_file l a := CAddress b]> f, μ, tt)
    | EHasReq l a => (f, μ, bool_decide (is_Some (f !! req_file l a)))
    | EWriteReq l a => (<[req_file l a := CTrue]> f, μ, tt)
    | EDelReq l a => (delete (req_file l a) f, μ, tt)                 (* delete_if_exists *)
    | EHist l h => (<[hist_file l h := hist_content h]> f, μ, tt)
    | ERand => (f, Local (lp μ) (rnd μ) (S (nrnd μ)) (rid μ) (nrid μ), rnd μ (nrnd μ))
    | ERun => (f, Local (lp μ) (rnd μ) (nrnd μ) (rid μ) (S (nrid μ)), rid μ (nrid μ))
    | EGetP p => (f, μ, lp μ p)
    | ESetP p x => (f, Local (fun q => if decide (q = p) then x else lp μ q) (rnd μ) (nrnd μ) (rid μ) (nrid μ), tt)
    end.
  (** running a tree of accesses on files *)
  Fixpoint frun {X} (t : tree X) (f : gmap path content) (μ : local) : gmap path content * local * X :=
    match t with
    | Done x => (f, μ, x)
    | Step e k => let '(f1, μ1, a) := fperform e f μ in frun (k a) f1 μ1
    end.
  (** many processes over the same files, as sys_step and sys_run of PureExec.v *)
  Context (data_prefix : D -> string) (hash_of : value D -> string).
  Context (body : fn_state -> list (string * arg D) -> prog (D := D)) (guards_of : fn_state -> list (guard_fn (D := D))).
  Definition fsys : Type := gmap path content * list (proc (D := D)).
  Definition fsys_step (s : fsys) (x : action (D := D)) : fsys :=
    let '(f, ps) := s in
    match x with
    | Spawn j μ => (f, ps ++ [Proc j (op_tree data_prefix hash_of body guards_of (j_ses j) (j_fuel j) (j_portal j) (j_op j)) μ])
    | Sched i =>
        match ps !! i with
        | Some (Proc j (Step e k) μ) => let '(f1, μ1, a) := fperform e f μ in (f1, <[i := Proc j (k a) μ1]> ps)
        | _ => s
        end
    | UserDrop l a => (delete (req_file l a) f, ps)
    end.
  Definition fsys_run (s : fsys) (xs : list (action (D := D))) : fsys := fold_left fsys_step xs s.
End OnFiles.
