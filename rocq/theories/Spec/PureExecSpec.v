(** What users know about pure functions: plain evaluation without any store, and what may be found in the stores. *)
From Verif.Lib Require Import Py.
From Verif.Model Require Import PureAddr PureExec.
From Verif.Spec Require Import PureAddrSpec.
From stdpp Require Import gmap.

Section Spec.
  Context {D : Type} (data_prefix : D -> string) (hash_of : value D -> string).
  Notation kwargs := (list (string * arg D)).
  Notation text_of := (text_of data_prefix hash_of).
  Context (body : fn_state -> kwargs -> prog (D := D)) (guards_of : fn_state -> list (guard_fn (D := D))).

  (** ** Plain evaluation: no caching, no storage.  [None]: more steps are needed. *)
  Section Eval.
    Variable call : fn_state -> kwargs -> option (res (arg D)).
    Fixpoint denote (b : prog) : option (res (arg D)) :=
      match b with
      | Ret x => Some (Ok x)
      | Raise e => Some (Err e)
      | Call f kw k => match call f kw with Some r => denote (k r) | None => None end
      | Swarm f kw k =>
          match PureAddr.get_address data_prefix hash_of f kw with
          | Ok a => denote (k (Ok (AResult a)))
          | Err e => denote (k (Err e))
          end
      | Look _ => None          (* such a function has no value of its own *)
      end.
    Fixpoint accepts (gs : list guard_fn) (kw : kwargs) : option bool :=
      match gs with
      | [] => Some true
      | g :: gs' =>
          match (match g with GPure f => call f kw | GAuto b => denote (b (sort_keys kw)) end) with
          | Some (Ok _) => accepts gs' kw
          | Some (Err _) => Some false
          | None => None
          end
      end.
  End Eval.
  Fixpoint eval (n : nat) (f : fn_state) (kw : kwargs) : option (res (arg D)) :=
    match n with
    | O => None
    | S n' =>
        match accepts (eval n') (guards_of f) kw with
        | None => None
        | Some false => Some (Err AssertionError)
        | Some true => denote (eval n') (body f (sort_keys kw))
        end
    end.
  (** the call f(kw) has outcome r *)
  Definition evaluates (f : fn_state) (kw : kwargs) (r : res (arg D)) : Prop := exists n, eval n f kw = Some r.

  (** ** Ordinary programs: functions return values and call each other with values (not with address objects, and
      not with SortedKwArgs objects). *)
  Definition ordinary_value (x : arg D) : Prop := exists v, x = AVal v /\ forall m, v <> VArgs m.
  Definition ordinary_outcome (r : res (arg D)) : Prop := forall x, r = Ok x -> ordinary_value x.
  Definition ordinary_args (kw : kwargs) : Prop := NoDup (map fst kw) /\ forall k x, (k, x) ∈ kw -> ordinary_value x.
  Fixpoint ordinary (b : prog (D := D)) : Prop :=
    match b with
    | Ret x => ordinary_value x
    | Raise _ => True
    | Call _ kw k => ordinary_args kw /\ forall r, ordinary_outcome r -> ordinary (k r)
    | Swarm _ kw k => ordinary_args kw /\ forall a, ordinary (k (Ok (AResult a)))
    | Look _ => False
    end.
  (** all functions are ordinary; guards are ordinary and do not look inside their arguments (they treat a value and its
      address alike) *)
  Definition ordinary_functions : Prop :=
    (forall f kw, ordinary_args kw -> ordinary (body f kw)) /\
    (forall f g, GAuto g ∈ guards_of f ->
       (forall kw, ordinary_args kw -> ordinary (g kw)) /\
       (forall kw kw', same_args data_prefix hash_of kw kw' -> g (sort_keys kw') = g (sort_keys kw))).
  (** functions return values (not addresses), with no other restriction *)
  Fixpoint returns_values (b : prog (D := D)) : Prop :=
    match b with
    | Ret x => exists v, x = AVal v
    | Raise _ => True
    | Call _ _ k | Swarm _ _ k => forall r, returns_values (k r)
    | Look k => forall x, returns_values (k x)
    end.

  (** ** What is found in the stores *)
  Notation state := (@state D).
  (** the address of the call f(kw) *)
  Definition call_addr (f : fn_state) (kw : kwargs) : addr :=
    match PureAddr.get_address data_prefix hash_of f kw with Ok a => a | Err _ => (""%string, ""%string) end.
  (** values are stored under their own addresses *)
  Definition values_correct (σ : state) : Prop := forall l b v, vals (σ l) !! b = Some v -> text_of v = b.
  (** every stored result points to a stored value *)
  Definition results_resolve (σ : state) : Prop :=
    forall l a b, ress (σ l) !! a = Some b -> exists v, vals (σ l) !! b = Some v.
  (** the function, the arguments and the signature of the call with address a are stored at location l *)
  Definition call_stored (σ : state) (l : nat) (a : addr) : Prop :=
    exists f packed,
      a = ((fn_name f ++ "_" ++ island_name f)%string,
           snd (text_of (VSig (fn_name f) (text_of (VFn f)) (island_name f) (text_of (VArgs packed))))) /\
      vals (σ l) !! text_of (VFn f) = Some (VFn f) /\
      vals (σ l) !! text_of (VArgs packed) = Some (VArgs packed) /\
      vals (σ l) !! signature_addr a
        = Some (VSig (fn_name f) (text_of (VFn f)) (island_name f) (text_of (VArgs packed))).
  Definition requests_callable (σ : state) : Prop := forall l a, a ∈ reqs (σ l) -> call_stored σ l a.
  (** ... together with all argument values of an ordinary call *)
  Definition ordinary_call_stored (σ : state) (l : nat) (a : addr) : Prop :=
    exists f kw, ordinary_args kw /\ a = call_addr f kw /\ call_stored σ l a /\
      forall k v, (k, AVal v) ∈ kw -> vals (σ l) !! text_of v = Some v.
  Definition requests_ordinary (σ : state) : Prop := forall l a, a ∈ reqs (σ l) -> ordinary_call_stored σ l a.
  (** stored results of ordinary calls are what plain evaluation gives *)
  Definition results_faithful (σ : state) : Prop :=
    forall l f kw b, ordinary_args kw -> ress (σ l) !! call_addr f kw = Some b ->
      exists v, b = text_of v /\ evaluates f kw (Ok (AVal v)).

  (** the stores only grew: no value or result was lost or changed, the history was extended *)
  Definition grew (σ σ' : state) : Prop :=
    (forall l b v, vals (σ l) !! b = Some v -> vals (σ' l) !! b = Some v) /\
    (forall l a, is_Some (ress (σ l) !! a) -> is_Some (ress (σ' l) !! a)) /\
    (forall l, hist (σ l) `prefix_of` hist (σ' l)).
  Definition results_kept (σ σ' : state) : Prop := forall l a b, ress (σ l) !! a = Some b -> ress (σ' l) !! a = Some b.
  (** a request disappears only when its result is stored *)
  Definition requests_kept (σ σ' : state) : Prop :=
    forall l a, a ∈ reqs (σ l) -> a ∈ reqs (σ' l) \/ is_Some (ress (σ' l) !! a).

  (** ** Many processes *)
  (** the operation uses ordinary arguments *)
  Definition op_ordinary (o : op (D := D)) : Prop :=
    match o with
    | OCall _ kw | OSwarm _ kw | ORun _ kw => ordinary_args kw
    | OSwarmList _ _ l | ORunList _ _ _ l => Forall ordinary_args l
    | OWorker _ => True
    end.
  (** the library's shuffles are permutations *)
  Definition shuffles_permute (o : op (D := D)) : Prop :=
    match o with
    | OSwarmList s1 _ _ => forall l, s1 l ≡ₚ l
    | ORunList s1 s2 _ _ => (forall l, s1 l ≡ₚ l) /\ (forall l, s2 l ≡ₚ l)
    | _ => True
    end.
  (** what the finished operation of a job has returned, if it did not fail *)
  Definition returned (j : job (D := D)) (σ : state) (out : list (arg D)) : Prop :=
    let l := loc (j_ses j) (j_portal j) in
    match j_op j with
    | OCall f kw => exists v, out = [AVal v] /\ is_Some (ress (σ l) !! call_addr f kw)
    | OSwarm f kw => out = [AResult (call_addr f kw)]
    | ORun f kw => out = [AResult (call_addr f kw)] /\ is_Some (ress (σ l) !! call_addr f kw)
    | OSwarmList _ f kws => out = map (fun kw => AResult (call_addr f kw)) kws
    | ORunList _ _ f kws => out = map (fun kw => AResult (call_addr f kw)) kws /\
        forall kw, kw ∈ kws -> is_Some (ress (σ l) !! call_addr f kw)
    | OWorker _ => out = []
    end.
  (** compared with plain evaluation; [r = None]: the operation ran out of its step budget *)
  Definition agrees_with_evaluation (j : job (D := D)) (r : option (res (list (arg D)))) : Prop :=
    match j_op j with
    | OCall f kw => (r = None -> eval (j_fuel j) f kw = None) /\
        (forall v, r = Some (Ok [AVal v]) -> evaluates f kw (Ok (AVal v))) /\
        (forall e, r = Some (Err e) -> evaluates f kw (Err e))
    | ORun f kw => (r = None -> eval (j_fuel j) f kw = None) /\
        (forall out, r = Some (Ok out) -> exists v, evaluates f kw (Ok (AVal v))) /\
        (forall e, r = Some (Err e) -> evaluates f kw (Err e))
    | ORunList _ _ f kws => forall e, r = Some (Err e) -> exists kw, kw ∈ kws /\ evaluates f kw (Err e)
    | OSwarm _ _ | OSwarmList _ _ _ => exists out, r = Some (Ok out)
    | OWorker a => forall e, r = Some (Err e) -> exists f kw, ordinary_args kw /\ a = call_addr f kw /\ evaluates f kw (Err e)
    end.
  (** a history in which every operation is well-formed *)
  Definition jobs_ok (ok : op (D := D) -> Prop) (xs : list (action (D := D))) : Prop :=
    forall j μ, Spawn j μ ∈ xs -> shuffles_permute (j_op j) /\ ok (j_op j).
  (** no stores, or stores filled by earlier histories *)
  Definition stores_sound (σ : state) : Prop :=
    values_correct σ /\ results_resolve σ /\ requests_callable σ.
  Definition stores_ordinary (σ : state) : Prop :=
    stores_sound σ /\ requests_ordinary σ /\ results_faithful σ.

  (** ** One operation after the other, each possibly dying after any of its accesses (m of them are made) *)
  Inductive history (ok : op (D := D) -> Prop) : state -> state -> Prop :=
  | HNow σ : history ok σ σ
  | HThen σ σ1 σ2 (j : job (D := D)) μ m μ' t : history ok σ σ1 -> shuffles_permute (j_op j) -> ok (j_op j) ->
      run_n m (op_tree data_prefix hash_of body guards_of (j_ses j) (j_fuel j) (j_portal j) (j_op j)) σ1 μ = (σ2, μ', t) ->
      history ok σ σ2.
End Spec.
