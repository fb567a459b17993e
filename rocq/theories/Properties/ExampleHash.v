(** A compact collision-free hash for the examples: the value written out, every character behind a quote. *)
From Verif.Lib Require Import Py.
From Verif.Model Require Import PureAddr.
From Verif.Spec Require Import PureAddrSpec.
From Coq Require Import Ascii.

Fixpoint quote (s : string) (r : string) : string :=
  match s with EmptyString => String "."%char r | String c s' => String "'"%char (String c (quote s' r)) end.
Lemma quote_inj s : forall s' r r', quote s r = quote s' r' -> s = s' /\ r = r'.
Proof.
  induction s as [|c s IH]; intros [|c' s'] r r'; cbn; intros [=]; [done|]. destruct (IH _ _ _ H1) as [-> ->]. by subst.
Qed.
Fixpoint quote_list {X} (q : X -> string -> string) (l : list X) (r : string) : string :=
  match l with [] => String "."%char r | x :: l' => String ","%char (q x (quote_list q l' r)) end.
Lemma quote_list_inj {X} (q : X -> string -> string) : (forall x x' r r', q x r = q x' r' -> x = x' /\ r = r') ->
  forall l l' r r', quote_list q l r = quote_list q l' r' -> l = l' /\ r = r'.
Proof.
  intros Hq. induction l as [|x l IH]; intros [|x' l'] r r'; cbn; intros E; injection E as E; try done; try discriminate.
  destruct (Hq _ _ _ _ E) as [-> H1]. by destruct (IH _ _ _ H1) as [-> ->].
Qed.
Definition quote_addr (a : addr) (r : string) : string := quote (fst a) (quote (snd a) r).
Lemma quote_addr_inj a a' r r' : quote_addr a r = quote_addr a' r' -> a = a' /\ r = r'.
Proof. destruct a, a'. intros [? H]%quote_inj. apply quote_inj in H as [? ?]. cbn in *. by subst. Qed.
Definition quote_arg (x : string * addr) (r : string) : string := quote (fst x) (quote_addr (snd x) r).
Lemma quote_arg_inj x x' r r' : quote_arg x r = quote_arg x' r' -> x = x' /\ r = r'.
Proof. destruct x, x'. intros [? H]%quote_inj. apply quote_addr_inj in H as [? ?]. cbn in *. by subst. Qed.
Definition quote_guards (g : option (list string)) (r : string) : string :=
  match g with None => String "n"%char r | Some l => String "s"%char (quote_list quote l r) end.
Lemma quote_guards_inj g g' r r' : quote_guards g r = quote_guards g' r' -> g = g' /\ r = r'.
Proof. destruct g, g'; cbn; intros E; injection E as E; try done. apply quote_list_inj in E as [-> ->]; [done|apply quote_inj]. Qed.

Definition demo_prefix (d : string) : string := "str"%string.
Definition demo_hash (v : value string) : string :=
  match v with
  | VData d => String "D"%char (quote d "")
  | VArgs l => String "A"%char (quote_list quote_arg l "")
  | VFn f => String "F"%char (quote (fn_name f) (quote (fn_source f) (quote (island_name f) (quote (augmented f)
               (String (if strictly_autonomous f then "t" else "f")%char (quote_guards (guards f) ""))))))
  | VSig n fa i aa => String "S"%char (quote n (quote_addr fa (quote i (quote_addr aa ""))))
  end.
Lemma demo_collision_free : collision_free demo_prefix demo_hash.
Proof.
  intros v v' [= _ E]. destruct v as [d|l|[n s i au st g]|n fa i aa], v' as [d'|l'|[n' s' i' au' st' g']|n' fa' i' aa'];
    cbn in E; try discriminate E; injection E as E.
  - by apply quote_inj in E as [-> _].
  - apply quote_list_inj in E as [-> _]; [done|apply quote_arg_inj].
  - apply quote_inj in E as [-> E]. apply quote_inj in E as [-> E]. apply quote_inj in E as [-> E]. apply quote_inj in E as [-> E].
    injection E as E1 E. apply quote_guards_inj in E as [-> _]. by destruct st, st'.
  - apply quote_inj in E as [-> E]. apply quote_addr_inj in E as [-> E]. apply quote_inj in E as [-> E]. by apply quote_addr_inj in E as [-> _].
Qed.
