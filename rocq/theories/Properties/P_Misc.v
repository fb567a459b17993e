(** C62, C63. *)
From Verif.Lib Require Import Py.
From Verif.Model Require Import Misc.
From Verif.Proofs Require Import MiscP.
From stdpp Require Import sets.

(** C62: dictionary -> keywords -> dictionary gives the same dictionary (same names, order and values), for every
    dictionary of constants. *)
Theorem C62_dict_round_trip : forall C (d : dict string C), NoDup (dict_keys d) ->
  convert_astkeywords_to_dict (convert_dict_to_astkeywords d) = Ok (map (fun '(k, c) => (k, VConst c)) d).
Proof. exact @convert_back. Qed.
Print Assumptions C62_dict_round_trip.
(** The reverse conversion of arbitrary keywords: fails if some value is not a literal, otherwise every name has the
    value of its last keyword. *)
Theorem C62_keywords_meaning : forall C (kws : list (string * expr C)),
  (forall k e, (k, e) ∈ kws -> exists v, literal_eval e = Ok v) ->
  exists d, convert_astkeywords_to_dict kws = Ok d /\
    forall k, dict_get k d = match List.find (fun '(k', _) => bool_decide (k' = k)) (rev kws) with
                        | Some (_, e) => match literal_eval e with Ok v => Some v | Err _ => None end
                        | None => None end.
Proof. intros. by apply (convert_gen kws []). Qed.
Print Assumptions C62_keywords_meaning.
(** What a literal expression means (independent of the evaluator), and that the evaluator agrees. *)
Inductive denotes {C} : expr C -> pyval C -> Prop :=
| DConst c : denotes (EConstant c) (VConst c)
| DTuple es vs : Forall2 denotes es vs -> denotes (ETuple es) (VTuple vs)
| DList es vs : Forall2 denotes es vs -> denotes (EList es) (VList vs).
Theorem C62_literals : forall C (e : expr C) v, literal_eval e = Ok v <-> denotes e v.
Proof.
  intros C. fix IH 1.
  intros [c|l|l|] v; cbn [literal_eval].
  - split; [intros [= <-]; constructor|]. by inversion 1.
  - assert (Hall : forall vs, (fix all l := match l with [] => Ok [] | e :: l => let? v := literal_eval e in let? vs := all l in Ok (v :: vs) end) l = Ok vs
                 <-> Forall2 (@denotes C) l vs).
    { induction l as [|e l IHl]; intros vs; [split; [intros [= <-]; constructor|by inversion 1]|]. specialize (IH e).
      destruct (literal_eval e) as [w|x]; cbn [rbind]; [|split; [done|]; inversion 1 as [|? v' ? vs' H1 H2]; subst; by apply IH in H1].
      split.
      - match goal with |- context [rbind (?f l) _] => destruct (f l) as [vs'|y] end; cbn [rbind]; [|done]. intros [= <-]. constructor; [by apply IH|by apply IHl].
      - inversion 1 as [|? v' ? vs' H1 H2]; subst. apply IH in H1. apply IHl in H2. rewrite H2. cbn. congruence. }
    clear IH. match goal with |- context [rbind (?f l) _] => destruct (f l) as [vs|x] end; cbn [rbind].
    + split; [intros [= <-]; constructor; by apply Hall|]. inversion 1 as [|? vs' H1|]; subst. apply Hall in H1. congruence.
    + split; [done|]. inversion 1 as [|? vs' H1|]; subst. by apply Hall in H1.
  - assert (Hall : forall vs, (fix all l := match l with [] => Ok [] | e :: l => let? v := literal_eval e in let? vs := all l in Ok (v :: vs) end) l = Ok vs
                 <-> Forall2 (@denotes C) l vs).
    { induction l as [|e l IHl]; intros vs; [split; [intros [= <-]; constructor|by inversion 1]|]. specialize (IH e).
      destruct (literal_eval e) as [w|x]; cbn [rbind]; [|split; [done|]; inversion 1 as [|? v' ? vs' H1 H2]; subst; by apply IH in H1].
      split.
      - match goal with |- context [rbind (?f l) _] => destruct (f l) as [vs'|y] end; cbn [rbind]; [|done]. intros [= <-]. constructor; [by apply IH|by apply IHl].
      - inversion 1 as [|? v' ? vs' H1 H2]; subst. apply IH in H1. apply IHl in H2. rewrite H2. cbn. congruence. }
    clear IH. match goal with |- context [rbind (?f l) _] => destruct (f l) as [vs|x] end; cbn [rbind].
    + split; [intros [= <-]; constructor; by apply Hall|]. inversion 1 as [| |? vs' H1]; subst. apply Hall in H1. congruence.
    + split; [done|]. inversion 1 as [| |? vs' H1]; subst. by apply Hall in H1.
  - split; [done|]. by inversion 1.
Qed.
Print Assumptions C62_literals.
Theorem C62_non_literal_rejected : forall C (kws : list (string * expr C)) k e x,
  (k, e) ∈ kws -> literal_eval e = Err x -> exists y, convert_astkeywords_to_dict kws = Err y.
Proof. intros. by eapply convert_err. Qed.
Print Assumptions C62_non_literal_rejected.
Example C62_example :
  convert_astkeywords_to_dict (convert_dict_to_astkeywords [("island_name", "isl"); ("x", "")])%string
    = Ok [("island_name", VConst "isl"); ("x", VConst "")]%string
  /\ convert_astkeywords_to_dict [("a", EOther)]%string = (Err ValueError : res (dict string (pyval nat)))
  /\ NoDup (dict_keys [("island_name", "isl"); ("x", "")]%string).
Proof. split_and!; [done..|]. repeat constructor; set_solver. Qed.

(** C63: each part is created with the shared parameters, overridden by its own, and its file type is its name. *)
Theorem C63_part_parameters : forall V (nav : string -> V) shared individual name params,
  NoDup (dict_keys shared) -> NoDup (dict_keys params) -> dict_get name individual = Some params ->
  exists d, dict_get name (overlapping_multi_dict nav shared individual) = Some d /\
    dict_get "file_type"%string d = Some (nav name) /\
    forall k, k <> "file_type"%string ->
      dict_get k d = match dict_get k params with Some v => Some v | None => dict_get k shared end.
Proof.
  intros * Hs Hp Hg. rewrite parts_get, Hg. eexists. split; [done|]. cbn beta. split.
  - rewrite subdict_params_get by done. by rewrite decide_True.
  - intros k Hk. rewrite subdict_params_get by done. by rewrite decide_False.
Qed.
Print Assumptions C63_part_parameters.
Theorem C63_parts_are_the_given_names : forall V (nav : string -> V) shared individual,
  dict_keys (overlapping_multi_dict nav shared individual) = dict_keys individual.
Proof. intros *. unfold dict_keys, overlapping_multi_dict. rewrite map_map. apply map_ext. by intros []. Qed.
Print Assumptions C63_parts_are_the_given_names.
Example C63_example :
  overlapping_multi_dict (fun s => s) [("dir_name", "d"); ("file_type", "zzz")]%string
     [("json", [("digest_len", "0")]); ("py", [("dir_name", "e"); ("file_type", "txt")])]%string
  = [("json", [("dir_name", "d"); ("file_type", "json"); ("digest_len", "0")]);
     ("py", [("dir_name", "e"); ("file_type", "py")])]%string.
Proof. reflexivity. Qed.
