(** C87: installing and uninstalling packages. *)
From Verif.Lib Require Import Py.
From Verif.Model Require Import PackageManager.
From stdpp Require Import gmap.
From Coq Require Import Ascii.
Local Open Scope string_scope.

(** ** Specification *)
(** a plain package name: it has no '=' *)
Fixpoint plain_name (s : string) : Prop := match s with EmptyString => True | String c r => c <> "="%char /\ plain_name r end.
(** some installed package contains module m, or it belongs to Python *)
Definition on_disk (modules : string -> string -> list string) (builtin : list string) (m : string) (d : gmap string string) : Prop :=
  m ∈ builtin \/ exists n v, d !! n = Some v /\ m ∈ modules n v.
(** a new Python process *)
Definition new_process (e : env) : env := Env (dists e) ∅.
(** the version that was asked for; an empty text asks for none *)
Definition asked (version : option string) : option string := match version with Some "" => None | x => x end.
(** which version pip chooses *)
Definition chosen (releases : string -> list string) (name : string) (upgrade : bool) (version : option string) (now : option string) : option string :=
  match asked version, now with
  | Some v, _ => if decide (v ∈ releases name) then Some v else None
  | None, Some w => if upgrade then Some (default w (head (releases name))) else Some w
  | None, None => head (releases name)
  end.

Lemma parse_plain s : plain_name s -> parse_spec s = (s, None).
Proof.
  induction s as [|c s IH]; [done|]. intros [Hc Hs]. specialize (IH Hs). cbn [parse_spec]. rewrite IH.
  destruct c as [[] [] [] [] [] [] [] []]; try done; by destruct Hc.
Qed.
Lemma parse_version s v : plain_name s -> parse_spec (String.append s (String.append "==" v)) = (s, Some v).
Proof.
  induction s as [|c s IH]; [done|]. intros [Hc Hs]. specialize (IH Hs).
  change (String.append (String c s) (String.append "==" v)) with (String c (String.append s (String.append "==" v))).
  cbn [parse_spec]. rewrite IH. destruct c as [[] [] [] [] [] [] [] []]; try done; by destruct Hc.
Qed.
Section P.
  Context (releases : string -> list string) (modules : string -> string -> list string) (builtin : list string).
  Notation on_disk := (on_disk modules builtin).
  Notation chosen := (chosen releases).
  Notation install_package := (install_package releases modules builtin).
  Notation uninstall_package := (uninstall_package modules builtin).
  Lemma find_found m d : find_module modules builtin m d <> None <-> on_disk m d.
  Proof.
    unfold find_module, P_PackageManager.on_disk. destruct (decide (m ∈ builtin)); [by split; auto|].
    split.
    - destruct (head _) as [[n0 v]|] eqn:E; [|done]. intros _. right. exists n0, v.
      destruct (List.filter _ _) as [|x l] eqn:Ef; [done|]. cbn in E. injection E as ->.
      assert (H : (n0, v) ∈ List.filter (fun '(n, v) => bool_decide (m ∈ modules n v)) (map_to_list d)) by (rewrite Ef; left).
      apply elem_of_list_In, filter_In in H as [H1 H2]. apply elem_of_list_In, elem_of_map_to_list in H1. by apply bool_decide_eq_true in H2.
    - intros [?|(n0 & v & H1 & H2)]; [done|].
      assert (H : (n0, v) ∈ List.filter (fun '(n, v) => bool_decide (m ∈ modules n v)) (map_to_list d)).
      { apply elem_of_list_In, filter_In. split; [by apply elem_of_list_In, elem_of_map_to_list|by apply bool_decide_eq_true]. }
      destruct (List.filter _ _); [by apply elem_of_nil in H|done].
  Qed.
  Lemma pip_chosen name upgrade version e : plain_name name ->
    match chosen name upgrade version (dists e !! name) with
    | None => pip_install releases upgrade (package_spec name version) e = None
    | Some v => pip_install releases upgrade (package_spec name version) e = Some (Env (<[name := v]> (dists e)) (loaded e))
    end.
  Proof.
    intros Hp. unfold P_PackageManager.chosen, pip_install, package_spec.
    assert (Hn : forall w, dists e !! name = Some w -> Some e = Some (Env (<[name := w]> (dists e)) (loaded e))).
    { intros w Hw. rewrite insert_id by done. by destruct e. }
    assert (Hnone : match (match dists e !! name with Some w => if upgrade then Some (default w (head (releases name))) else Some w | None => head (releases name) end) with
      | Some v => match parse_spec name with
          | (n, Some v) => if decide (v ∈ releases n) then Some (Env (<[n := v]> (dists e)) (loaded e)) else None
          | (n, None) => match dists e !! n, upgrade with
            | Some _, false => Some e
            | Some w, true => match releases n with v :: _ => Some (Env (<[n := v]> (dists e)) (loaded e)) | [] => Some e end
            | None, _ => match releases n with v :: _ => Some (Env (<[n := v]> (dists e)) (loaded e)) | [] => None end end
          end = Some (Env (<[name := v]> (dists e)) (loaded e))
      | None => match parse_spec name with
          | (n, Some v) => if decide (v ∈ releases n) then Some (Env (<[n := v]> (dists e)) (loaded e)) else None
          | (n, None) => match dists e !! n, upgrade with
            | Some _, false => Some e
            | Some w, true => match releases n with v :: _ => Some (Env (<[n := v]> (dists e)) (loaded e)) | [] => Some e end
            | None, _ => match releases n with v :: _ => Some (Env (<[n := v]> (dists e)) (loaded e)) | [] => None end end
          end = None end).
    { rewrite parse_plain by done. destruct (dists e !! name) as [w|] eqn:Ew; [|by destruct (releases name)].
      destruct upgrade; [|by apply Hn]. destruct (releases name); [by apply Hn|done]. }
    destruct version as [[|c v]|]; cbn [asked].
    - destruct (decide (EmptyString = EmptyString)) as [_|]; [exact Hnone|done].
    - destruct (decide (String c v = EmptyString)) as [|_]; [done|]. rewrite parse_version by done. by destruct (decide _).
    - exact Hnone.
  Qed.

  (** install_package, exactly: it fails without changing anything if pip has no suitable release; otherwise the chosen
      version is installed, nothing else is installed or removed, and the call returns if a module of the package's name is
      loaded or on disk; it is loaded then. *)
  Theorem C87_install_exact : forall name upgrade version e, plain_name name ->
    let '(e', r) := install_package name upgrade version e in
    match chosen name upgrade version (dists e !! name) with
    | None => r = PipFailed /\ e' = e
    | Some v => dists e' = <[name := v]> (dists e) /\
        (r = Returned /\ is_Some (loaded e' !! name) /\ (forall m, m <> name -> loaded e' !! m = loaded e !! m) \/
         r = ImportFailed /\ loaded e' = loaded e /\ loaded e !! name = None /\ ~ on_disk name (dists e')) /\
        (r = Returned <-> is_Some (loaded e !! name) \/ on_disk name (dists e'))
    end.
  Proof.
    intros name upgrade version e Hp. unfold PackageManager.install_package. pose proof (pip_chosen name upgrade version e Hp) as H.
    destruct (chosen _ _ _ _) as [v|]; rewrite H; [|done]. unfold import_module. cbn [loaded dists].
    destruct (loaded e !! name) eqn:El; [cbn; rewrite El; split; [done|]; split; [left; eauto|split; eauto]|].
    pose proof (find_found name (<[name:=v]> (dists e))) as Hf.
    destruct (find_module _ _ _ _) as [x|]; cbn [dists loaded].
    - split; [done|]. split; [left|].
      + split; [done|]. split; [rewrite lookup_insert; eauto|]. intros m Hm. by rewrite lookup_insert_ne.
      + split; [|done]. intros _. right. by apply Hf.
    - split; [done|]. split; [right|].
      + split; [done|]. split; [done|]. split; [done|]. intros X. by apply Hf in X.
      + split; [done|]. intros [[? ?]|X]; [done|]. by apply Hf in X.
  Qed.
  (** uninstall_package, exactly: the package is removed, no other is; the call returns if no module of that name is left on
      disk and raises otherwise; after it returned, a new process cannot import the module. *)
  Theorem C87_uninstall_exact : forall name e,
    let '(e', r) := uninstall_package name e in
    dists e' = delete name (dists e) /\
    (r = Returned \/ r = ValidationFailed) /\
    (r = Returned <-> ~ on_disk name (dists e')) /\
    (r = Returned -> import_module modules builtin name (new_process e') = None) /\
    (r = Returned -> loaded e' = loaded e).
  Proof.
    intros name e. unfold PackageManager.uninstall_package, import_module, reload, pip_uninstall. cbn [loaded dists new_process].
    pose proof (find_found name (delete name (dists e))) as Hf.
    destruct (loaded e !! name) eqn:El; cbn [dists loaded]; destruct (find_module _ _ _ _) eqn:Em; cbn [dists loaded]; rewrite ?Em;
      (split; [done|]; split; [auto|]; split; [|split]); rewrite ?lookup_empty; try done.
    all: split; [try done|done || (intros X; exfalso; apply X, Hf; done)].
    all: intros _ X; by apply Hf in X.
  Qed.
End P.
Print Assumptions C87_install_exact.
Print Assumptions C87_uninstall_exact.
(** A failed installation may have installed the package: the package scikit-learn contains the module sklearn. *)
Definition ex_releases (n : string) : list string := if decide (n = "scikit-learn") then ["1.5"] else if decide (n = "nx") then ["2"; "1"] else [].
Definition ex_modules (n v : string) : list string := if decide (n = "scikit-learn") then ["sklearn"] else if decide (n = "nx") then ["nx"] else [].
Theorem C87_failed_install_installs_refuted :
  exists e', install_package ex_releases ex_modules [] "scikit-learn" false None (Env ∅ ∅) = (e', ImportFailed) /\ dists e' !! "scikit-learn" = Some "1.5".
Proof. eexists. split; [vm_compute; reflexivity|by vm_compute]. Qed.
Print Assumptions C87_failed_install_installs_refuted.
(** After uninstall_package has returned, the process that called it still imports the module if it was loaded. *)
Theorem C87_uninstalled_still_imports_refuted : forall modules builtin name e x, loaded e !! name = Some x -> ~ on_disk modules builtin name (delete name (dists e)) ->
  exists e', uninstall_package modules builtin name e = (e', Returned) /\ import_module modules builtin name e' = Some e'.
Proof.
  intros modules builtin name e x Hl Hd. pose proof (C87_uninstall_exact modules builtin name e) as H.
  destruct (uninstall_package modules builtin name e) as [e' r]. destruct H as (Hd' & _ & Hr & _ & Hl'). exists e'.
  assert (r = Returned) as -> by (apply Hr; by rewrite Hd'). split; [done|]. unfold import_module. rewrite (Hl' eq_refl), Hl. done.
Qed.
Print Assumptions C87_uninstalled_still_imports_refuted.
(** After an upgrade the session goes on with the old code. *)
Theorem C87_upgrade_keeps_old_code_refuted :
  exists e', install_package ex_releases ex_modules [] "nx" true None (Env {[ "nx" := "1" ]} {[ "nx" := ("nx", "1") ]}) = (e', Returned) /\
    dists e' !! "nx" = Some "2" /\ loaded e' !! "nx" = Some ("nx", "1").
Proof. eexists. split; [vm_compute; reflexivity|by vm_compute]. Qed.
Print Assumptions C87_upgrade_keeps_old_code_refuted.
Example C87_example : plain_name "nx" /\
  (let '(e, r) := install_package ex_releases ex_modules [] "nx" false (Some "1") (Env ∅ ∅) in
   (r, dists e !! "nx", loaded e !! "nx")) = (Returned, Some "1", Some ("nx", "1")) /\
  snd (install_package ex_releases ex_modules [] "nx" false (Some "3") (Env ∅ ∅)) = PipFailed /\
  snd (uninstall_package ex_modules ["nx"] "nx" (Env {[ "nx" := "1" ]} ∅)) = ValidationFailed.
Proof. split; [repeat (split; [discriminate|]); exact I|]. by vm_compute. Qed.
