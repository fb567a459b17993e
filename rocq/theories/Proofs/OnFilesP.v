From Coq Require Import String.
From stdpp Require Import gmap.
From Verif Require Import Lib.Py Model.PureAddr Model.PureExec Model.Layout Model.OnFiles Spec.LayoutSpec Spec.OnFilesSpec Proofs.LayoutP.
Local Open Scope nat_scope.

Section Refine.
  Context {D : Type} (digest : nat -> string -> string) (root_of : nat -> settings) (run_text : nat -> string).
  Hypothesis Hroots : good_roots root_of.
  Hypothesis Hrun : forall r r', run_text r = run_text r' -> r = r'.
  Notation at_ := (at_ digest root_of).
  Notation holds := (holds (D := D) digest root_of run_text).
  Notation val_file := (val_file digest root_of). Notation res_file := (res_file digest root_of). Notation req_file := (req_file digest root_of).
  Notation hist_file := (hist_file digest root_of run_text).

  Lemma at_inj l l' st st' k k' : k <> [] -> k' <> [] -> at_ l st k = at_ l' st' k' -> l = l' /\ st = st' /\ k = k'.
  Proof.
    intros Hk Hk' E. destruct Hroots as [H0 Hs]. destruct (decide (l = l')) as [<-|Hn].
    - apply file_inj in E as [-> ->]; auto.
    - exfalso. apply (separate_files _ _ (at_ l st k) (Hs l l' Hn)); [apply file_below_root; auto|]. rewrite E. apply file_below_root; auto.
  Qed.
  Lemma key_inj a b : addr_key a = addr_key b -> a = b.
  Proof. destruct a, b. cbn. by intros [= -> ->]. Qed.
  Lemma val_inj l b l' b' : val_file l b = val_file l' b' -> l = l' /\ b = b'.
  Proof. intros (-> & _ & E)%at_inj; [|done..]. auto using key_inj. Qed.
  Lemma res_inj l b l' b' : res_file l b = res_file l' b' -> l = l' /\ b = b'.
  Proof. intros (-> & _ & E)%at_inj; [|done..]. auto using key_inj. Qed.
  Lemma req_inj l b l' b' : req_file l b = req_file l' b' -> l = l' /\ b = b'.
  Proof. intros (-> & _ & E)%at_inj; [|done..]. auto using key_inj. Qed.
  Lemma val_res l b l' a : val_file l b <> res_file l' a. Proof. by intros (_ & [=] & _)%at_inj. Qed.
  Lemma val_req l b l' a : val_file l b <> req_file l' a. Proof. by intros (_ & [=] & _)%at_inj. Qed.
  Lemma res_req l b l' a : res_file l b <> req_file l' a. Proof. by intros (_ & [=] & _)%at_inj. Qed.
  Lemma hist_at l h : exists st k, hist_file l h = at_ l st k /\ k <> [] /\ match st with HistoryJson | HistoryPkl | HistoryTxt => True | _ => False end.
  Proof. destruct h; eexists _, _; (split; [reflexivity|]; split; [|exact I]); by destruct a. Qed.
  Lemma val_hist l b l' h : val_file l b <> hist_file l' h.
  Proof. destruct (hist_at l' h) as (st & k & -> & Hk & Hs). intros (_ & <- & _)%at_inj; done. Qed.
  Lemma res_hist l b l' h : res_file l b <> hist_file l' h.
  Proof. destruct (hist_at l' h) as (st & k & -> & Hk & Hs). intros (_ & <- & _)%at_inj; done. Qed.
  Lemma req_hist l b l' h : req_file l b <> hist_file l' h.
  Proof. destruct (hist_at l' h) as (st & k & -> & Hk & Hs). intros (_ & <- & _)%at_inj; done. Qed.
  Lemma String_length_app x y : String.length (x +:+ y)%string = String.length x + String.length y.
  Proof. induction x as [|c x IH]; [done|]. change (String c x +:+ y)%string with (String c (x +:+ y)%string). cbn. by rewrite IH. Qed.
  Lemma app_cancel x y s : (x +:+ s = y +:+ s)%string -> x = y.
  Proof.
    revert y. induction x as [|c x IH]; intros [|d y] E; [done| | |].
    - exfalso. apply (f_equal String.length) in E. rewrite !String_length_app in E. cbn [String.length] in E. lia.
    - exfalso. apply (f_equal String.length) in E. rewrite !String_length_app in E. cbn [String.length] in E. lia.
    - change (String c (x +:+ s)%string = String d (y +:+ s)%string) in E. injection E as -> E. f_equal. by apply IH.
  Qed.
  (** the same place in the run history: the same record up to the address of the result *)
  Lemma hist_inj l h l' h' : hist_file l h = hist_file l' h' -> l = l' /\ (hist_content (D := D) h = hist_content h' -> h = h').
  Proof.
    destruct h as [a r|a r b|a r], h' as [a' r'|a' r' b'|a' r']; intros (-> & Es & E)%at_inj; try (by destruct a); try (by destruct a'); try done;
      (split; [done|]); intros Hc; destruct a as [x y], a' as [x' y']; cbn in E; injection E as -> -> E.
    - apply app_cancel, Hrun in E. by subst.
    - apply Hrun in E. injection Hc as ->. by subst.
    - apply app_cancel, Hrun in E. by subst.
  Qed.

  Lemma holds_write_val f σ l b v : holds f σ -> holds (<[val_file l b := CValue v]> f) (upd l (set_vals <[b := v]> (σ l)) σ).
  Proof.
    intros H l'. destruct (H l') as (H1 & H2 & H3 & H4 & H5). unfold upd.
    assert (forall p, p <> val_file l b -> <[val_file l b:=CValue v]> f !! p = f !! p) as Hne by (intros; by rewrite lookup_insert_ne).
    split; [|split; [|split; [|split]]].
    - intros b'. destruct (decide (l' = l)) as [->|Hl]; cbn [vals set_vals].
      + destruct (decide (b' = b)) as [->|Hb]; [by rewrite !lookup_insert|]. rewrite Hne by (by intros [_ ->]%val_inj).
        rewrite lookup_insert_ne by done. done.
      + rewrite Hne; [done|]. by intros [-> _]%val_inj.
    - intros a. rewrite Hne by (intros E; by apply (val_res l b l' a)). by destruct (decide (l' = l)) as [->|].
    - intros a. rewrite Hne by (intros E; by apply (val_req l b l' a)). by destruct (decide (l' = l)) as [->|].
    - intros h Hh. rewrite Hne by (intros E; by apply (val_hist l b l' h)). apply H4. by destruct (decide (l' = l)) as [->|].
    - intros h. rewrite Hne by (intros E; by apply (val_hist l b l' h)). intros Hh%H5. by destruct (decide (l' = l)) as [->|].
  Qed.
  Lemma holds_write_res f σ l a b : holds f σ -> holds (<[res_file l a := CAddress b]> f) (upd l (set_ress <[a := b]> (σ l)) σ).
  Proof.
    intros H l'. destruct (H l') as (H1 & H2 & H3 & H4 & H5). unfold upd.
    assert (forall p, p <> res_file l a -> <[res_file l a:=CAddress b]> f !! p = f !! p) as Hne by (intros; by rewrite lookup_insert_ne).
    split; [|split; [|split; [|split]]].
    - intros b'. rewrite Hne by (intros E; by apply (val_res l' b' l a)). by destruct (decide (l' = l)) as [->|].
    - intros a'. destruct (decide (l' = l)) as [->|Hl]; cbn [ress set_ress].
      + destruct (decide (a' = a)) as [->|Hb]; [by rewrite !lookup_insert|]. rewrite Hne by (by intros [_ ->]%res_inj).
        rewrite lookup_insert_ne by done. done.
      + rewrite Hne; [done|]. by intros [-> _]%res_inj.
    - intros a'. rewrite Hne by (intros E; by apply (res_req l a l' a')). by destruct (decide (l' = l)) as [->|].
    - intros h Hh. rewrite Hne by (intros E; by apply (res_hist l a l' h)). apply H4. by destruct (decide (l' = l)) as [->|].
    - intros h. rewrite Hne by (intros E; by apply (res_hist l a l' h)). intros Hh%H5. by destruct (decide (l' = l)) as [->|].
  Qed.
  Lemma holds_req (f f' : gmap path (content (D := D))) (σ : state (D := D)) (l : nat) (a : addr) (g : gset addr -> gset addr) (c : option (content (D := D))) : holds f σ ->
    (forall p : path, p <> req_file l a -> f' !! p = f !! p) -> f' !! req_file l a = c ->
    (forall (r : gset addr) (a' : addr), a' <> a -> a' ∈ g r <-> a' ∈ r) -> (forall r : gset addr, c = if decide (a ∈ g r) then Some CTrue else None) ->
    holds f' (upd l (set_reqs g (σ l)) σ).
  Proof.
    intros H Hne Hc Hg Ha l'. destruct (H l') as (H1 & H2 & H3 & H4 & H5). unfold upd. split; [|split; [|split; [|split]]].
    - intros b'. rewrite Hne by (intros E; by apply (val_req l' b' l a)). by destruct (decide (l' = l)) as [->|].
    - intros a'. rewrite Hne by (intros E; by apply (res_req l' a' l a)). by destruct (decide (l' = l)) as [->|].
    - intros a'. destruct (decide (l' = l)) as [->|Hl]; cbn [reqs set_reqs].
      + destruct (decide (a' = a)) as [->|Hb]; [by rewrite Hc|]. rewrite Hne by (by intros [_ ->]%req_inj). rewrite H3.
        destruct (decide (a' ∈ reqs (σ l))), (decide (a' ∈ g (reqs (σ l)))) as [Hi|Hi]; rewrite (Hg _ _ Hb) in Hi; done.
      + rewrite Hne; [done|]. by intros [-> _]%req_inj.
    - intros h Hh. rewrite Hne by (intros E; by apply (req_hist l a l' h)). apply H4. by destruct (decide (l' = l)) as [->|].
    - intros h. rewrite Hne by (intros E; by apply (req_hist l a l' h)). intros Hh%H5. by destruct (decide (l' = l)) as [->|].
  Qed.
  Lemma holds_write_req (f : gmap path (content (D := D))) (σ : state (D := D)) (l : nat) (a : addr) : holds f σ -> holds (<[req_file l a := CTrue]> f) (upd l (set_reqs (fun r => r ∪ {[a]}) (σ l)) σ).
  Proof.
    intros H. eapply (holds_req f _ σ l a _ (Some CTrue) H); [intros; by rewrite lookup_insert_ne|by rewrite lookup_insert|set_solver|].
    intros r. rewrite decide_True by set_solver. done.
  Qed.
  Lemma holds_del_req (f : gmap path (content (D := D))) (σ : state (D := D)) (l : nat) (a : addr) : holds f σ -> holds (delete (req_file l a) f) (upd l (set_reqs (fun r => r ∖ {[a]}) (σ l)) σ).
  Proof.
    intros H. eapply (holds_req f _ σ l a _ None H); [intros; by rewrite lookup_delete_ne|by rewrite lookup_delete|set_solver|].
    intros r. rewrite decide_False by set_solver. done.
  Qed.
  Lemma holds_write_hist f σ l h : holds f σ -> holds (<[hist_file l h := hist_content h]> f) (upd l (add_hist h (σ l)) σ).
  Proof.
    intros H l'. destruct (H l') as (H1 & H2 & H3 & H4 & H5). unfold upd.
    assert (forall p, p <> hist_file l h -> <[hist_file l h:=hist_content h]> f !! p = f !! p) as Hne by (intros; by rewrite lookup_insert_ne).
    split; [|split; [|split; [|split]]].
    - intros b'. rewrite Hne by (intros E; by apply (val_hist l' b' l h)). by destruct (decide (l' = l)) as [->|].
    - intros b'. rewrite Hne by (intros E; by apply (res_hist l' b' l h)). by destruct (decide (l' = l)) as [->|].
    - intros b'. rewrite Hne by (intros E; by apply (req_hist l' b' l h)). by destruct (decide (l' = l)) as [->|].
    - intros h' Hh. destruct (decide (hist_file l' h' = hist_file l h)) as [E|E]; [rewrite E, lookup_insert; eauto|]. rewrite Hne by done.
      destruct (decide (l' = l)) as [->|]; [|by apply H4]. cbn [hist add_hist] in Hh. apply elem_of_app in Hh as [Hh|Hh]; [by apply H4|].
      apply elem_of_list_singleton in Hh as ->. done.
    - intros h' Hh. destruct (decide (hist_file l' h' = hist_file l h)) as [E|E].
      + rewrite E, lookup_insert in Hh. injection Hh as Hh. apply hist_inj in E as [-> E]. rewrite decide_True by done. cbn [hist add_hist].
        apply elem_of_app. right. apply elem_of_list_singleton. apply E. by rewrite Hh.
      + rewrite Hne in Hh by done. apply H5 in Hh. destruct (decide (l' = l)) as [->|]; [|done]. cbn [hist add_hist]. apply elem_of_app. by left.
  Qed.

  Lemma step_holds e f σ μ : holds f σ ->
    let '(f', μ', x) := fperform digest root_of run_text e f μ in
    let '(σ', μ'', y) := perform e σ μ in μ' = μ'' /\ x = y /\ holds f' σ'.
  Proof.
    intros H. destruct e; cbn [fperform perform]; (split; [done|]);
      try (split; [reflexivity|]; (exact H || by apply holds_write_val || by apply holds_write_res || by apply holds_write_req || by apply holds_del_req || by apply holds_write_hist)).
    - split; [|done]. destruct (H l) as (-> & _). destruct (vals (σ l) !! b); [by rewrite !bool_decide_eq_true_2 by eauto|done].
    - split; [|done]. destruct (H l) as (-> & _). by destruct (vals (σ l) !! b).
    - split; [|done]. destruct (H l) as (_ & -> & _). destruct (ress (σ l) !! a); [by rewrite !bool_decide_eq_true_2 by eauto|done].
    - split; [|done]. destruct (H l) as (_ & -> & _). by destruct (ress (σ l) !! a).
    - split; [|done]. destruct (H l) as (_ & _ & -> & _). destruct (decide (a ∈ reqs (σ l))) as [Hi|Hi].
      + by rewrite !bool_decide_eq_true_2 by eauto.
      + rewrite (bool_decide_eq_false_2 _ Hi). done.
  Qed.
  Lemma run_holds {X} (t : tree X) f σ μ : holds f σ ->
    let '(f', μ', x) := frun digest root_of run_text t f μ in
    let '(σ', μ'', y) := run t σ μ in μ' = μ'' /\ x = y /\ holds f' σ'.
  Proof.
    revert f σ μ. induction t as [x|e k IH]; intros f σ μ H; [done|]. cbn [frun run].
    pose proof (step_holds e f σ μ H) as Hs. destruct (fperform _ _ _ e f μ) as [[f1 μ1] x1]. destruct (perform e σ μ) as [[σ1 μ2] x2].
    destruct Hs as (-> & -> & H1). by apply IH.
  Qed.
  Lemma empty_holds : holds ∅ (fun _ => empty_store).
  Proof.
    intros l. split; [|split; [|split; [|split]]]; intros h; cbn; rewrite ?lookup_empty; try done.
    intros Hh. by apply elem_of_nil in Hh.
  Qed.
  Context (data_prefix : D -> string) (hash_of : value D -> string) (body : fn_state -> list (string * arg D) -> prog (D := D)) (guards_of : fn_state -> list (guard_fn (D := D))).
  Lemma sys_holds xs f σ ps : holds f σ ->
    let '(f', ps') := fsys_run digest root_of run_text data_prefix hash_of body guards_of (f, ps) xs in
    let '(σ', ps'') := sys_run data_prefix hash_of body guards_of (σ, ps) xs in ps' = ps'' /\ holds f' σ'.
  Proof.
    revert f σ ps. induction xs as [|x xs IH]; intros f σ ps H; [done|]. unfold fsys_run, sys_run. cbn [fold_left].
    destruct x as [j μ|i|l a]; cbn [fsys_step sys_step].
    - by apply IH.
    - destruct (ps !! i) as [[j [x|e k] μ]|]; try by apply IH.
      pose proof (step_holds e f σ μ H) as Hs. destruct (fperform _ _ _ e f μ) as [[f1 μ1] x1]. destruct (perform e σ μ) as [[σ1 μ2] x2].
      destruct Hs as (-> & -> & H1). by apply IH.
    - apply IH. by apply holds_del_req.
  Qed.
End Refine.
