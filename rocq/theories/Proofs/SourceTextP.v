From Coq Require Import String Ascii.
From Verif Require Import Lib.Py Lib.DictLemmas Model.SourceText Spec.SourceTextSpec.
Local Open Scope nat_scope.

(** strip *)
Lemma lstrip_spaces a s : spaces a -> lstrip (a ++ s) = lstrip s.
Proof. induction a as [|c a IH]; intros H; [done|]. cbn. rewrite H by left. apply IH. intros d Hd. apply H. by right. Qed.
Lemma lstrip_all a : spaces a -> lstrip a = [].
Proof. intros H. rewrite <- (app_nil_r a). by rewrite lstrip_spaces. Qed.
Lemma lstrip_form s : exists a, s = a ++ lstrip s /\ spaces a /\ (lstrip s = [] \/ exists c r, lstrip s = c :: r /\ is_space c = false).
Proof.
  induction s as [|c s (a & E & Ha & H)].
  - exists []. split_and!; [done| |by left]. intros c Hc. by apply elem_of_nil in Hc.
  - cbn. destruct (is_space c) eqn:Hs.
    + exists (c :: a). split_and!; [cbn; by f_equal| |done]. intros d Hd. apply elem_of_cons in Hd as [->|Hd]; auto.
    + exists []. split_and!; [done| |right; eauto]. intros d Hd. by apply elem_of_nil in Hd.
Qed.
Lemma spaces_rev a : spaces a -> spaces (rev a).
Proof. intros H c Hc. apply H. apply elem_of_list_In, in_rev. by apply elem_of_list_In. Qed.
Lemma rstrip_form s : exists b, s = rstrip s ++ b /\ spaces b /\ (rstrip s = [] \/ exists c r, rstrip s = r ++ [c] /\ is_space c = false).
Proof.
  unfold rstrip. destruct (lstrip_form (rev s)) as (a & E & Ha & H). exists (rev a). split_and!.
  - rewrite <- rev_app_distr, <- E. by rewrite rev_involutive.
  - by apply spaces_rev.
  - destruct H as [->|(c & r & -> & Hc)]; [by left|]. right. exists c, (rev r). by split.
Qed.
Lemma lstrip_has a b : (exists c, c ∈ a /\ is_space c = false) -> lstrip (a ++ b) = lstrip a ++ b.
Proof.
  induction a as [|c a IH]; intros (d & Hd & Hs); [by apply elem_of_nil in Hd|]. cbn. destruct (is_space c) eqn:Hc; [|done].
  apply IH. apply elem_of_cons in Hd as [->|Hd]; [congruence|eauto].
Qed.
Lemma rstrip_has a b : (exists c, c ∈ b /\ is_space c = false) -> rstrip (a ++ b) = a ++ rstrip b.
Proof.
  intros (c & Hc & Hs). unfold rstrip. rewrite rev_app_distr, lstrip_has, rev_app_distr; [by rewrite rev_involutive|].
  exists c. split; [|done]. apply elem_of_list_In, in_rev. rewrite rev_involutive. by apply elem_of_list_In.
Qed.
Lemma rstrip_spaces a s : spaces s -> rstrip (a ++ s) = rstrip a.
Proof. intros H. unfold rstrip. rewrite rev_app_distr, lstrip_spaces; [done|]. by apply spaces_rev. Qed.
Lemma startswith_spec p s : startswith p s = true <-> exists r, s = p ++ r.
Proof.
  revert s. induction p as [|a p IH]; intros s; cbn.
  - split; [eauto|done].
  - destruct s as [|b s]; [split; [done|intros (r & [=])]|]. rewrite andb_true_iff, bool_decide_eq_true, IH. split.
    + intros [-> (r & ->)]. by exists r.
    + intros (r & [= -> ->]). eauto.
Qed.
Lemma strip_def lead rest : spaces lead -> (exists c, c ∈ rest /\ is_space c = false) ->
  strip (lead ++ T "def " ++ rest) = T "def " ++ rstrip rest.
Proof. intros Hl Hr. unfold strip. rewrite lstrip_spaces by done. change (lstrip (T "def " ++ rest)) with (T "def " ++ rest). by apply rstrip_has. Qed.
Lemma def_line_spec l : startswith (T "def ") (strip l) = true <-> def_line l.
Proof.
  rewrite startswith_spec. split.
  - intros (r & E). destruct (lstrip_form l) as (a & El & Ha & _). destruct (rstrip_form (lstrip l)) as (b & Er & Hb & H).
    fold (strip l) in Er, H. rewrite E in Er, H.
    destruct H as [H|(c & m & H & Hc)]; [done|].
    destruct (rev r) as [|d r'] eqn:Er'.
    + assert (r = []) as -> by (by rewrite <- (rev_involutive r), Er'). rewrite app_nil_r in H. change (T "def ") with (T "def" ++ [SP]) in H.
      apply app_inj_tail in H as [_ <-]. done.
    + assert (r = rev r' ++ [d]) as Hr by (rewrite <- (rev_involutive r), Er'; done).
      rewrite Hr, app_assoc in H. apply app_inj_tail in H as [_ ->].
      exists a, (r ++ b), c. split_and!; [|done| |done].
      * rewrite El at 1. by rewrite Er, <- app_assoc.
      * rewrite Hr. apply elem_of_app. left. apply elem_of_app. right. left.
  - intros (lead & rest & c & -> & Hl & Hc & Hs). exists (rstrip rest). apply strip_def; eauto.
Qed.
Lemma find_char_app c a b : c ∉ a -> find_char c (a ++ c :: b) = Some (length a).
Proof.
  induction a as [|d a IH]; intros H; cbn.
  - by rewrite decide_True.
  - rewrite decide_False by (intros ->; apply H; left). rewrite IH; [done|]. intros Hin. apply H. by right.
Qed.
Lemma strip_name w1 n w2 : spaces w1 -> spaces w2 -> proper_name n -> strip (w1 ++ n ++ w2) = n.
Proof.
  intros H1 H2 ((c & n' & -> & Hc) & (d & m & Hd & Hs) & _). unfold strip. rewrite lstrip_spaces by done.
  change ((c :: n') ++ w2) with (c :: (n' ++ w2)). cbn [lstrip]. rewrite Hc. change (c :: (n' ++ w2)) with ((c :: n') ++ w2).
  rewrite rstrip_spaces by done. rewrite Hd. rewrite rstrip_has by (exists d; split; [left|done]). unfold rstrip. cbn. by rewrite Hs.
Qed.
Lemma name_line line ls lead w1 n w2 rest : line = lead ++ T "def " ++ w1 ++ n ++ w2 ++ "("%char :: rest ->
  spaces lead -> spaces w1 -> spaces w2 -> proper_name n -> name_in_lines (line :: ls) = Ok n.
Proof.
  intros -> Hl H1 H2 Hn. assert (Hp : is_space "("%char = false) by done.
  assert (Hex : exists c, c ∈ (w1 ++ n ++ w2 ++ "("%char :: rest) /\ is_space c = false).
  { exists "("%char. split; [|done]. rewrite !elem_of_app. right. right. right. left. }
  assert (Hdl : def_line (lead ++ T "def " ++ w1 ++ n ++ w2 ++ "("%char :: rest)).
  { destruct Hex as (c & Hc & Hs). exists lead, (w1 ++ n ++ w2 ++ "("%char :: rest), c. done. }
  cbn [name_in_lines]. rewrite (proj2 (def_line_spec _) Hdl). rewrite strip_def by done.
  assert (Hrs : exists r', rstrip (w1 ++ n ++ w2 ++ "("%char :: rest) = (w1 ++ n ++ w2) ++ "("%char :: r').
  { replace (w1 ++ n ++ w2 ++ "("%char :: rest) with ((w1 ++ n ++ w2) ++ "("%char :: rest) by (by rewrite <- !app_assoc). rewrite rstrip_has by (exists "("%char; split; [left|done]).
    destruct (rstrip_form ("("%char :: rest)) as (b & Eb & Hb & [H|(c & m & H & Hc)]).
    - exfalso. rewrite H in Eb. cbn in Eb. rewrite <- Eb in Hb. specialize (Hb "("%char ltac:(left)). congruence.
    - destruct (rstrip ("("%char :: rest)) as [|x r']; [by destruct m|]. injection Eb as <- _. by exists r'. }
  destruct Hrs as (r' & ->).
  assert (Hnp : "("%char ∉ T "def " ++ w1 ++ n ++ w2).
  { rewrite !elem_of_app. intros [H|[H|[H|H]]].
    - revert H. rewrite elem_of_list_In. cbn. intros H. repeat (destruct H as [H|H]; [done|]). done.
    - specialize (H1 _ H). congruence.
    - by apply Hn.
    - specialize (H2 _ H). congruence. }
  rewrite app_assoc. rewrite find_char_app by done. rewrite take_app. change (T "def ") with (T "def" ++ [SP]). rewrite <- app_assoc.
  rewrite drop_app_alt by done. f_equal. change ([SP] ++ w1 ++ n ++ w2) with ((SP :: w1) ++ n ++ w2). apply strip_name; [|done|done].
  intros c Hc. apply elem_of_cons in Hc as [->|Hc]; [done|auto].
Qed.
Lemma name_skip pre ls : (forall l, l ∈ pre -> ~ def_line l) -> name_in_lines (pre ++ ls) = name_in_lines ls.
Proof.
  induction pre as [|l pre IH]; intros H; [done|]. cbn [app name_in_lines]. destruct (startswith (T "def ") (strip l)) eqn:E.
  - apply def_line_spec in E. by destruct (H l ltac:(left)).
  - apply IH. intros x Hx. apply H. by right.
Qed.

(** lines *)
Lemma split_lf_ne s : split_lf s <> [].
Proof. induction s as [|c s IH]; [done|]. cbn [split_lf]. destruct (decide (c = LF)); [done|]. by destruct (split_lf s). Qed.
Lemma split_join ls : ls <> [] -> (forall l, l ∈ ls -> no_lf l) -> split_lf (join_lf ls) = ls.
Proof.
  induction ls as [|l ls IH]; intros Hn H; [done|]. assert (Hl : no_lf l) by (apply H; left).
  assert (Hone : forall s, no_lf l -> split_lf (l ++ s) = match split_lf s with x :: xs => (l ++ x) :: xs | [] => [l] end).
  { clear. intros s. induction l as [|c l IH]; intros H.
    - cbn. destruct (split_lf s) eqn:E; [by apply split_lf_ne in E|done].
    - cbn [app split_lf]. rewrite decide_False by (intros ->; apply H; left). rewrite IH by (intros Hin; apply H; by right). by destruct (split_lf s). }
  destruct ls as [|l2 ls].
  - cbn. rewrite <- (app_nil_r l) at 1. rewrite Hone by done. cbn. by rewrite app_nil_r.
  - change (join_lf (l :: l2 :: ls)) with (l ++ LF :: join_lf (l2 :: ls)). rewrite Hone by done. cbn [split_lf]. rewrite decide_True by done.
    rewrite IH by (done || intros x Hx; apply H; by right). by rewrite app_nil_r.
Qed.
Lemma join_split s : join_lf (split_lf s) = s.
Proof.
  induction s as [|c s IH]; [done|]. cbn [split_lf]. destruct (decide (c = LF)) as [->|].
  - destruct (split_lf s) as [|l ls] eqn:E; [by apply split_lf_ne in E|]. cbn. by rewrite <- IH.
  - destruct (split_lf s) as [|l ls] eqn:E; [by apply split_lf_ne in E|]. rewrite <- IH. by destruct ls.
Qed.
Lemma split_no_lf s l : l ∈ split_lf s -> no_lf l.
Proof.
  revert l. induction s as [|c s IH]; intros l; cbn [split_lf].
  - intros Hl. apply elem_of_list_singleton in Hl as ->. intros H. by apply elem_of_nil in H.
  - destruct (decide (c = LF)) as [->|Hc].
    + intros Hl. apply elem_of_cons in Hl as [->|Hl]; [intros H; by apply elem_of_nil in H|by apply IH].
    + destruct (split_lf s) as [|l1 ls].
      * intros Hl. apply elem_of_list_singleton in Hl as ->. intros H. apply elem_of_list_singleton in H. congruence.
      * intros Hl. apply elem_of_cons in Hl as [->|Hl].
        -- intros H. apply elem_of_cons in H as [H|H]; [congruence|]. by apply (IH l1 ltac:(left)).
        -- apply IH. by right.
Qed.
(** splitlines on plain text is split('\n') but for an empty last line *)
Definition drop_empty_last (ls : list text) : list text := match rev ls with [] :: r => rev r | _ => ls end.
Lemma break_plain c : is_break c = true -> (is_space c = true -> c = SP \/ c = TAB \/ c = LF) -> c = LF.
Proof.
  intros Hb Hp. assert (is_space c = true) as Hs.
  { unfold is_break in Hb. unfold is_space. destruct c as [[] [] [] [] [] [] [] []]; vm_compute in Hb |- *; congruence. }
  destruct (Hp Hs) as [->|[->| ->]]; [done|done|done].
Qed.
Lemma splitlines_plain s : plain s -> forall line, filter (fun l => blank l = false) (splitlines_from line s) =
  filter (fun l => blank l = false) (match split_lf s with l :: ls => (line ++ l) :: ls | [] => [] end).
Proof.
  induction s as [|c s IH]; intros Hp line.
  - cbn [splitlines_from split_lf]. rewrite app_nil_r. by destruct line.
  - assert (Hp' : plain s) by (intros d Hd; apply Hp; by right). cbn [splitlines_from split_lf].
    destruct (is_break c) eqn:Hb.
    + apply break_plain in Hb as ->; [|apply Hp; left]. rewrite decide_True by done. rewrite app_nil_r.
      assert (E : match s with c' :: s'' => if decide (LF = CR) then if decide (c' = LF) then splitlines_from [] s'' else splitlines_from [] s else splitlines_from [] s | [] => [] end = splitlines_from [] s).
      { destruct s; [done|]. by rewrite decide_False. }
      rewrite E. specialize (IH Hp' []). destruct (split_lf s) as [|l ls] eqn:El; [by apply split_lf_ne in El|].
      rewrite !(filter_cons _ line). cbn [app] in IH. rewrite IH. done.
    + rewrite decide_False by (intros ->; done). rewrite IH by done. destruct (split_lf s) as [|l ls] eqn:El; [by apply split_lf_ne in El|].
      by rewrite <- app_assoc.
Qed.
Lemma filter_bool (ls : list text) : List.filter (fun l => negb (blank l)) ls = filter (fun l => blank l = false) ls.
Proof. induction ls as [|l ls IH]; [done|]. cbn [List.filter]. rewrite filter_cons, IH. by destruct (blank l) eqn:E; cbn; case_decide. Qed.
Lemma nonblank_lines code : plain code -> List.filter (fun l => negb (blank l)) (splitlines code) = List.filter (fun l => negb (blank l)) (split_lf code).
Proof.
  intros Hp. rewrite !filter_bool. unfold splitlines. rewrite splitlines_plain by done. f_equal. destruct (split_lf code) eqn:E; [by apply split_lf_ne in E|done].
Qed.
Lemma blank_spec l : blank l = true <-> blank_line l.
Proof.
  unfold blank, blank_line. rewrite forallb_forall. split.
  - intros H c Hc. specialize (H c (proj1 (elem_of_list_In _ _) Hc)). apply orb_true_iff in H as [H|H]; apply bool_decide_eq_true in H; auto.
  - intros H c Hc. apply orb_true_iff. rewrite !bool_decide_eq_true. apply H. by apply elem_of_list_In.
Qed.
Lemma blank_false l : blank l = false <-> ~ blank_line l.
Proof. rewrite <- blank_spec. by destruct (blank l). Qed.

Lemma dedent_ok indent ls ls' : (forall l, l ∈ ls -> blank l = false) -> dedent indent ls = Ok ls' -> cleaned indent ls ls'.
Proof.
  revert ls'. induction ls as [|l ls IH]; intros ls' Hb E; cbn in E.
  - injection E as <-. constructor.
  - destruct (startswith indent l) eqn:Es; [|done]. apply startswith_spec in Es as (r & ->).
    destruct (dedent indent ls) as [x|] eqn:Ed; [|done]. cbn in E. injection E as <-. rewrite drop_app. apply cleaned_keep.
    + refine (proj1 (blank_false _) _). apply Hb. left.
    + apply IH; [|done]. intros y Hy. apply Hb. by right.
Qed.
Lemma dedent_total indent ls ls' : cleaned indent ls ls' -> dedent indent (List.filter (fun l => negb (blank l)) ls) = Ok ls'.
Proof.
  induction 1 as [|l ls ls' Hb H IH|l ls ls' Hb H IH]; [done| |]; cbn [List.filter].
  - apply blank_spec in Hb. by rewrite Hb.
  - rewrite (proj2 (blank_false _) Hb). cbn [negb dedent]. rewrite (proj2 (startswith_spec _ _)) by eauto. rewrite IH. cbn. by rewrite drop_app.
Qed.
Lemma dedent_err indent ls e : dedent indent ls = Err e -> e = AssertionError /\ exists l, l ∈ ls /\ forall r, l <> indent ++ r.
Proof.
  induction ls as [|l ls IH]; [done|]. cbn. destruct (startswith indent l) eqn:Es.
  - destruct (dedent indent ls) as [x|e'] eqn:Ed; [done|]. cbn. intros [= <-]. destruct (IH eq_refl) as (-> & y & Hy & H). split; [done|]. exists y. split; [by right|done].
  - intros [= <-]. split; [done|]. exists l. split; [left|]. intros r ->. assert (startswith indent (indent ++ r) = true) by (apply startswith_spec; eauto). congruence.
Qed.
Lemma cleaned_filter indent ls ls' : cleaned indent (List.filter (fun l => negb (blank l)) ls) ls' -> cleaned indent ls ls'.
Proof.
  revert ls'. induction ls as [|l ls IH]; intros ls' H; [done|]. cbn in H. destruct (blank l) eqn:Eb; cbn in H.
  - constructor; [by apply blank_spec|by apply IH].
  - inversion H as [|? ? ? Hb|l0 ls0 ls1 Hb Hc E1 E2]; subst.
    + apply blank_spec in Hb. congruence.
    + apply cleaned_keep; [done|by apply IH].
Qed.
(** the indent of a line *)
Definition indent_of (l : text) : text := take (length l - length (lstrip l)) l.
Lemma indent_spec l : exists r, l = indent_of l ++ r /\ spaces (indent_of l) /\ r = lstrip l /\ (r = [] \/ unindented r).
Proof.
  destruct (lstrip_form l) as (a & E & Ha & H). exists (lstrip l). unfold indent_of.
  assert (length l - length (lstrip l) = length a) as -> by (rewrite E at 1; rewrite app_length; lia).
  assert (take (length a) l = a) as -> by (rewrite E at 1; by rewrite take_app). split_and!; done.
Qed.
