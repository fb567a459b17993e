(** Reading an augmented source back: proofs. *)
From Coq Require Import String Ascii.
From Verif Require Import Lib.Py Model.Registry Model.AugText.
From Verif.Spec Require Import AugTextSpec.
Local Open Scope string_scope.

Lemma sapp_cons c a b : String c a +:+ b = String c (a +:+ b). Proof. reflexivity. Qed.
Lemma sapp_nil b : "" +:+ b = b. Proof. reflexivity. Qed.
Lemma sapp_assoc (a b c : string) : (a +:+ b) +:+ c = a +:+ (b +:+ c).
Proof. induction a as [|x a IH]; [done|]. rewrite !sapp_cons. by rewrite IH. Qed.
Lemma sapp_empty a : a +:+ "" = a.
Proof. induction a as [|x a IH]; [done|]. by rewrite sapp_cons, IH. Qed.
Lemma slen_app a b : String.length (a +:+ b) = (String.length a + String.length b)%nat.
Proof. induction a as [|x a IH]; [done|]. rewrite sapp_cons. cbn. by rewrite IH. Qed.
Lemma sapp_inj_r a b c : a +:+ c = b +:+ c -> a = b.
Proof.
  revert b. induction a as [|x a IH]; intros [|y b]; [done| | |].
  - rewrite sapp_cons, sapp_nil. intros E. apply (f_equal String.length) in E. cbn in E. rewrite slen_app in E. lia.
  - rewrite sapp_cons, sapp_nil. intros E. apply (f_equal String.length) in E. cbn in E. rewrite slen_app in E. lia.
  - rewrite !sapp_cons. intros [= -> E]. f_equal. by apply IH.
Qed.

Lemma quotable_cons c s : quotable (String c s) -> (c <> quote /\ c <> backslash /\ c <> nl /\ c <> cr) /\ quotable s.
Proof. intros H. split; [by apply (H "" c s)|]. intros a d b ->. by apply (H (String c a) d b). Qed.
Lemma lit_body_safe i rest : quotable i -> lit_body (i +:+ String quote rest) = Some (i, rest).
Proof.
  induction i as [|c i IH]; intros H; [done|]. apply quotable_cons in H as [(H1 & H2 & H3 & H4) H].
  rewrite sapp_cons. cbn [lit_body]. rewrite decide_False by done. rewrite decide_False by tauto. rewrite decide_False by done. by rewrite IH.
Qed.

Lemma read_list_names l : forall n rest, (forall x, x ∈ l -> quotable x) -> (List.length l < n)%nat ->
  read_list n (repr_names l +:+ String "]" rest) = Some (l, rest)
  /\ (l <> [] -> read_list n (String " " (repr_names l +:+ String "]" rest)) = Some (l, rest)).
Proof.
  induction l as [|x l IH]; intros n rest Hq Hn; destruct n as [|n]; try (cbn in Hn; lia).
  - split; [reflexivity|done].
  - assert (Hx : quotable x) by (apply Hq; left).
    assert (Hstep : forall u, read_list (S n) (String quote (x +:+ String quote (String "," u))) = match read_list n u with Some (l, u) => Some (x :: l, u) | None => None end).
    { intros u. change (read_list (S n) (String quote (x +:+ String quote (String "," u)))) with
        (match lit_body (x +:+ String quote (String "," u)) with
         | Some (v, t) => match skip_blanks t with
             | String d t' => if decide (d = ","%char) then match read_list n t' with Some (l, u) => Some (v :: l, u) | None => None end else if decide (d = "]"%char) then Some ([v], t') else None
             | EmptyString => None end
         | None => None end). by rewrite lit_body_safe. }
    assert (Hlast : read_list (S n) (String quote (x +:+ String quote (String "]" rest))) = Some ([x], rest)).
    { change (read_list (S n) (String quote (x +:+ String quote (String "]" rest)))) with
        (match lit_body (x +:+ String quote (String "]" rest)) with
         | Some (v, t) => match skip_blanks t with
             | String d t' => if decide (d = ","%char) then match read_list n t' with Some (l, u) => Some (v :: l, u) | None => None end else if decide (d = "]"%char) then Some ([v], t') else None
             | EmptyString => None end
         | None => None end). by rewrite lit_body_safe. }
    assert (E : read_list (S n) (repr_names (x :: l) +:+ String "]" rest) = Some (x :: l, rest)).
    { destruct l as [|y l].
      - change (repr_names [x]) with (String quote (x +:+ String quote "")). rewrite sapp_cons, sapp_assoc, sapp_cons, sapp_nil. exact Hlast.
      - change (repr_names (x :: y :: l)) with (String quote (x +:+ String quote (String "," (String " " (repr_names (y :: l)))))).
        rewrite sapp_cons, sapp_assoc, !sapp_cons, Hstep. destruct (IH n rest) as [_ IH2]; [intros z Hz; apply Hq; by right|cbn in Hn |- *; lia|]. by rewrite IH2. }
    split; [exact E|]. intros _. exact E.
Qed.
Lemma names_len l rest : (List.length l < String.length (repr_names l +:+ String "]" rest))%nat.
Proof.
  rewrite slen_app. cbn [String.length]. enough (List.length l <= String.length (repr_names l))%nat by lia.
  induction l as [|x [|y l] IH]; [done|change (repr_names [x]) with (String quote (x +:+ String quote "")); cbn [String.length List.length]; lia|]. change (repr_names (x :: y :: l)) with (String quote (x +:+ String quote (String "," (String " " (repr_names (y :: l)))))).
  cbn [String.length List.length] in *. rewrite slen_app. cbn [String.length]. lia.
Qed.
Lemma read_names l rest : (forall x, x ∈ l -> quotable x) -> read_list (String.length (repr_names l +:+ String "]" rest)) (repr_names l +:+ String "]" rest) = Some (l, rest).
Proof. intros H. apply read_list_names; [done|]. apply names_len. Qed.


Lemma kw_island n z : read_kwargs (S n) ("island_name='" +:+ z) =
  match lit_body z with
  | Some (v, t) =>
      match expect "," (skip_blanks t) with
      | Some t' => match read_kwargs n t' with Some (kw, u) => Some (("island_name", PStr v) :: kw, u) | None => None end
      | None => match expect ")" (skip_blanks t) with Some u => Some ([("island_name", PStr v)], u) | None => None end
      end
  | None => None
  end.
Proof. cbn [read_kwargs]. change (read_value (String quote z)) with (match lit_body z with Some (v, t) => Some (PStr v, t) | None => None end).
  change (skip_blanks ("island_name='" +:+ z)) with ("island_name='" +:+ z). change (expect ")" ("island_name='" +:+ z)) with (@None string). 
  change (read_ident ("island_name='" +:+ z)) with ("island_name", String "=" (String quote z)). cbv iota beta. change (expect "=" (String "=" (String quote z))) with (Some (String quote z)).
  rewrite decide_False by done. cbv iota beta. change (read_value (String quote z)) with (match lit_body z with Some (v, t) => Some (PStr v, t) | None => None end). by destruct (lit_body z) as [[v t]|].
Qed.
Lemma kw_guards n z : read_kwargs (S n) (" guards=[" +:+ z) =
  match read_list (String.length z) z with
  | Some (v, t) =>
      match expect "," (skip_blanks t) with
      | Some t' => match read_kwargs n t' with Some (kw, u) => Some (("guards", PList v) :: kw, u) | None => None end
      | None => match expect ")" (skip_blanks t) with Some u => Some ([("guards", PList v)], u) | None => None end
      end
  | None => None
  end.
Proof. cbn [read_kwargs]. 
  change (skip_blanks (" guards=[" +:+ z)) with ("guards=[" +:+ z). change (expect ")" ("guards=[" +:+ z)) with (@None string). 
  change (read_ident ("guards=[" +:+ z)) with ("guards", String "=" (String "[" z)). cbv iota beta. change (expect "=" (String "=" (String "[" z))) with (Some (String "[" z)).
  rewrite decide_False by done. cbv iota beta. change (read_value (String "[" z)) with (match read_list (String.length z) z with Some (l, t) => Some (PList l, t) | None => None end). by destruct (read_list _ z) as [[v t]|].
Qed.
Lemma skip_kwargs n s t : skip_blanks s = skip_blanks t -> read_kwargs n s = read_kwargs n t.
Proof. intros H. destruct n; [done|]. cbn [read_kwargs]. by rewrite H. Qed.

Lemma read_decorator_text d rest : readable_decor d -> read_decorator (dec_text d +:+ String nl rest) = Some (d, rest).
Proof.
  intros Hd. unfold read_decorator. destruct d as [b i|i g]; cbn [readable_decor] in Hd; unfold dec_text, NL, TAB.
  - rewrite !sapp_assoc. set (z := i +:+ String quote (String ")" (String nl rest))). change (i +:+ "')" +:+ String nl rest) with z.
    assert (Hz : lit_body z = Some (i, String ")" (String nl rest))) by by apply lit_body_safe.
    destruct b.
    + change (after "@pth." ("@pth." +:+ "strictly_autonomous" +:+ "(island_name='" +:+ z)) with (Some ("strictly_autonomous(island_name='" +:+ z)). cbv iota beta.
      change (read_ident ("strictly_autonomous(island_name='" +:+ z)) with ("strictly_autonomous", "(island_name='" +:+ z). cbv iota beta.
      change (expect "(" ("(island_name='" +:+ z)) with (Some ("island_name='" +:+ z)). cbv iota beta.
      change (String.length ("island_name='" +:+ z)) with (S (String.length ("sland_name='" +:+ z))). rewrite kw_island, Hz. reflexivity.
    + change (after "@pth." ("@pth." +:+ "autonomous" +:+ "(island_name='" +:+ z)) with (Some ("autonomous(island_name='" +:+ z)). cbv iota beta.
      change (read_ident ("autonomous(island_name='" +:+ z)) with ("autonomous", "(island_name='" +:+ z). cbv iota beta.
      change (expect "(" ("(island_name='" +:+ z)) with (Some ("island_name='" +:+ z)). cbv iota beta.
      change (String.length ("island_name='" +:+ z)) with (S (String.length ("sland_name='" +:+ z))). rewrite kw_island, Hz. reflexivity.
  - destruct Hd as [Hi Hg]. rewrite !sapp_assoc. set (u := match g with None => "" | Some l => String (ascii_of_nat 10) "" +:+ String (ascii_of_nat 9) "" +:+ ", guards=[" +:+ repr_names l +:+ "]" end).
    set (z := i +:+ String quote (u +:+ (String ")" (String nl rest)))). change (i +:+ "'" +:+ u +:+ ")" +:+ String nl rest) with z.
    assert (Hz : lit_body z = Some (i, u +:+ String ")" (String nl rest))) by by apply lit_body_safe.
    match goal with |- context [after "@pth." ?w] => change (after "@pth." w) with (Some ("pure(" +:+ String nl (String tab ("island_name='" +:+ z)))) end. cbv iota beta.
    match goal with |- context [read_ident ?w] => change (read_ident w) with ("pure", "(" +:+ String nl (String tab ("island_name='" +:+ z))) end. cbv iota beta.
    match goal with |- context [expect "(" ?w] => change (expect "(" w) with (Some (String nl (String tab ("island_name='" +:+ z)))) end. cbv iota beta.
    rewrite (skip_kwargs _ _ ("island_name='" +:+ z)) by reflexivity.
    match goal with |- context [read_kwargs (String.length ?w)] => change (String.length w) with (S (S (String.length ("island_name='" +:+ z)))) end.
    rewrite kw_island, Hz. destruct g as [l|]; unfold u; [|reflexivity]. rewrite !sapp_assoc.
    set (y := repr_names l +:+ "]" +:+ String ")" (String nl rest)).
    match goal with |- context [expect "," ?w] => change (expect "," w) with (Some (" guards=[" +:+ y)) end. cbv iota beta.
    rewrite kw_guards. unfold y. change ("]" +:+ String ")" (String nl rest)) with (String "]" (String ")" (String nl rest))). rewrite read_names by (intros x Hx; by eapply Hg). reflexivity.
Qed.

Lemma lit_body_means i v rest : literal_means i v -> lit_body (i +:+ String quote rest) = Some (v, rest).
Proof.
  induction 1 as [|c s v H1 H2 H3 H4 _ IH|s v _ IH|s v _ IH|s v _ IH|s v _ IH|s v _ IH|s v _ IH|s v _ IH|c s v Hk _ IH]; [done|..]; rewrite ?sapp_cons;
    try (cbn [lit_body]; rewrite IH; reflexivity).
  - cbn [lit_body]. rewrite decide_False by done. rewrite decide_False by tauto. rewrite decide_False by done. by rewrite IH.
  - cbn [lit_body]. rewrite IH. rewrite decide_False by done. rewrite decide_False by (intros [?|?]; done). rewrite decide_True by done.
    assert (E : escaped c = String backslash (String c "")); [|by rewrite E].
    unfold kept in Hk. cbn in Hk. repeat (apply elem_of_cons in Hk as [->|Hk]; [reflexivity|]). by apply elem_of_nil in Hk.
Qed.
Lemma read_decorator_aut b i v rest : literal_means i v -> read_decorator (dec_text (DAut b i) +:+ String nl rest) = Some (DAut b v, rest).
Proof.
  intros Hv. unfold read_decorator, dec_text, NL, TAB.
  rewrite !sapp_assoc. set (z := i +:+ String quote (String ")" (String nl rest))). change (i +:+ "')" +:+ String nl rest) with z.
  assert (Hz : lit_body z = Some (v, String ")" (String nl rest))) by by apply lit_body_means.
  destruct b.
  + change (after "@pth." ("@pth." +:+ "strictly_autonomous" +:+ "(island_name='" +:+ z)) with (Some ("strictly_autonomous(island_name='" +:+ z)). cbv iota beta.
    change (read_ident ("strictly_autonomous(island_name='" +:+ z)) with ("strictly_autonomous", "(island_name='" +:+ z). cbv iota beta.
    change (expect "(" ("(island_name='" +:+ z)) with (Some ("island_name='" +:+ z)). cbv iota beta.
    change (String.length ("island_name='" +:+ z)) with (S (String.length ("sland_name='" +:+ z))). rewrite kw_island, Hz. reflexivity.
  + change (after "@pth." ("@pth." +:+ "autonomous" +:+ "(island_name='" +:+ z)) with (Some ("autonomous(island_name='" +:+ z)). cbv iota beta.
    change (read_ident ("autonomous(island_name='" +:+ z)) with ("autonomous", "(island_name='" +:+ z). cbv iota beta.
    change (expect "(" ("(island_name='" +:+ z)) with (Some ("island_name='" +:+ z)). cbv iota beta.
    change (String.length ("island_name='" +:+ z)) with (S (String.length ("sland_name='" +:+ z))). rewrite kw_island, Hz. reflexivity.
Qed.

Lemma read_source_text s : forall bol rest, (rest = "" \/ exists r, rest = String "@" r) -> (bol = true -> forall b, s <> String "@" b) -> (forall a b, s <> a +:+ String nl (String "@" b)) ->
  read_source bol (s +:+ String nl rest) = (s +:+ String nl "", rest).
Proof.
  induction s as [|c s IH]; intros bol rest Hr H1 H2.
  - rewrite !sapp_nil. cbn [read_source]. rewrite (bool_decide_eq_false_2 (nl = _)) by done. rewrite andb_false_r. rewrite (bool_decide_eq_true_2 (nl = nl)) by done.
    destruct Hr as [->|(r & ->)]; reflexivity.
  - rewrite !sapp_cons. cbn [read_source]. assert (Hc : bol && bool_decide (c = "@"%char) = false).
    { destruct bol; [|done]. cbn. apply bool_decide_eq_false_2. intros ->. by apply (H1 eq_refl s). }
    rewrite Hc. rewrite IH; [done|done| |].
    + intros Hn b ->. apply bool_decide_eq_true_1 in Hn. subst c. by apply (H2 "" b).
    + intros a b ->. by apply (H2 (String c a) b).
Qed.

Lemma no_at_nl s : (forall a b, s <> a +:+ String nl (String "@" b)) -> forall a b, s +:+ String nl "" <> a +:+ String nl (String "@" b).
Proof.
  induction s as [|c s IH]; intros H a b; [rewrite sapp_nil|rewrite sapp_cons]; (destruct a as [|x a]; [rewrite sapp_nil|rewrite sapp_cons]).
  - done.
  - intros [= _ E]. by destruct a.
  - intros [= -> E]. destruct s as [|d s]; [done|]. rewrite sapp_cons in E. injection E as -> E. by apply (H "" s).
  - intros [= -> E]. eapply IH; [|exact E]. intros a' b' ->. by apply (H (String x a') b').
Qed.
Lemma no_decorator_nl s : no_decorator_line s -> no_decorator_line (s +:+ String nl "").
Proof.
  intros [H1 H2]. split; [|by apply no_at_nl]. intros b. destruct s as [|c s]; [done|]. rewrite sapp_cons. intros [= -> _]. by apply (H1 s).
Qed.

Lemma aug_text_cons d s es : aug_text ((d, s) :: es) = dec_text d +:+ String nl ((s +:+ String nl "") +:+ String nl (aug_text es)).
Proof. cbn [aug_text]. change (NL +:+ s +:+ NL +:+ NL +:+ aug_text es) with (String nl (s +:+ String nl (String nl (aug_text es)))). by rewrite sapp_assoc. Qed.
Lemma dec_text_at d : exists r, dec_text d = String "@" r.
Proof. destruct d as [[] i|i g]; by eexists. Qed.
Lemma aug_text_head es : aug_text es = "" \/ exists r, aug_text es = String "@" r.
Proof. destruct es as [|[d s] es]; [by left|right]. rewrite aug_text_cons. destruct (dec_text_at d) as (r & ->). by eexists. Qed.

Lemma read_blocks_text es : forall n, (List.length es <= n)%nat -> Forall readable es ->
  read_blocks n (aug_text es) = Some (map (fun e => (fst e, snd e +:+ NL +:+ NL)) es).
Proof.
  induction es as [|[d s] es IH]; intros n Hn Hes; [by destruct n|]. destruct n as [|n]; [cbn in Hn; lia|].
  inversion Hes as [|? ? [Hd Hs] Hes']; subst; cbn in Hd, Hs. rewrite aug_text_cons. pose proof (read_decorator_text d ((s +:+ String nl "") +:+ String nl (aug_text es)) Hd) as Hr.
  destruct (dec_text_at d) as (r & Ed). rewrite Ed in Hr |- *. rewrite sapp_cons in Hr |- *. cbn [read_blocks]. rewrite Hr.
  pose proof (no_decorator_nl s Hs) as [N1 N2]. rewrite read_source_text; [|apply aug_text_head|intros _; exact N1|exact N2].
  rewrite IH; [|cbn in Hn; lia|done]. cbn [map fst snd]. do 3 f_equal. rewrite sapp_assoc. done.
Qed.
Lemma aug_len es : (List.length es <= String.length (aug_text es))%nat.
Proof. induction es as [|[d s] es IH]; [done|]. rewrite aug_text_cons, slen_app. cbn [String.length List.length]. rewrite slen_app. cbn [String.length]. lia. Qed.
Lemma read_augmented_text es : Forall readable es -> read_augmented (aug_text es) = Some (map (fun e => (fst e, snd e +:+ NL +:+ NL)) es).
Proof. intros H. apply read_blocks_text; [apply aug_len|done]. Qed.
Lemma aug_text_inj es es' : Forall readable es -> Forall readable es' -> aug_text es = aug_text es' -> es = es'.
Proof.
  intros H H' E. pose proof (read_augmented_text es H) as R. rewrite E, (read_augmented_text es' H') in R. injection R as R. clear - R.
  revert es' R. induction es as [|[d s] es IH]; intros [|[d' s'] es'] R; try done. cbn in R. injection R as -> E R. f_equal; [|by apply IH]. f_equal. by apply sapp_inj_r in E.
Qed.
