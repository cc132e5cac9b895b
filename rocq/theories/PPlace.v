(** * PPlace: proofs about places (C93-C95). *)
From Verif Require Import Base RString Utf8 Rope Types Captures MDefinition MObjects MTemplates MSearchErrors MLspFiles.
From Verif Require Import SpecScope SpecObjects SpecLint SpecNav SpecPlace PText PFiles PScope PObjects PLint PNav.

Lemma run_inv {S C} (check : S -> C -> res (S * bool)) (P : S -> Prop) cs :
  (forall s c s' k, In c cs -> P s -> check s c = Ok (s', k) -> P s') ->
  forall s s', P s -> run check s cs = Ok s' -> P s'.
Proof.
  induction cs as [|c cs IH]; intros H s s' Hs E; cbn [run] in E; [inversion E; now subst|].
  destruct (check s c) as [[s1 k]|] eqn:Ec; [|discriminate].
  assert (P s1) by (apply (H s c s1 k); auto; now left).
  destruct k; [|inversion E; now subst]. apply (IH (fun s c s' k Hc => H s c s' k (or_intror Hc)) s1); auto.
Qed.

(** ** Where the ranges of the search come from *)
Section Sources.
Context (src : string) (cs : list capture).
Definition expr_source (e : (point * point) * expr_range) : Prop :=
  fst e = (pt0, pt0) \/ captured CExpr cs (fun n => fst e = (n_start n, n_end n)).
Definition pipe_source (p : point * point) : Prop :=
  p = (pt0, pt0) \/
  captured CPipe cs (fun n => p = (n_start n, n_end n) /\ exists r, utf8_text n src = Ok (Some ("|" ++ r)%string)).
Definition test_source (t : (point * point) * bool) : Prop :=
  snd t = true -> captured CIs cs (fun n => fst t = (n_start n, n_end n)).
Definition sourced (s : jobjects) : Prop := expr_source (os_expr s) /\ pipe_source (os_pipe s) /\ test_source (os_test s).

Lemma starts_with_app s p : starts_with s p = true -> exists r, s = (p ++ r)%string.
Proof.
  unfold starts_with. revert s. induction p as [|c p IH]; intros s H; [exists s; reflexivity|].
  destruct s as [|d s]; cbn [String.prefix] in H; [discriminate|]. destruct (ascii_dec c d) as [->|]; [|discriminate].
  destruct (IH s H) as (r & ->). exists r. reflexivity.
Qed.
Lemma new_object_sourced s v st en : sourced s -> sourced (fst (new_object s v st en)).
Proof.
  unfold new_object. intros (A & B & C). destruct (str_mem v valid_identifiers); cbn; [split; auto|].
  split; [exact A|]. split; [exact B|]. intros H. discriminate.
Qed.
Lemma obj_check_sourced s c s' a : In c cs -> sourced s -> obj_check src s c = Ok (s', a) -> sourced s'.
Proof.
  intros Hc Hs E. pose proof Hs as (A & B & C). unfold obj_check in E.
  destruct (c_name c) eqn:Ek; try (inversion E; subst; exact Hs).
  - unfold build_object in E. destruct (utf8_text (c_node c) src) as [[v|]|]; cbn [bind] in E; [| |discriminate];
      [|inversion E; subst; exact Hs].
    destruct (_ && _); [destruct (os_objects s) as [|o os]|]; cbn [bind fst snd] in E; inversion E; subst;
      try (now apply new_object_sourced). split; [exact A|]. split; [exact B|exact C].
  - destruct (utf8_text (c_node c) src) as [[v|]|] eqn:Et; cbn [bind] in E; [| |discriminate]; inversion E; subst; [|exact Hs].
    destruct (starts_with v "|") eqn:Ev; [|exact Hs]. split; [exact A|]. split; [|exact C].
    right. exists c. split; [exact Hc|]. split; [exact Ek|]. split; [reflexivity|].
    apply starts_with_app in Ev. destruct Ev as (r & ->). now exists r.
  - inversion E; subst. split; [exact A|]. split; [exact B|]. intros _. exists c. cbn. auto.
  - inversion E; subst. split; [|split; assumption]. right. exists c. cbn. auto.
Qed.
Lemma finish_sourced b l s s' : expr_source (l_my_expr l) -> sourced s -> finish_lookahead b l s = Ok s' -> sourced s'.
Proof.
  intros He Hs E. unfold finish_lookahead in E.
  set (s1 := match nth_error _ _ with Some _ => _ | None => _ end) in E.
  assert (Hs1 : sourced s1) by (unfold s1; destruct (nth_error _ _); exact Hs).
  destruct (usize_sub _ _ _); cbn [bind] in E; [|discriminate].
  destruct (negb _); inversion E; subst; [|exact Hs1].
  destruct Hs1 as (_ & B & C). split; [exact He|]. split; assumption.
Qed.
Lemma obj_step_sourced b tp all l c l' k : In c cs -> sourced (l_objs l) /\ expr_source (l_my_expr l) ->
  obj_step b src tp all l c = Ok (l', k) -> sourced (l_objs l') /\ expr_source (l_my_expr l').
Proof.
  intros Hc (Hs & He) E. unfold obj_step in E. destruct (all || _).
  - destruct (obj_check src (l_objs l) c) as [[s1 a]|] eqn:Ec; [|discriminate]. cbn [bind fst snd] in E. inversion E; subst. cbn.
    split; [|exact He]. eapply obj_check_sourced; eauto.
  - destruct (pt_leb tp _); [|inversion E; subst; auto].
    destruct (is_filter _ || _); [inversion E; subst; auto|].
    destruct (negb _).
    + destruct (is_hover _ _); [|inversion E; subst; auto].
      destruct (usize_sub _ _ _); cbn [bind] in E; inversion E; subst; cbn. split; [exact Hs|]. now destruct Hs.
    + destruct (obj_check src (l_objs l) c) as [[s1 a]|] eqn:Ec; [|discriminate]. cbn [bind fst snd] in E.
      assert (H1 : sourced s1) by (eapply obj_check_sourced; eauto).
      assert (Hf : forall s', finish_lookahead b l s1 = Ok s' -> sourced s') by (intros s' Hf; eapply finish_sourced; eauto).
      destruct a as [[]|]; try (inversion E; subst; cbn; auto; fail);
        destruct (finish_lookahead b l s1) as [s'|]; cbn [bind] in E; inversion E; subst; cbn; auto.
Qed.
End Sources.
Lemma query_sourced b ms tp src all s : objects_query b ms tp src all = Ok s -> sourced src (concat ms) s.
Proof.
  unfold objects_query. destruct (run _ _ _) as [l|] eqn:E; [|discriminate]. cbn [bind]. intros H. inversion H; subst.
  apply (run_inv (obj_step b src tp all) (fun l => sourced src (concat ms) (l_objs l) /\ expr_source (concat ms) (l_my_expr l)) (concat ms))
    in E; [exact (proj1 E)| |].
  - intros s0 c s' k Hc Hs. now apply obj_step_sourced.
  - split; [|now left]. split; [now left|]. split; [now left|]. intros H0. discriminate.
Qed.

Lemma obj_completion_fits b ms tp src imps snips s ct a :
  objects_query b ms tp src false = Ok s -> obj_completion b s tp = Ok (Some (ct, a)) -> fits (concat ms) imps snips src tp ct.
Proof.
  intros Q O. destruct (query_sourced _ _ _ _ _ _ Q) as (A & B & C). unfold obj_completion in O.
  destruct (in_pipe s tp) eqn:Ep.
  { inversion O; subst. unfold in_pipe in Ep. apply andb_true_iff in Ep. destruct Ep as (E1 & E2).
    apply pt_leb_le in E1. apply pt_leb_le in E2. cbn [fits]. destruct B as [B|(c & H1 & H2 & H3 & H4)].
    - left. rewrite B in E1, E2. cbn [fst snd] in *. apply pt_eq; pts.
    - right. exists c. split; [exact H1|]. split; [exact H2|]. rewrite H3 in E1, E2. split; [split; assumption|exact H4]. }
  destruct (in_expr s tp) eqn:Ee.
  { assert (W : captured CExpr (concat ms) (holds_point tp)).
    { unfold in_expr in Ee. destruct (os_expr s) as ((es, ee), er) eqn:Ex. cbn [fst snd] in *.
      destruct (pt_leb es tp && pt_ltb tp ee) eqn:Ei; [|discriminate]. apply andb_true_iff in Ei. destruct Ei as (E1 & E2).
      destruct A as [A|(c & H1 & H2 & H3)]; rewrite ?Ex in *; cbn [fst] in *.
      - inversion A; subst. exfalso. pts.
      - inversion H3; subst. exists c. split; [exact H1|]. split; [exact H2|]. split; pts. }
    assert (ct = CtIdentifier \/ exists n r, ct = CtIncompleteIdentifier n r) as [->|(n & r & ->)]; [|exact W|exact W].
    destruct (_ && _); [inversion O; auto|]. destruct (pt_ltb _ _); [inversion O; auto|].
    destruct (is_ident s tp); [|inversion O; auto].
    destruct (completion_start _ _ _) as [[n|]|]; cbn [bind] in O; inversion O; eauto. }
  destruct (is_test s tp) eqn:Et; [|discriminate]. inversion O; subst. cbn [fits].
  unfold is_test in Et. apply andb_true_iff in Et. destruct Et as (Et & E3). apply andb_true_iff in Et. destruct Et as (E1 & E2).
  destruct (C E1) as (c & H1 & H2 & H3). rewrite H3 in E2, E3. cbn [fst snd] in *. exists c. split; [exact H1|]. split; [exact H2|].
  split; [now apply pt_leb_le|now apply N.eqb_eq].
Qed.

(** ** Snippets *)
Lemma snippet_fits b ms tp sn r objs imps src :
  snippets_query ms tp false = Ok sn -> to_complete b sn tp = Ok (Some r) -> forall r', fits objs imps (concat ms) src tp (CtSnippets r').
Proof.
  intros Q E r'. cbn [fits].
  assert (H : sn_error sn = true -> captured CErrorBlock (concat ms) (fun n => pt_le (n_start n) (mkpt (row tp) (col tp + 2)) /\ sn_end sn = n_end n)).
  { unfold snippets_query in Q. set (cs := flat_captures _ _ _) in Q.
    assert (Hin : forall c, In c cs -> In c (concat ms) /\ pt_le (n_start (c_node c)) (mkpt (row tp) (col tp + 2))).
    { intros c Hc. unfold cs, flat_captures in Hc. apply in_flat_map in Hc. destruct Hc as (m & H1 & H2). apply filter_In in H2.
      destruct H2 as (H2 & H3). cbn [orb] in H3. split; [apply in_concat; eauto|now apply pt_leb_le]. }
    assert (G : forall l s s', (forall c, In c l -> In c cs) -> sn_error s = false -> run snip_check s l = Ok s' -> sn_error s' = true ->
      captured CErrorBlock cs (fun n => sn_end s' = n_end n)).
    { induction l as [|c l IH]; intros s s' Hl Hs R He; cbn [run] in R; [inversion R; congruence|].
      unfold snip_check in R at 1. destruct (c_name c) eqn:Ek;
        try (eapply IH; [| |exact R|exact He]; [intros x Hx; apply Hl; now right|exact Hs]; fail).
      inversion R; subst. exists c. split; [apply Hl; now left|]. split; [exact Ek|reflexivity]. }
    intros He. destruct (G cs (mksnip pt0 pt0 pt0 false) sn (fun c H => H) eq_refl Q He) as (c & H1 & H2 & H3).
    destruct (Hin c H1) as (H4 & H5). exists c. auto. }
  unfold to_complete in E. destruct (sn_error sn); [|discriminate]. destruct (H eq_refl) as (c & H1 & H2 & H3 & H4).
  exists c. split; [exact H1|]. split; [exact H2|]. split; [exact H3|]. cbn [andb] in E. rewrite <- H4.
  destruct (pt_leb tp (sn_end sn)) eqn:Ep; [now apply pt_leb_le|]. rewrite andb_false_r in E. discriminate.
Qed.

(** ** Template names *)
Lemma template_fits ms tp src imps im i objs snips n :
  templates_query ms tp src false = Ok imps -> in_template imps = Some im -> import_get im tp = Some i ->
  fits objs (concat ms) snips src tp (CtIncludedTemplate n (to_range (id_start i, id_end i))).
Proof.
  intros Q Ei Eg. cbn [fits].
  set (P := fun s e : point => (s, e) = (pt0, pt0) \/ captured CTemplateName (concat ms) (fun n => (s, e) = (n_start n, n_end n))).
  assert (HP : placed_all P imps).
  { unfold templates_query in Q. apply (run_placed P src) with (cs := flat_captures false tp ms) (s := jimports0); auto.
    - now left.
    - apply Forall_forall. intros c Hc Hk. right. exists c. apply flat_captures_In in Hc. split; [tauto|]. auto.
    - constructor. }
  unfold in_template in Ei. destruct (im_current imps) as [id|]; [|discriminate]. apply nget_In in Ei.
  unfold placed_all in HP. rewrite Forall_forall in HP. specialize (HP _ Ei). cbn [snd] in HP.
  assert (G : forall t, placed P t -> in_id tp t = true -> tp = pt0 \/
     captured CTemplateName (concat ms) (fun n => on_node tp n /\ to_range (id_start t, id_end t) = to_range (n_start n, n_end n))).
  { intros t Hp Hin. unfold in_id in Hin. apply andb_true_iff in Hin. destruct Hin as (L1 & L2).
    apply pt_leb_le in L1. apply pt_leb_le in L2. destruct Hp as [Hp|(c & C1 & C2 & C3)].
    - assert (E1 : id_start t = pt0) by congruence. assert (E2 : id_end t = pt0) by congruence.
      rewrite E1 in L1. rewrite E2 in L2. left. clear - L1 L2. apply pt_eq; pts.
    - right. exists c. assert (E1 : id_start t = n_start (c_node c)) by congruence.
      assert (E2 : id_end t = n_end (c_node c)) by congruence. rewrite E1 in *. rewrite E2 in *.
      split; [exact C1|]. split; [exact C2|]. split; [split; assumption|reflexivity]. }
  destruct im; cbn [import_get placed_import] in *.
  - destruct (in_id tp template) eqn:Et; inversion Eg; subst; now apply G.
  - apply find_some in Eg. destruct Eg as (E1 & E2). rewrite Forall_forall in HP. apply G; auto.
  - destruct (in_id tp template) eqn:Et; inversion Eg; subst; now apply G.
  - destruct (in_id tp template) eqn:Et; inversion Eg; subst; now apply G.
Qed.

Lemma completion_fits {T : ts} b (st : lsp_files T) uri pos ctx tr t ct a :
  holds st uri tr t -> completion b uri pos ctx st = Ok (Some (ct, a)) ->
  let src := rope_content t in
  fits (concat (t_captures T QObjects tr src)) (concat (t_captures T QImports tr src)) (concat (t_captures T QSnippets tr src))
    src (point_of pos) ct.
Proof.
  intros (H1 & H2 & H3) E src. unfold completion in E. destruct (negb _); [discriminate|].
  rewrite H1 in E. cbn [trees_of] in E. rewrite H2, H3 in E. fold src in E.
  destruct (snippets_query _ _ _) as [sn|] eqn:Es; [|discriminate]. cbn [bind] in E.
  destruct (to_complete b sn (point_of pos)) as [tc|] eqn:Ec; [|discriminate]. cbn [bind] in E.
  destruct tc as [r|]; cbn [is_some is_none negb] in E.
  { destruct (u32_add _ _ _); cbn [bind] in E; [|discriminate]. inversion E; subst. eapply snippet_fits; eauto. }
  destruct (objects_query _ _ _ _ _) as [s|] eqn:Q; [|discriminate]. cbn [bind] in E.
  destruct (obj_completion b s (point_of pos)) as [[c|]|] eqn:O; cbn [bind] in E; [| |discriminate].
  { inversion E; subst. eapply obj_completion_fits; eauto. }
  destruct (templates_query _ _ _ _) as [imps|] eqn:I; [|discriminate]. cbn [bind] in E.
  destruct (in_template imps) as [im|] eqn:Ei; [|discriminate].
  destruct (import_get im (point_of pos)) as [i|] eqn:Eg; [|discriminate].
  destruct (completion_start _ _ _) as [[n|]|]; cbn [bind] in E; inversion E; subst. eapply template_fits; eauto.
Qed.

(** ** The start of a file *)
Definition pipe_at_start (cs : list capture) : Prop := captured CPipe cs (fun n => n_start n = pt0).
Lemma start_filters b ms src :
  Forall (fun c => utf8_text (c_node c) src <> Panic) (concat ms) -> ~ pipe_at_start (concat ms) ->
  exists s, objects_query b ms pt0 src false = Ok s /\ os_pipe s = (pt0, pt0) /\ is_filter s = true.
Proof.
  intros HT HP. unfold objects_query.
  assert (G : forall cs l, (forall c, In c cs -> In c (concat ms)) -> os_pipe (l_objs l) = (pt0, pt0) -> fst (os_ident (l_objs l)) = pt0 ->
    exists l', run (obj_step b src pt0 false) l cs = Ok l' /\ os_pipe (l_objs l') = (pt0, pt0) /\ fst (os_ident (l_objs l')) = pt0).
  { induction cs as [|c cs IH]; intros l Hl Hp Hi; [cbn; eauto|]. cbn [run].
    assert (Hcs : forall x, In x cs -> In x (concat ms)) by (intros x Hx; apply Hl; now right).
    assert (Hc : In c (concat ms)) by (apply Hl; now left).
    unfold obj_step at 1. cbn [orb]. destruct (pt_leb (n_start (c_node c)) pt0) eqn:El.
    - assert (Hst : n_start (c_node c) = pt0) by (apply pt_eq; pts).
      assert (Hk : exists s' a, obj_check src (l_objs l) c = Ok (s', a) /\ os_pipe s' = (pt0, pt0) /\ fst (os_ident s') = pt0).
      { unfold obj_check. rewrite Forall_forall in HT. specialize (HT c Hc). destruct (c_name c) eqn:Ek; try (do 2 eexists; split; [reflexivity|]; cbn; auto; fail).
        - unfold build_object. destruct (utf8_text (c_node c) src) as [[v|]|]; [| |congruence]; cbn [bind];
            [|do 2 eexists; split; [reflexivity|]; cbn; auto].
          unfold new_object. destruct (_ && _); [destruct (os_objects (l_objs l))|]; destruct (str_mem v valid_identifiers);
            do 2 eexists; (split; [reflexivity|]); cbn; auto.
        - exfalso. apply HP. exists c. auto. }
      destruct Hk as (s' & a & Ek & P1 & P2). rewrite Ek. cbn [bind fst snd].
      destruct (is_some a); [apply IH; auto|]. eexists. split; [reflexivity|]. cbn. auto.
    - assert (L2 : pt_leb pt0 (n_start (c_node c)) = true) by pts. rewrite L2.
      assert (F : is_filter (l_objs l) = true) by (unfold is_filter; rewrite Hp, Hi; reflexivity).
      rewrite F. cbn [orb]. eauto. }
  destruct (G (concat ms) oloop0 (fun c H => H) eq_refl eq_refl) as (l' & R & P1 & P2).
  rewrite R. cbn [bind]. exists (l_objs l'). split; [reflexivity|]. split; [exact P1|]. unfold is_filter. now rewrite P1, P2.
Qed.
