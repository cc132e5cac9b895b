(** * PLint: proofs about linting (C22-C30). *)
From Verif Require Import Base RString Utf8 Rope Types Captures MDefinition MObjects MTemplates MSearchErrors MLspFiles.
From Verif Require Import SpecText SpecFiles SpecScope SpecObjects SpecLint PText PFiles PScope PScope2 PObjects.

(** ** Variables *)
Lemma itype_eqb_eq a b : itype_eqb a b = true <-> a = b.
Proof. destruct a, b; cbn; split; intros H; try reflexivity; try discriminate H. Qed.
Lemma itype_eqb_neq a b : itype_eqb a b = false <-> a <> b.
Proof.
  destruct (itype_eqb a b) eqn:E.
  - apply itype_eqb_eq in E. split; [discriminate|congruence].
  - split; [|reflexivity]. intros _ H. apply itype_eqb_eq in H. congruence.
Qed.

Lemma same_name_means o v : same_name o v = true <-> means (o_name o) (decl_of_id v).
Proof.
  unfold same_name, means, decl_of_id; cbn [dc_name dc_kind].
  rewrite andb_true_iff, String.eqb_eq, negb_true_iff, itype_eqb_neq. tauto.
Qed.
Lemma pt_eqb_eq a b : pt_eqb a b = true <-> a = b.
Proof.
  split; intros H.
  - apply pt_eq; unfold pt_eqb in H; lia.
  - subst. apply pt_eqb_refl.
Qed.
Lemma visible_at_seen o v :
  visible_at o v = true <-> seen_from (fst (o_loc o)) (snd (o_loc o)) (decl_of_id v).
Proof.
  unfold visible_at, seen_from, decl_of_id; cbn [dc_start dc_until].
  destruct (pt_leb (id_start v) (snd (o_loc o))) eqn:A; cbn [andb].
  - apply pt_leb_le in A. destruct (pt_eqb (snd (id_scope v)) pt0) eqn:B.
    + apply pt_eqb_eq in B. tauto.
    + split; [intros H; split; [exact A|right; pts]|].
      intros (_ & [H|H]); [apply pt_eqb_eq in H; congruence|pts].
  - split; [discriminate|]. intros (H & _). apply pt_le_leb in H. congruence.
Qed.

Lemma defined_somewhere_indexed vars o : defined_somewhere vars o = true <-> indexed vars (o_name o).
Proof.
  unfold defined_somewhere, indexed. rewrite existsb_exists. split.
  - intros ((f & vs) & Hin & Hv). cbn [snd] in Hv. apply existsb_exists in Hv. destruct Hv as (v & Hv & E).
    apply String.eqb_eq in E. eauto 6.
  - intros (f & vs & v & Hin & Hv & E). exists (f, vs). split; [exact Hin|]. apply existsb_exists.
    exists v. split; [exact Hv|]. now apply String.eqb_eq.
Qed.

Definition obj_of_use (u : tok * list access) : jobject :=
  mkobj (snd (fst u)) (loc (fst u)) false false (map field_of (snd u)) false.
Lemma use_id_of u : id_of_obj (obj_of_use u) = use_id u.
Proof. reflexivity. Qed.

Lemma lint_verdict vars this u :
  exists r, verdict (map decl_of_id this) (indexed vars) (snd (fst u)) (n_start (fst (fst u))) (n_end (fst (fst u))) r /\
    lint_object vars this false (obj_of_use u) = match r with None => [] | Some d => [(d, use_id u)] end.
Proof.
  unfold lint_object. cbn [obj_of_use o_is_filter o_is_test orb].
  set (o := obj_of_use u).
  destruct (filter (visible_at o) (filter (same_name o) this)) as [|v vs] eqn:EV.
  - assert (Hno : forall v, In v this -> means (snd (fst u)) (decl_of_id v) ->
                    ~ seen_from (n_start (fst (fst u))) (n_end (fst (fst u))) (decl_of_id v)).
    { intros v Hv Hm Hs. change (snd (fst u)) with (o_name o) in Hm.
      assert (In v (filter (visible_at o) (filter (same_name o) this))).
      { apply filter_In. split; [apply filter_In; split; [exact Hv|now apply same_name_means]|].
        apply visible_at_seen. exact Hs. }
      rewrite EV in H. destruct H. }
    assert (Hno' : forall d, In d (map decl_of_id this) -> means (snd (fst u)) d ->
                    ~ seen_from (n_start (fst (fst u))) (n_end (fst (fst u))) d).
    { intros d Hd. apply in_map_iff in Hd. destruct Hd as (v & <- & Hv). now apply Hno. }
    destruct (filter (same_name o) this) as [|w ws] eqn:EC; cbn [andb].
    + assert (Hn : forall d, In d (map decl_of_id this) -> ~ means (snd (fst u)) d).
      { intros d Hd Hm. apply in_map_iff in Hd. destruct Hd as (v & <- & Hv).
        assert (In v (filter (same_name o) this)) by (apply filter_In; split; [exact Hv|now apply same_name_means]).
        rewrite EC in H. destruct H. }
      destruct (defined_somewhere vars o) eqn:ED.
      * exists (Some DefinedSomewhere). split; [|reflexivity]. apply VElsewhere; [exact Hn|].
        now apply defined_somewhere_indexed in ED.
      * exists (Some Undefined). split; [|reflexivity]. apply VNowhere; [exact Hn|].
        intros H. apply (defined_somewhere_indexed vars o) in H. congruence.
    + exists (Some Undefined). split; [|reflexivity].
      assert (Hw : In w (filter (same_name o) this)) by (rewrite EC; now left).
      apply filter_In in Hw. destruct Hw as (Hw & Hm). apply same_name_means in Hm.
      apply (VOutOfScope _ _ _ _ _ (decl_of_id w)); [now apply in_map|exact Hm|exact Hno'].
  - exists None. split; [|now rewrite andb_false_l].
    assert (Hv : In v (filter (visible_at o) (filter (same_name o) this))) by (rewrite EV; now left).
    apply filter_In in Hv. destruct Hv as (Hv & Hs). apply filter_In in Hv. destruct Hv as (Hv & Hm).
    apply (VFine _ _ _ _ _ (decl_of_id v)); [now apply in_map|now apply same_name_means in Hm|].
    now apply visible_at_seen in Hs.
Qed.

Lemma verdict_unique this any name s e r1 r2 :
  verdict this any name s e r1 -> verdict this any name s e r2 -> r1 = r2.
Proof.
  intros H1 H2. destruct H1, H2; try reflexivity; try (exfalso; firstorder; fail).
Qed.
Lemma reported_unique this any us : forall e1 e2, reported this any us e1 -> reported this any us e2 -> e1 = e2.
Proof.
  induction us as [|u us IH]; intros e1 e2 H1 H2;
    inversion H1 as [|? ? ? V1 R1|? ? ? ? V1 R1]; inversion H2 as [|? ? ? V2 R2|? ? ? ? V2 R2]; subst; auto;
    pose proof (verdict_unique _ _ _ _ _ _ _ V1 V2) as E; inversion E; subst.
  f_equal. auto.
Qed.

Lemma lint_uses vars this ps :
  reported (map decl_of_id this) (indexed vars) (chains ps)
    (flat_map (lint_object vars this false) (flat_map uses ps)).
Proof.
  induction ps as [|p ps IH]; [constructor|]. cbn [flat_map chains]. rewrite flat_map_app.
  destruct p; cbn [uses flat_map app]; try exact IH.
  - change (mkobj (snd h) (loc h) false false (map field_of fs) false) with (obj_of_use (h, fs)).
    destruct (lint_verdict vars this (h, fs)) as (r & V & E). rewrite E, app_nil_r.
    destruct r; cbn [app]; constructor; assumption.
Qed.

(** A lint never mentions a missing template. *)
Lemma lint_object_kind vars this ig o : Forall (fun d => fst d <> TemplateNotFound) (lint_object vars this ig o).
Proof.
  unfold lint_object. destruct (o_is_filter o || o_is_test o); [constructor|].
  destruct (filter (visible_at o) _), (filter (same_name o) this), ig; cbn [andb]; try constructor; cbn; try discriminate; try constructor.
  destruct (defined_somewhere vars o); discriminate.
Qed.
Lemma Forall_flat_map_i {A B} (P : B -> Prop) (f : A -> list B) l :
  (forall x, In x l -> Forall P (f x)) -> Forall P (flat_map f l).
Proof. induction l as [|a l IH]; cbn; intros H; [constructor|]. apply Forall_app. split; [apply H; auto|]. apply IH. auto. Qed.
Lemma lint_objects_kind vars this ig os :
  Forall (fun d => fst d <> TemplateNotFound) (flat_map (lint_object vars this ig) os).
Proof. apply Forall_flat_map_i. intros. apply lint_object_kind. Qed.
Lemma lint_templates_kind F dir ids : Forall (fun d => fst d = TemplateNotFound) (lint_templates F dir ids).
Proof.
  apply Forall_flat_map_i. intros i _. destruct (itype_eqb _ _); [|constructor].
  destruct (String.eqb _ _); [repeat constructor|]. destruct (template_missing _ _ _); repeat constructor.
Qed.
Lemma lint_backend_kind F dir ids : Forall (fun d => fst d = TemplateNotFound) (lint_backend F dir ids).
Proof.
  apply Forall_flat_map_i. intros i _. destruct (itype_eqb _ _); [|constructor].
  destruct (template_missing _ _ _); repeat constructor.
Qed.

(** ** Template references *)
Lemma imp_check_ok src s c : utf8_text (c_node c) src <> Panic -> exists r, imp_check src s c = Ok r.
Proof.
  intros H. unfold imp_check. destruct (c_name c); eauto; destruct (im_current s); eauto.
  - destruct (nget n (im_imports s)); eauto. destruct (utf8_text (c_node c) src) as [[|]|]; cbn [bind]; [eauto|eauto|contradiction].
  - destruct (utf8_text (c_node c) src) as [[x|]|]; cbn [bind]; [|eauto|contradiction].
    destruct (nget n (im_imports s)) as [[]|]; eauto. destruct (String.eqb _ _); eauto.
Qed.
Lemma run_ok {S C} (check : S -> C -> res (S * bool)) (P : C -> Prop) :
  (forall s c, P c -> exists r, check s c = Ok r) ->
  forall cs s, Forall P cs -> exists s', run check s cs = Ok s'.
Proof.
  intros H. induction cs as [|c cs IH]; intros s HF; cbn; [eauto|].
  inversion HF as [|? ? H1 H2]; subst. destruct (H s c H1) as ((s' & k) & E). rewrite E.
  cbn [bind]. destruct k; eauto.
Qed.
Lemma flat_captures_all tp ms : flat_captures true tp ms = concat ms.
Proof.
  unfold flat_captures. induction ms as [|m ms IH]; [reflexivity|]. cbn [flat_map concat]. rewrite IH. f_equal.
  clear IH. induction m as [|c m IH]; [reflexivity|]. cbn [filter]. change (true || pt_leb (n_start (c_node c)) tp) with true. cbv iota. f_equal. exact IH.
Qed.
Lemma templates_query_ok ms tp src :
  Forall (fun c => utf8_text (c_node c) src <> Panic) (concat ms) ->
  exists s, templates_query ms tp src true = Ok s.
Proof.
  intros H. unfold templates_query. rewrite flat_captures_all.
  apply (run_ok _ (fun c => utf8_text (c_node c) src <> Panic)); [|exact H]. intros. now apply imp_check_ok.
Qed.

Lemma strip_quotes_app a b : strip_quotes (a ++ b) = (strip_quotes a ++ strip_quotes b)%string.
Proof.
  unfold strip_quotes. induction a as [|x a IH]; [reflexivity|].
  cbn [append remove_chars]. rewrite IH. destruct (_ : bool); reflexivity.
Qed.
Lemma strip_quotes_none s : no_quotes s -> strip_quotes s = s.
Proof.
  unfold strip_quotes, no_quotes. induction s as [|x s IH]; [reflexivity|]. cbn [list_ascii_of_string In remove_chars].
  intros (H1 & H2). destruct (Ascii.eqb x dquote) eqn:E1; [apply Ascii.eqb_eq in E1; subst; tauto|].
  destruct (Ascii.eqb x squote) eqn:E2; [apply Ascii.eqb_eq in E2; subst; tauto|]. cbn [orb]. f_equal. tauto.
Qed.
Lemma strip_quotes_sref q s : q = dquote \/ q = squote -> no_quotes s ->
  strip_quotes (String q (s ++ String q EmptyString)) = s.
Proof.
  intros Hq Hs. change (String q (s ++ String q EmptyString)) with (String q EmptyString ++ (s ++ String q EmptyString))%string.
  rewrite !strip_quotes_app, (strip_quotes_none s Hs). destruct Hq; subst q.
  - change (strip_quotes (String dquote "")) with ""%string. cbn [append]. apply append_nil_r.
  - change (strip_quotes (String squote "")) with ""%string. cbn [append]. apply append_nil_r.
Qed.

(** The entry an import statement leaves in the table. *)
Definition import_of (s : istmt) : import :=
  match s with
  | SExtends _ _ t => IExtends (ref_id t)
  | SInclude _ _ ts => IInclude (map ref_id ts)
  | SFrom _ _ t _ ids =>
      IFrom (ref_id t) (flat_map (fun i => match i with Some i => [id_new (snd i) (n_start (fst i)) (n_end (fst i))] | None => [] end) ids)
  | SImport _ _ t als =>
      IImport (ref_id t)
        (match flat_map (fun a => match snd a with Some i => [snd i] | None => [] end) als with
         | [] => id_default
         | i :: _ => mkid (id_start id_default) (id_end id_default) i (id_scope id_default) (id_type id_default) (id_fields id_default)
         end)
  end.

Fixpoint runi (src : string) (s : jimports) (cs : list capture) : option jimports :=
  match cs with
  | [] => Some s
  | c :: r => match imp_check src s c with Ok (s', true) => runi src s' r | _ => None end
  end.
Lemma runi_app src s a b : runi src s (a ++ b) = match runi src s a with Some s' => runi src s' b | None => None end.
Proof.
  revert s. induction a as [|c a IH]; intros s; [reflexivity|]. cbn [app runi].
  destruct (imp_check src s c) as [(s' & [|])|]; auto.
Qed.
Lemma run_runi src cs rest : forall s s', runi src s cs = Some s' ->
  run (imp_check src) s (cs ++ rest) = run (imp_check src) s' rest.
Proof.
  induction cs as [|c cs IH]; intros s s'; cbn [runi app run]; [intros H; inversion H; reflexivity|].
  destruct (imp_check src s c) as [(s1 & [|])|]; try discriminate. cbn [bind]. auto.
Qed.

Definition fresh {V} (id : N) (m : list (N * V)) : Prop := ~ In id (map fst m).
Lemma nget_fresh {V} id (m : list (N * V)) : fresh id m -> nget id m = None.
Proof.
  unfold fresh, nget. induction m as [|(k & v) m IH]; [reflexivity|]. cbn [map fst In hm_get]. intros H.
  destruct (N.eqb_spec id k); [subst; tauto|]. auto.
Qed.
Lemma nget_last {V} id (v : V) m : fresh id m -> nget id (m ++ [(id, v)]) = Some v.
Proof.
  unfold fresh, nget. induction m as [|(k & w) m IH]; cbn [map fst In app hm_get]; intros H.
  - now rewrite N.eqb_refl.
  - destruct (N.eqb_spec id k); [subst; tauto|]. auto.
Qed.
Lemma ninsert_fresh {V} id (v : V) m : fresh id m -> ninsert id v m = m ++ [(id, v)].
Proof.
  unfold fresh, ninsert. induction m as [|(k & w) m IH]; cbn [map fst In app hm_insert]; intros H; [reflexivity|].
  destruct (N.eqb_spec id k); [subst; tauto|]. rewrite IH; tauto.
Qed.
Lemma ninsert_last {V} id (v w : V) m : fresh id m -> ninsert id v (m ++ [(id, w)]) = m ++ [(id, v)].
Proof.
  unfold fresh, ninsert. induction m as [|(k & u) m IH]; cbn [map fst In app hm_insert]; intros H.
  - now rewrite N.eqb_refl.
  - destruct (N.eqb_spec id k); [subst; tauto|]. rewrite IH; tauto.
Qed.

(** One template name while its statement is current. *)
Lemma check_name src m id im l r : fresh id m -> sref_ok src r ->
  imp_check src (mkimps (m ++ [(id, im)]) (Some id) l) (cap CTemplateName (fst r)) =
  Ok (mkimps (m ++ [(id, add_template_name im (snd r) (n_start (fst r)) (n_end (fst r)))]) (Some id) l, true).
Proof.
  intros Hf (Hq & q & Hq' & E). unfold imp_check. cbn [cap c_name c_node im_current im_imports im_last].
  rewrite (nget_last _ _ _ Hf), E. cbn [bind]. rewrite strip_quotes_sref by assumption.
  now rewrite (ninsert_last _ _ _ _ Hf).
Qed.
Lemma fill_new t name st en : id_name t = ""%string \/ t = mkid st en name (id_scope t) JinjaTemplate (id_fields t) ->
  fill_template t name st en = mkid st en name (id_scope t) JinjaTemplate (id_fields t).
Proof.
  intros [H|H]; unfold fill_template.
  - now rewrite H.
  - destruct (String.eqb (id_name t) "") eqn:E; [reflexivity|exact H].
Qed.

Lemma run_stmt src s0 st : stmt_ok src st -> fresh (n_id (stmt_node st)) (im_imports s0) ->
  exists cur l, runi src s0 (concat (cap_stmt st)) =
    Some (mkimps (im_imports s0 ++ [(n_id (stmt_node st), import_of st)]) cur l).
Proof.
  intros Hok Hf. set (m := im_imports s0) in *. destruct st as [n kw t|n kw ts|n kw t imp ids|n kw t als]; cbn [stmt_node] in *.
  - cbn [cap_stmt concat app stmt_ok] in *. cbn [runi].
    unfold imp_check at 1. cbn [cap c_name c_node]. unfold open_import. fold m. rewrite (nget_fresh _ _ Hf), (ninsert_fresh _ _ _ Hf).
    unfold imp_check at 1. cbn [cap c_name].
    rewrite (check_name src m _ _ _ t Hf Hok). cbn [add_template_name]. rewrite fill_new by now left. eauto.
  - destruct Hok as (Hne & Hok). cbn [cap_stmt import_of].
    assert (G : forall ts done cur l, Forall (sref_ok src) ts ->
      exists cur' l', runi src (mkimps (m ++ [(n_id n, IInclude (map ref_id done))]) cur l)
        (concat (map (fun t => [cap CInclude n; cap COther kw; cap CTemplateName (fst t)]) ts)) =
        Some (mkimps (m ++ [(n_id n, IInclude (map ref_id (done ++ ts)))]) cur' l')).
    { clear Hok Hne ts. induction ts as [|t ts IH]; intros done cur l HF.
      - rewrite app_nil_r. cbn. eauto.
      - inversion HF as [|? ? H1 H2]; subst. cbn [map concat app runi].
        unfold imp_check at 1. cbn [cap c_name c_node]. unfold open_import. cbn [im_imports im_last].
        rewrite (nget_last _ _ _ Hf). unfold imp_check at 1. cbn [cap c_name].
        rewrite (check_name src m _ _ _ t Hf H1). cbn [add_template_name].
        replace (map ref_id done ++ [with_type JinjaTemplate (id_new (snd t) (n_start (fst t)) (n_end (fst t)))])
          with (map ref_id (done ++ [t])) by now rewrite map_app.
        replace (done ++ t :: ts) with ((done ++ [t]) ++ ts) by now rewrite <- app_assoc. auto. }
    destruct ts as [|t ts]; [contradiction|]. inversion Hok as [|? ? H1 H2]; subst. cbn [map concat app runi].
    unfold imp_check at 1. cbn [cap c_name c_node]. unfold open_import. fold m. rewrite (nget_fresh _ _ Hf), (ninsert_fresh _ _ _ Hf).
    unfold imp_check at 1. cbn [cap c_name].
    rewrite (check_name src m _ _ _ t Hf H1). cbn [add_template_name app].
    exact (G ts [t] _ _ H2).
  - destruct Hok as (Ht & Hne & Hids). cbn [import_of].
    set (one := fun i : option tok => match i with Some i => [id_new (snd i) (n_start (fst i)) (n_end (fst i))] | None => [] end).
    set (caps := fun i : option tok => [cap CFrom n; cap COther kw; cap CTemplateName (fst t); cap COther imp] ++
                    match i with Some i => [cap CImportIdentifier (fst i)] | None => [] end).
    change (cap_stmt (SFrom n kw t imp ids)) with (map caps ids).
    assert (Tl : forall i done l, match i with Some i => reads src i | None => True end ->
       runi src (mkimps (m ++ [(n_id n, IFrom (ref_id t) done)]) (Some (n_id n)) l)
         (match i with Some i => [cap CImportIdentifier (fst i)] | None => [] end) =
       Some (mkimps (m ++ [(n_id n, IFrom (ref_id t) (done ++ one i))]) (Some (n_id n)) l)).
    { intros [i|] done l Hi; [|cbn; now rewrite app_nil_r]. destruct Hi as (Ei & _). cbn [runi]. unfold imp_check.
      cbn [cap c_name c_node im_current im_imports im_last]. rewrite Ei. cbn [bind]. rewrite (nget_last _ _ _ Hf).
      now rewrite (ninsert_last _ _ _ _ Hf). }
    assert (G : forall ids done cur l, Forall (fun i => match i with Some i => reads src i | None => True end) ids ->
      exists cur' l', runi src (mkimps (m ++ [(n_id n, IFrom (ref_id t) done)]) cur l) (concat (map caps ids)) =
        Some (mkimps (m ++ [(n_id n, IFrom (ref_id t) (done ++ flat_map one ids))]) cur' l')).
    { clear Hids Hne ids. induction ids as [|i ids IH]; intros done cur l HF.
      - cbn [flat_map map concat]. rewrite app_nil_r. cbn. eauto.
      - inversion HF as [|? ? H1 H2]; subst. cbn [map concat flat_map]. unfold caps at 1. rewrite <- !app_assoc. cbn [app runi].
        unfold imp_check at 1. cbn [cap c_name c_node]. unfold open_import. cbn [im_imports im_last].
        rewrite (nget_last _ _ _ Hf). unfold imp_check at 1. cbn [cap c_name].
        rewrite (check_name src m _ _ _ t Hf Ht). cbn [add_template_name]. rewrite fill_new by now right.
        change (mkid (n_start (fst t)) (n_end (fst t)) (snd t) (id_scope (ref_id t)) JinjaTemplate (id_fields (ref_id t))) with (ref_id t).
        unfold imp_check at 1. cbn [cap c_name]. rewrite runi_app, (Tl i done l H1), app_assoc. auto. }
    destruct ids as [|i ids]; [contradiction|]. inversion Hids as [|? ? H1 H2]; subst.
    cbn [map concat flat_map]. unfold caps at 1. rewrite <- !app_assoc. cbn [app runi].
    unfold imp_check at 1. cbn [cap c_name c_node]. unfold open_import. fold m. rewrite (nget_fresh _ _ Hf), (ninsert_fresh _ _ _ Hf).
    unfold imp_check at 1. cbn [cap c_name].
    rewrite (check_name src m _ _ _ t Hf Ht). cbn [add_template_name]. rewrite fill_new by now left.
    unfold imp_check at 1. cbn [cap c_name]. rewrite runi_app.
    change (mkid (n_start (fst t)) (n_end (fst t)) (snd t) (id_scope id_default) JinjaTemplate (id_fields id_default)) with (ref_id t).
    rewrite (Tl i [] _ H1). cbn [app]. exact (G ids (one i) _ _ H2).
  - destruct Hok as (Ht & Hne & Hals). cbn [import_of].
    set (one := fun a : option node * option tok => match snd a with Some i => [snd i] | None => [] end).
    set (tl := fun a : option node * option tok => match fst a with Some k => [cap COther k] | None => [] end ++
      match snd a with Some i => [cap CImportIdentifier (fst i)] | None => [] end).
    set (caps := fun a => [cap CImport n; cap COther kw; cap CTemplateName (fst t)] ++ tl a).
    change (cap_stmt (SImport n kw t als)) with (map caps als).
    set (al := fun names : list string => match names with
         | [] => id_default
         | i :: _ => mkid (id_start id_default) (id_end id_default) i (id_scope id_default) (id_type id_default) (id_fields id_default)
         end).
    set (okn := fun names : list string => Forall (fun x => x <> EmptyString) names).
    assert (Tl : forall a done l, match snd a with Some i => reads src i | None => True end -> okn done ->
       exists cur l', runi src (mkimps (m ++ [(n_id n, IImport (ref_id t) (al done))]) (Some (n_id n)) l) (tl a) =
       Some (mkimps (m ++ [(n_id n, IImport (ref_id t) (al (done ++ one a)))]) cur l') /\ okn (done ++ one a)).
    { intros (k & [i|]) done l Hi Hd; [|destruct k; cbn; rewrite app_nil_r; eauto]. destruct Hi as (Ei & Hi). unfold tl; cbn [fst snd].
      match goal with |- context [runi src ?s (?x ++ ?y)] => replace (runi src s (x ++ y)) with (runi src s y) by (destruct k; reflexivity) end.
      cbn [runi]. unfold imp_check.
      cbn [cap c_name c_node im_current im_imports im_last]. rewrite Ei. cbn [bind]. rewrite (nget_last _ _ _ Hf).
      assert (okn (done ++ one (k, Some i))) by (apply Forall_app; split; [exact Hd|repeat constructor; exact Hi]).
      destruct done as [|d ds].
      - change (String.eqb (id_name (al [])) "") with true. cbv iota. rewrite (ninsert_last _ _ _ _ Hf).
        do 2 eexists. split; [reflexivity|assumption].
      - change (id_name (al (d :: ds))) with d. inversion Hd; subst. rewrite (proj2 (String.eqb_neq d "")) by assumption.
        do 2 eexists. split; [reflexivity|assumption]. }
    assert (G : forall als done cur l, Forall (fun a => match snd a with Some i => reads src i | None => True end) als -> okn done ->
      exists cur' l', runi src (mkimps (m ++ [(n_id n, IImport (ref_id t) (al done))]) cur l) (concat (map caps als)) =
        Some (mkimps (m ++ [(n_id n, IImport (ref_id t) (al (done ++ flat_map one als)))]) cur' l')).
    { clear Hals Hne als. induction als as [|a als IH]; intros done cur l HF Hd.
      - cbn [flat_map map concat]. rewrite app_nil_r. cbn. eauto.
      - inversion HF as [|? ? H1 H2]; subst. cbn [map concat flat_map]. unfold caps at 1. rewrite <- !app_assoc. cbn [app runi].
        unfold imp_check at 1. cbn [cap c_name c_node]. unfold open_import. cbn [im_imports im_last].
        rewrite (nget_last _ _ _ Hf). unfold imp_check at 1. cbn [cap c_name].
        rewrite (check_name src m _ _ _ t Hf Ht). cbn [add_template_name]. rewrite fill_new by now right.
        rewrite runi_app. change (mkid (n_start (fst t)) (n_end (fst t)) (snd t) (id_scope (ref_id t)) JinjaTemplate (id_fields (ref_id t))) with (ref_id t).
        destruct (Tl a done l H1 Hd) as (cur1 & l1 & -> & Hd'). rewrite app_assoc. auto. }
    destruct als as [|a als]; [contradiction|]. inversion Hals as [|? ? H1 H2]; subst.
    cbn [map concat flat_map]. unfold caps at 1. rewrite <- !app_assoc. cbn [app runi].
    unfold imp_check at 1. cbn [cap c_name c_node]. unfold open_import. fold m. rewrite (nget_fresh _ _ Hf), (ninsert_fresh _ _ _ Hf).
    unfold imp_check at 1. cbn [cap c_name].
    rewrite (check_name src m _ _ _ t Hf Ht). cbn [add_template_name]. rewrite fill_new by now left.
    rewrite runi_app.
    change (mkid (n_start (fst t)) (n_end (fst t)) (snd t) (id_scope id_default) JinjaTemplate (id_fields id_default)) with (ref_id t).
    change id_default with (al []).
    destruct (Tl a [] (n_id n) H1 (Forall_nil _)) as (cur1 & l1 & -> & Hd').
    exact (G als _ _ _ H2 Hd').
Qed.

Lemma run_stmts src sts : forall s0,
  Forall (stmt_ok src) sts -> NoDup (map fst (im_imports s0) ++ map (fun s => n_id (stmt_node s)) sts) ->
  exists cur l, runi src s0 (concat (flat_map cap_stmt sts)) =
    Some (mkimps (im_imports s0 ++ map (fun s => (n_id (stmt_node s), import_of s)) sts) cur l).
Proof.
  induction sts as [|st sts IH]; intros s0 HF HN.
  - cbn. rewrite app_nil_r. destruct s0. cbn. eauto.
  - inversion HF as [|? ? H1 H2]; subst. cbn [flat_map map]. rewrite concat_app, runi_app.
    assert (Hf : fresh (n_id (stmt_node st)) (im_imports s0)).
    { unfold fresh. cbn [map] in HN. apply NoDup_remove_2 in HN. intros H. apply HN. apply in_or_app. now left. }
    destruct (run_stmt src s0 st H1 Hf) as (cur & l & E). rewrite E.
    destruct (IH (mkimps (im_imports s0 ++ [(n_id (stmt_node st), import_of st)]) cur l) H2) as (cur' & l' & E').
    { cbn [im_imports]. rewrite map_app, <- app_assoc. exact HN. }
    rewrite E'. cbn [im_imports]. rewrite <- app_assoc. cbn [app]. eauto.
Qed.
Lemma templates_exact src ms tp sts :
  stmts_ok src sts -> ms = flat_map cap_stmt sts ->
  exists cur l, templates_query ms tp src true =
    Ok (mkimps (map (fun s => (n_id (stmt_node s), import_of s)) sts) cur l).
Proof.
  intros (HF & HN) ->. unfold templates_query. rewrite flat_captures_all.
  destruct (run_stmts src sts jimports0 HF HN) as (cur & l & E). exists cur, l.
  rewrite <- (app_nil_r (concat _)). rewrite (run_runi _ _ [] _ _ E). reflexivity.
Qed.

(** *** Paths *)
Lemma concat_cons (x : string) l : l <> [] -> String.concat "/" (x :: l) = (x ++ "/" ++ String.concat "/" l)%string.
Proof. destruct l; [easy|reflexivity]. Qed.
Lemma append_assoc a b c : ((a ++ b) ++ c = a ++ b ++ c)%string.
Proof. induction a; cbn; congruence. Qed.
Lemma concat_snoc (x : string) l : l <> [] -> String.concat "/" (l ++ [x]) = (String.concat "/" l ++ "/" ++ x)%string.
Proof.
  induction l as [|y l IH]; [easy|]. intros _. destruct l as [|z l]; [reflexivity|].
  cbn [app]. rewrite (concat_cons y), (concat_cons y) by discriminate.
  cbn [app] in IH. rewrite IH by discriminate. now rewrite !append_assoc.
Qed.
Lemma split_ne c s : split_char c s <> [].
Proof.
  destruct s as [|a s]; cbn [split_char]; [discriminate|]. destruct (Ascii.eqb a c); [discriminate|].
  destruct (split_char c s); discriminate.
Qed.
Lemma concat_split s : String.concat "/" (split_char slash s) = s.
Proof.
  induction s as [|a s IH]; [reflexivity|]. cbn [split_char].
  destruct (Ascii.eqb a slash) eqn:E.
  - apply Ascii.eqb_eq in E. subst a.
    rewrite concat_cons by apply split_ne. rewrite IH. reflexivity.
  - destruct (split_char slash s) as [|p ps] eqn:Es.
    + cbn in IH. subst s. reflexivity.
    + rewrite <- IH. destruct ps as [|q ps]; [reflexivity|]. rewrite !concat_cons by discriminate. reflexivity.
Qed.
Definition no_slash (s : string) : Prop := ~ In slash (list_ascii_of_string s).
Lemma split_no_slash s : Forall no_slash (split_char slash s).
Proof.
  induction s as [|a s IH]; cbn [split_char].
  - constructor; [intros []|constructor].
  - destruct (Ascii.eqb a slash) eqn:E.
    + constructor; [intros []|exact IH].
    + apply Ascii.eqb_neq in E. destruct (split_char slash s) as [|p ps].
      * constructor; [|constructor]. intros [H|[]]. congruence.
      * inversion IH as [|? ? H1 H2]; subst. constructor; [|exact H2]. intros [H|H]; [congruence|now apply H1].
Qed.
Lemma ends_app a b : b <> EmptyString -> ends_with_slash (a ++ b) = ends_with_slash b.
Proof.
  intros Hb. induction a as [|x a IH]; [reflexivity|]. cbn [append ends_with_slash].
  destruct (a ++ b)%string eqn:E; [destruct a; [contradiction|discriminate]|]. exact IH.
Qed.
Lemma ends_no_slash s : no_slash s -> ends_with_slash s = false.
Proof.
  unfold no_slash. induction s as [|a s IH]; [reflexivity|]. cbn [list_ascii_of_string In ends_with_slash].
  intros H. destruct s; [apply Ascii.eqb_neq; tauto|]. apply IH. tauto.
Qed.
Lemma absolute_no_slash s : no_slash s -> is_absolute s = false.
Proof.
  unfold no_slash, is_absolute, starts_with. destruct s as [|a s]; [reflexivity|]. cbn [list_ascii_of_string In String.prefix].
  intros H. destruct (ascii_dec "/" a) as [E|E]; [exfalso; apply H; left; now symmetry|reflexivity].
Qed.
(** The shape of the accumulated path. *)
Definition is_nil {A} (l : list A) : bool := match l with [] => true | _ => false end.
Definition built (l : list string) : string :=
  (String.concat "/" (filter non_empty l) ++
   if match last_opt l with Some x => String.eqb x "" | None => false end && negb (is_nil (filter non_empty l))
   then "/" else "")%string.
Lemma concat_not_empty l : Forall (fun x => x <> EmptyString) l -> l <> [] -> String.concat "/" l <> EmptyString.
Proof.
  intros HF Hl. destruct l as [|x l]; [easy|]. inversion HF; subst. destruct l; cbn; [assumption|].
  destruct x; [easy|discriminate].
Qed.
Lemma concat_ends l : Forall (fun x => x <> EmptyString /\ no_slash x) l -> ends_with_slash (String.concat "/" l) = false.
Proof.
  induction l as [|x l IH]; [reflexivity|]. intros HF. inversion HF as [|? ? (H1 & H2) H3]; subst.
  destruct l as [|y l]; [now apply ends_no_slash|].
  rewrite concat_cons by discriminate. rewrite ends_app by discriminate.
  rewrite ends_app; [auto|]. apply concat_not_empty; [|discriminate]. eapply Forall_impl; [|exact H3]. now intros ? (? & _).
Qed.
Lemma filter_non_empty l : Forall no_slash l -> Forall (fun x => x <> EmptyString /\ no_slash x) (filter non_empty l).
Proof.
  intros H. apply Forall_forall. intros x Hx. apply filter_In in Hx. destruct Hx as (Hx & Hn). split.
  - intros ->. discriminate.
  - rewrite Forall_forall in H. auto.
Qed.
Lemma push_step l x : Forall no_slash l -> no_slash x -> path_push (built l) x = built (l ++ [x]).
Proof.
  intros Hl Hx. unfold path_push. rewrite (absolute_no_slash x Hx).
  pose proof (filter_non_empty l Hl) as Hf. set (f := filter non_empty l) in *.
  assert (Hf' : Forall (fun x => x <> EmptyString) f) by (eapply Forall_impl; [|exact Hf]; now intros ? (? & _)).
  unfold built. rewrite filter_app, last_opt_snoc. fold f. cbn [filter].
  destruct (is_nil f) eqn:En.
  - destruct f; [|discriminate]. cbn [negb]. rewrite andb_false_r. cbn [String.concat append String.eqb app].
    unfold non_empty. destruct (String.eqb x "") eqn:Ex.
    + apply String.eqb_eq in Ex. subst x. reflexivity.
    + cbn. now rewrite append_nil_r.
  - assert (Hne : f <> []) by (destruct f; discriminate).
    assert (Hc : String.concat "/" f <> EmptyString) by now apply concat_not_empty.
    assert (Hcat : forall t, String.eqb (String.concat "/" f ++ t) "" = false).
    { intros t. apply String.eqb_neq. destruct (String.concat "/" f); [easy|discriminate]. }
    rewrite Hcat. cbn [negb]. rewrite andb_true_r.
    unfold non_empty. destruct (String.eqb x "") eqn:Ex; cbn [negb].
    + apply String.eqb_eq in Ex. subst x. rewrite app_nil_r, En. cbn [negb andb].
      destruct (match last_opt l with Some x => String.eqb x "" | None => false end).
      * rewrite ends_app by discriminate. cbn. now rewrite append_nil_r.
      * rewrite append_nil_r, (concat_ends f Hf). now cbn.
    + replace (is_nil (f ++ [x])) with false by (destruct f; reflexivity). cbn [andb].
      rewrite concat_snoc by assumption. rewrite append_nil_r.
      destruct (match last_opt l with Some x => String.eqb x "" | None => false end).
      * rewrite ends_app by discriminate. cbn [ends_with_slash Ascii.eqb]. change (Ascii.eqb "/" slash) with true. cbv iota.
        now rewrite append_assoc.
      * rewrite append_nil_r, (concat_ends f Hf). reflexivity.
Qed.
Lemma push_all l2 : forall l1, Forall no_slash l1 -> Forall no_slash l2 ->
  fold_left path_push l2 (built l1) = built (l1 ++ l2).
Proof.
  induction l2 as [|x l2 IH]; intros l1 H1 H2; cbn [fold_left]; [now rewrite app_nil_r|].
  inversion H2; subst. rewrite push_step by assumption. rewrite IH; auto.
  - now rewrite <- app_assoc.
  - apply Forall_app. auto.
Qed.
Lemma last_split s : match last_opt (split_char slash s) with Some x => String.eqb x "" | None => false end
  = String.eqb s "" || ends_with_slash s.
Proof.
  induction s as [|a s IH]; [reflexivity|]. cbn [split_char].
  pose proof (split_ne slash s) as Hne.
  destruct (Ascii.eqb a slash) eqn:E.
  - rewrite last_opt_cons. destruct (last_opt (split_char slash s)) as [x|] eqn:El.
    + rewrite IH. destruct s; [cbn; now rewrite E|]. reflexivity.
    + destruct (split_char slash s); [easy|]. rewrite last_opt_cons in El. destruct (last_opt l); discriminate.
  - destruct (split_char slash s) as [|p ps] eqn:Es; [easy|].
    rewrite last_opt_cons in *. destruct (last_opt ps) as [x|] eqn:El.
    + rewrite IH. destruct s; [|reflexivity]. cbn in Es. inversion Es; subst. discriminate.
    + destruct s as [|c s]; [cbn; now rewrite E|]. 
      cbn [String.eqb]. destruct p as [|q p]; [|].
      * cbn [String.eqb] in *. cbn [orb ends_with_slash]. cbn [String.eqb orb] in IH.
        exfalso. destruct ps; [|rewrite last_opt_cons in El; destruct (last_opt ps); discriminate].
        assert (H := concat_split (String c s)). rewrite Es in H. cbn in H. discriminate.
      * cbn [String.eqb orb] in *. exact IH.
Qed.
Lemma path_items_relative name : path_items name = relative name.
Proof.
  unfold path_items. change ""%string with (built []).
  rewrite push_all; [|constructor|apply split_no_slash]. cbn [app]. unfold built, relative, segments.
  rewrite last_split. f_equal.
  destruct (String.eqb name "") eqn:E; [|reflexivity]. apply String.eqb_eq in E. subst. reflexivity.
Qed.
Lemma relative_not_absolute name : is_absolute (relative name) = false.
Proof.
  unfold relative. pose proof (filter_non_empty _ (split_no_slash name)) as Hf. fold (segments name) in Hf.
  destruct (segments name) as [|x l].
  - rewrite andb_false_r. reflexivity.
  - inversion Hf as [|? ? (H1 & H2) _]; subst. destruct x as [|a x]; [easy|].
    assert (Hx : exists r, (String.concat "/" (String a x :: l) ++ (if ends_with_slash name && negb false then "/" else ""))%string = String a r).
    { destruct l; cbn; eauto. }
    destruct Hx as (r & ->). unfold is_absolute, starts_with. cbn [String.prefix].
    destruct (ascii_dec "/" a) as [E|E]; [|reflexivity]. exfalso. apply H2. left. now symmetry.
Qed.
Lemma lookup_path_push dir name : path_push dir (path_items name) = lookup_path dir name.
Proof.
  rewrite path_items_relative. unfold path_push, lookup_path. now rewrite relative_not_absolute.
Qed.
Lemma template_missing_not_found F dir name : template_missing F dir name = not_found F dir name.
Proof. unfold template_missing, not_found. now rewrite lookup_path_push. Qed.

(** ** The whole of linting *)
Lemma search_errors_until T F b tr src vars file dir ig this ps tail imps :
  pieces_ok src ps -> concat (t_captures T QObjects tr src) = cap_pieces ps ++ tail -> stops tail ->
  templates_query (t_captures T QImports tr src) pt0 src true = Ok imps ->
  sget file vars = Some this ->
  search_errors T F b tr src vars file dir Template ig =
    Ok (Some (flat_map (lint_object vars this ig) (flat_map uses ps) ++ lint_templates F dir (imports_collect imps))).
Proof.
  intros Hps E Hs Hi Hf. unfold search_errors.
  destruct (objects_until b src _ pt0 ps tail Hps E Hs) as (s & Q & Eo). rewrite Q. cbn [bind]. rewrite Hf, Hi. cbn [bind].
  now rewrite Eo.
Qed.
Lemma search_errors_template T F b tr src vars file dir ig this ps imps :
  pieces_ok src ps -> concat (t_captures T QObjects tr src) = cap_pieces ps ->
  templates_query (t_captures T QImports tr src) pt0 src true = Ok imps ->
  sget file vars = Some this ->
  search_errors T F b tr src vars file dir Template ig =
    Ok (Some (flat_map (lint_object vars this ig) (flat_map uses ps) ++ lint_templates F dir (imports_collect imps))).
Proof.
  intros Hps E Hi Hf. unfold search_errors.
  destruct (objects_exact b src _ pt0 ps Hps E) as (s & Q & Eo). rewrite Q. cbn [bind]. rewrite Hf, Hi. cbn [bind].
  now rewrite Eo.
Qed.

Lemma diagnostics_exact T F b tr src vars file dir this ps tail :
  pieces_ok src ps -> concat (t_captures T QObjects tr src) = cap_pieces ps ++ tail -> stops tail ->
  Forall (fun c => utf8_text (c_node c) src <> Panic) (concat (t_captures T QImports tr src)) ->
  sget file vars = Some this ->
  exists e1 e2, search_errors T F b tr src vars file dir Template false = Ok (Some (e1 ++ e2)) /\
    reported (map decl_of_id this) (indexed vars) (chains ps) e1 /\
    Forall (fun d => fst d = TemplateNotFound) e2.
Proof.
  intros Hps E Hs Hi Hf. destruct (templates_query_ok _ pt0 _ Hi) as (imps & Ei).
  exists (flat_map (lint_object vars this false) (flat_map uses ps)), (lint_templates F dir (imports_collect imps)).
  split; [now apply search_errors_until with (tail := tail)|]. split; [apply lint_uses|apply lint_templates_kind].
Qed.

(** Hiding undefined variables. *)
Definition is_tnf (d : jdiag * identifier) : bool := match fst d with TemplateNotFound => true | _ => false end.
Lemma lint_object_hidden vars this o : lint_object vars this true o = [].
Proof.
  unfold lint_object. destruct (o_is_filter o || o_is_test o); [reflexivity|].
  destruct (filter (visible_at o) _), (filter (same_name o) this); reflexivity.
Qed.
Lemma filter_none {A} (f : A -> bool) l : Forall (fun x => f x = false) l -> filter f l = [].
Proof. induction 1 as [|x l H _ IH]; [reflexivity|]. cbn. now rewrite H. Qed.
Lemma filter_all {A} (f : A -> bool) l : Forall (fun x => f x = true) l -> filter f l = l.
Proof. induction 1 as [|x l H _ IH]; [reflexivity|]. cbn. now rewrite H, IH. Qed.
Lemma hide_exact T F b tr src vars file dir lang :
  search_errors T F b tr src vars file dir lang true =
  match search_errors T F b tr src vars file dir lang false with
  | Ok (Some e) => Ok (Some (filter is_tnf e))
  | r => r
  end.
Proof.
  unfold search_errors. destruct lang.
  - destruct (objects_query b _ pt0 src true) as [objs|]; [|reflexivity]. cbn [bind].
    destruct (sget file vars) as [this|]; [|reflexivity].
    destruct (templates_query _ pt0 src true) as [imps|]; [|reflexivity]. cbn [bind]. do 2 f_equal.
    rewrite filter_app. f_equal.
    + rewrite filter_none.
      * clear. induction (os_objects objs) as [|o os IH]; [reflexivity|]. cbn [flat_map]. rewrite lint_object_hidden. exact IH.
      * eapply Forall_impl; [|apply lint_objects_kind]. unfold is_tnf. intros (d, i) H. cbn in *. destruct d; easy.
    + symmetry. apply filter_all. eapply Forall_impl; [|apply lint_templates_kind]. unfold is_tnf. intros d ->. reflexivity.
  - destruct (sget file vars) as [this|]; [|reflexivity]. do 2 f_equal.
    symmetry. apply filter_all. eapply Forall_impl; [|apply lint_backend_kind]. unfold is_tnf. intros d ->. reflexivity.
Qed.

(** Missing templates. *)
Lemma lint_templates_refs F dir sts :
  lint_templates F dir (flat_map (fun kv => import_collect (snd kv)) (map (fun s => (n_id (stmt_node s), import_of s)) sts)) =
  map (fun r => (TemplateNotFound, ref_id r)) (filter (fun r => missing F dir (snd r)) (flat_map refs sts)).
Proof.
  assert (G : forall rs, lint_templates F dir (map ref_id rs) =
     map (fun r => (TemplateNotFound, ref_id r)) (filter (fun r => missing F dir (snd r)) rs)).
  { induction rs as [|r rs IH]; [reflexivity|]. unfold lint_templates in *. cbn [map flat_map filter].
    rewrite IH. cbn [ref_id id_type id_name itype_eqb itype_index]. change (missing F dir (snd r)) with (String.eqb (snd r) "" || not_found F dir (snd r)).
    rewrite template_missing_not_found. change (itype_eqb JinjaTemplate JinjaTemplate) with true. cbv iota.
    destruct (String.eqb (snd r) ""); cbn [orb]; [reflexivity|]. destruct (not_found F dir (snd r)); reflexivity. }
  induction sts as [|st sts IH]; [reflexivity|]. cbn [map flat_map snd]. unfold lint_templates in *.
  rewrite flat_map_app, filter_app, map_app, IH. f_equal. clear IH.
  destruct st as [n kw t|n kw ts|n kw t imp ids|n kw t als]; cbn [import_of import_collect refs].
  - exact (G [t]).
  - exact (G ts).
  - change (ref_id t :: ?l) with ([ref_id t] ++ l). rewrite flat_map_app.
    rewrite <- (app_nil_r (map _ _)). f_equal; [exact (G [t])|].
    induction ids as [|[i|] ids IH]; [reflexivity| |exact IH]. cbn [flat_map app]. exact IH.
  - exact (G [t]).
Qed.
Lemma missing_exact T F b tr src vars file dir ig this ps sts :
  pieces_ok src ps -> concat (t_captures T QObjects tr src) = cap_pieces ps ->
  stmts_ok src sts -> t_captures T QImports tr src = flat_map cap_stmt sts ->
  sget file vars = Some this ->
  exists e1, search_errors T F b tr src vars file dir Template ig =
      Ok (Some (e1 ++ map (fun r => (TemplateNotFound, ref_id r))
                        (filter (fun r => missing F dir (snd r)) (flat_map refs sts)))) /\
    Forall (fun d => fst d <> TemplateNotFound) e1 /\
    (ig = false -> reported (map decl_of_id this) (indexed vars) (chains ps) e1) /\ (ig = true -> e1 = []).
Proof.
  intros Hps E Hst Ei Hf. destruct (templates_exact src _ pt0 sts Hst Ei) as (cur & l & Q).
  exists (flat_map (lint_object vars this ig) (flat_map uses ps)).
  split. { rewrite (search_errors_template T F b tr src vars file dir ig this ps _ Hps E Q Hf).
           unfold imports_collect. cbn [im_imports]. now rewrite lint_templates_refs. }
  split; [apply lint_objects_kind|]. split; intros ->.
  - apply lint_uses.
  - clear. induction (flat_map uses ps) as [|o os IH]; [reflexivity|]. cbn [flat_map]. rewrite lint_object_hidden. exact IH.
Qed.
Lemma backend_missing_exact T F b tr src vars file dir ig ids :
  sget file vars = Some ids ->
  search_errors T F b tr src vars file dir Backend ig =
    Ok (Some (map (fun i => (TemplateNotFound, i))
                (filter (fun i => itype_eqb (id_type i) JinjaTemplate && not_found F dir (id_name i)) ids))).
Proof.
  intros Hf. unfold search_errors. rewrite Hf. do 2 f_equal. unfold lint_backend.
  clear Hf. induction ids as [|i ids IH]; [reflexivity|]. cbn [flat_map filter]. rewrite IH, template_missing_not_found.
  destruct (itype_eqb (id_type i) JinjaTemplate), (not_found F dir (id_name i)); reflexivity.
Qed.

(** ** Opening a template (C64) *)
Lemma add_variables_template T uri src tr (s : lsp_files T) d :
  sget uri (ls_tt s) = Some tr ->
  Forall (fun c => c_name c <> CErrorBlock) (concat (t_captures T QSnippets tr src)) ->
  definition_query (t_captures T QDefinitions tr src) (t_root_end T tr) pt0 src true = Ok d ->
  add_variables uri Template src s =
    Ok (set_actions (sinsert uri [] (ls_actions s)) (set_vars (sinsert uri (def_identifiers d) (ls_vars s)) s)).
Proof.
  intros Ht Hs Hd. unfold add_variables. cbn [trees_of]. rewrite Ht.
  assert (Hq : exists sn, snippets_query (t_captures T QSnippets tr src) pt0 true = Ok sn /\ sn_error sn = false).
  { unfold snippets_query. rewrite flat_captures_all. now apply snip_run_clean. }
  destruct Hq as (sn & -> & Hn). cbn [bind]. rewrite Hn, Hd. reflexivity.
Qed.
