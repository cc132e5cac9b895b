(** * PPlace2: more proofs about places, and about a server without an index
    (C93-C97). *)
From Verif Require Import Base RString Utf8 Rope Types Captures MDefinition MObjects MTemplates MSearchErrors MLspFiles MLspTask.
From Verif Require Import SpecText SpecFiles SpecScope SpecScope2 SpecObjects SpecLint SpecNav SpecOrder SpecConfig SpecPlace.
From Verif Require Import PText PFiles PScope PObjects PLint PLint2 PNav PNav2 PNav3 POrder POrder2 PConfig PPlace.

(** ** In front of an expression *)
Lemma ident_start_le src p cs : forall s0 s', Forall (fun c => pt_le (n_start (c_node c)) p) cs -> pt_le (fst (os_ident s0)) p ->
  runc src s0 cs = Some s' -> pt_le (fst (os_ident s')) p.
Proof.
  induction cs as [|c cs IH]; intros s0 s' HF H0 HR; cbn [runc] in HR.
  - now inversion HR; subst.
  - inversion HF as [|? ? Hc1 HF1]; subst. destruct (obj_check src s0 c) as [[s1 [a|]]|] eqn:Ec; try discriminate.
    apply (IH s1); auto. clear - Hc1 H0 Ec. unfold obj_check in Ec. destruct (c_name c) eqn:Ek; try (inversion Ec; subst; auto; fail).
    + unfold build_object, new_object in Ec.
      destruct (utf8_text (c_node c) src) as [[v|]|]; [| |discriminate]; cbn [bind] in Ec; [|inversion Ec; subst; auto].
      destruct (_ && _); [destruct (os_objects s0)|]; try destruct (str_mem v valid_identifiers);
        cbn in Ec; inversion Ec; subst; auto.
    + destruct (utf8_text (c_node c) src) as [[v|]|]; [| |discriminate]; cbn [bind] in Ec; inversion Ec; subst.
      destruct (starts_with v "|"); auto.
Qed.
Lemma complete_front b ms tp src ps p n rest :
  ends_before src ps p -> pt_lt p tp -> concat ms = cap_pieces ps ++ cap CExpr n :: rest -> before_all tp rest ->
  holds_point tp n ->
  exists s a, objects_query b ms tp src false = Ok s /\ obj_completion b s tp = Ok (Some (CtIdentifier, a)).
Proof.
  intros He Hp E Hc (W1 & W2). destruct (ends_before_run src ps p He) as (s & R & Eo & S1 & S2 & S3 & X & F1 & F2 & P0).
  set (s1 := mkobjs (os_objects s) (os_dot s) (os_pipe s) (os_test s) (expr_info n) (os_ident s)).
  assert (R1 : runc src jobjects0 (cap_pieces ps ++ [cap CExpr n]) = Some s1).
  { rewrite runc_app, R. reflexivity. }
  assert (E1 : concat ms = (cap_pieces ps ++ [cap CExpr n]) ++ rest) by (rewrite E, <- app_assoc; reflexivity).
  assert (F1' : Forall (fun c => pt_le (n_start (c_node c)) tp) (cap_pieces ps ++ [cap CExpr n])).
  { apply Forall_app. split; [eapply Forall_impl; [|exact F1]; intros c H; pts|]. constructor; [exact W1|constructor]. }
  destruct (query_gap b ms tp src _ _ s1 p E1 R1 F1') as (Q & Hi); auto.
  { apply Forall_app. split; [exact F2|]. constructor; [discriminate|constructor]. }
  assert (Hst : pt_lt (fst (os_ident s1)) tp).
  { pose proof (ident_start_le src p _ jobjects0 s F1 ltac:(cbn; pts) R) as G. cbn [s1 os_ident]. pts. }
  exists s1. unfold obj_completion.
  assert (Hpi : in_pipe s1 tp = false) by (unfold in_pipe; cbn [s1 os_pipe]; apply andb_false_iff; right; pts).
  assert (Hx : in_expr s1 tp = true).
  { unfold in_expr. cbn [s1 os_expr]. unfold expr_info. cbn [fst snd]. rewrite (pt_le_leb (n_start n) tp W1).
    replace (pt_ltb tp (n_end n)) with true by pts. cbn [s1] in Hst. cbn [s1]. now replace (pt_ltb (fst (os_ident s1)) tp) with true by pts. }
  rewrite Hpi, Hx. destruct (pt_eqb tp _ && pt_eqb tp _); [eauto|]. replace (pt_ltb (snd (os_ident s1)) tp) with true by pts. eauto.
Qed.

Section Goto.
Context {T : ts}.
Implicit Types st : lsp_files T.

(** ** Goto on nothing *)
Lemma goto_nothing F url b st uri pos tr t :
  let src := rope_content t in
  let tp := point_of pos in
  let here := filter (fun fv => heads "" (id_name (snd fv))) (other_vars uri (ls_vars st)) in
  holds st uri tr t ->
  no_use_at src (concat (t_captures T QObjects tr src)) tp ->
  no_ref_at tp (t_captures T QImports tr src) ->
  Forall (fun c => utf8_text (c_node c) src <> Panic) (concat (t_captures T QImports tr src)) ->
  Forall (fun fv => small_id (snd fv)) (other_vars uri (ls_vars st)) ->
  Forall (fun fv => url (target_name fv) <> None) here ->
  exists locs, goto_definition F url b uri pos st = Ok (Some (GArray locs)) /\ Forall2 (found url) here locs.
Proof.
  intros src tp here (H1 & H2 & H3) Hno Hnr Htx Hsm Hurl.
  destruct (no_ident b _ _ _ Hno) as (s & Q & Ei).
  destruct (goto_others_exact url "" uri (ls_vars st) Hsm) as (locs & El & F2).
  { apply Forall_forall. intros fv Hfv Hhd. rewrite Forall_forall in Hurl. apply Hurl. unfold here. apply filter_In. auto. }
  exists locs. split; [|exact F2].
  assert (Ht : pt_lt pt0 tp) by (destruct Hno as (ps & cs2 & p & _ & _ & Hp & _); pts).
  destruct (no_template_at src _ tp Ht Hnr Htx) as (imps & Eq & Hi).
  unfold goto_definition. rewrite H1. cbn [trees_of]. rewrite H2, H3. fold src. fold tp. rewrite Q. cbn [bind].
  rewrite Ei. cbn [goto_local]. rewrite Eq. cbn [bind]. destruct (in_template imps) as [im|]; [rewrite Hi|]; cbn [bind]; now rewrite El.
Qed.
Lemma no_objects_before b ms src tp : Forall (fun c => pt_lt tp (n_start (c_node c))) (concat ms) ->
  exists s, objects_query b ms tp src false = Ok s /\ os_objects s = [].
Proof.
  intros H. unfold objects_query, oloop0. destruct (concat ms) as [|c cs]; [cbn; eauto|].
  inversion H as [|? ? Hc _]; subst. cbn [run]. unfold obj_step. cbn [l_objs orb].
  rewrite (pt_lt_leb _ _ Hc), (pt_le_leb _ _ (pt_lt_le _ _ Hc)). cbn [is_filter jobjects0].
  change (is_filter jobjects0) with true. cbn. eauto.
Qed.
Lemma goto_start F url b st uri tr t n kw r rest p u :
  let src := rope_content t in
  holds st uri tr t ->
  Forall (fun c => pt_lt pt0 (n_start (c_node c))) (concat (t_captures T QObjects tr src)) ->
  t_captures T QImports tr src = flat_map cap_stmt (SExtends n kw r :: rest) ->
  n_start n = pt0 -> pt_lt pt0 (n_start kw) -> pt_lt pt0 (n_start (fst r)) ->
  Forall (fun c => pt_lt pt0 (n_start (c_node c))) (concat (flat_map cap_stmt rest)) ->
  f_canon F (path_push (cf_templates (ls_config st)) EmptyString) = CanonOk p -> url (file_uri p) = Some u ->
  goto_definition F url b uri (mkpos 0 0) st = Ok (Some (GScalar (mkloc u (lsp_range pt0 pt0)))).
Proof.
  intros src (H1 & H2 & H3) Ho Em Hn Hkw Hr Hrest Hp Hu.
  destruct (no_objects_before b _ src pt0 Ho) as (s & Q & Eo).
  assert (Et : exists imps im, templates_query (t_captures T QImports tr src) pt0 src false = Ok imps /\
            in_template imps = Some im /\ import_get im pt0 = Some id_default).
  { unfold templates_query. rewrite flat_captures_keep, Em. cbn [flat_map]. rewrite concat_app, filter_app, (keep_none pt0 _ Hrest), app_nil_r.
    cbn [cap_stmt concat app filter keep c_node cap].
    change (keep pt0 (cap CExtends n)) with (pt_leb (n_start n) pt0). change (keep pt0 (cap COther kw)) with (pt_leb (n_start kw) pt0).
    change (keep pt0 (cap CTemplateName (fst r))) with (pt_leb (n_start (fst r)) pt0).
    rewrite Hn, (pt_lt_leb _ _ Hkw), (pt_lt_leb _ _ Hr). change (pt_leb pt0 pt0) with true. cbn [run imp_check c_name cap c_node bind].
    do 2 eexists. split; [reflexivity|]. unfold in_template, open_import. cbn. rewrite N.eqb_refl. split; reflexivity. }
  destruct Et as (imps & im & Eq & Ein & Eg).
  unfold goto_definition. rewrite H1. cbn [trees_of]. rewrite H2, H3. fold src. change (point_of (mkpos 0 0)) with pt0. rewrite Q. cbn [bind].
  assert (is_ident s pt0 = None) as -> by (unfold is_ident; rewrite Eo; now destruct (_ && _)).
  cbn [goto_local]. rewrite Eq. cbn [bind]. rewrite Ein, Eg. unfold goto_template. cbn [id_default id_name].
  rewrite Hp, Hu. reflexivity.
Qed.

(** ** Which declaration describes an offered name *)
Lemma local_items_first vscode typed r vs : forall names i, In i (local_items vscode typed r names vs) ->
  exists vs1 v vs2, vs = vs1 ++ v :: vs2 /\ (forall w, In w vs1 -> id_name w <> id_name v) /\ local_item vscode typed r v = Some i.
Proof.
  induction vs as [|v vs IH]; intros names i Hi; cbn [local_items] in Hi; [destruct Hi|].
  assert (G : forall nm, In i (local_items vscode typed r nm vs) -> (forall w, In w vs -> id_name w = id_name v -> In (id_name w) nm) ->
    exists vs1 w vs2, v :: vs = vs1 ++ w :: vs2 /\ (forall x, In x vs1 -> id_name x <> id_name w) /\ local_item vscode typed r w = Some i).
  { intros nm Hin Hnm. destruct (local_items_spec vscode typed r vs nm) as (_ & B & _). cbv zeta in B.
    destruct (B i Hin) as (w0 & W1 & W2 & W3). destruct (IH nm i Hin) as (vs1 & w & vs2 & -> & Hd & Ew).
    exists (v :: vs1), w, vs2. split; [reflexivity|]. split; [|exact Ew]. intros x [<-|Hx]; [|auto]. intros Heq.
    destruct (local_item_some _ _ _ _ _ W3) as ((L & _) & _). destruct (local_item_some _ _ _ _ _ Ew) as ((L' & _) & _).
    cbn in L, L'. apply W2. assert (id_name w0 = id_name w) by congruence.
    rewrite H. apply Hnm; [apply in_or_app; right; now left|congruence]. }
  destruct (str_mem (id_name v) names) eqn:Em.
  - apply (G names); [exact Hi|]. intros w _ ->. now apply str_mem_In.
  - destruct (local_item vscode typed r v) as [j|] eqn:Ej.
    + destruct Hi as [<-|Hi].
      * exists [], v, vs. split; [reflexivity|]. split; [intros w []|exact Ej].
      * apply (G (id_name v :: names)); [exact Hi|]. intros w _ ->. now left.
    + apply (G (id_name v :: names)); [exact Hi|]. intros w _ ->. now left.
Qed.
Lemma filter_split {A} (f : A -> bool) l : forall l1 x l2, filter f l = l1 ++ x :: l2 ->
  exists m1 m2, l = m1 ++ x :: m2 /\ filter f m1 = l1 /\ f x = true.
Proof.
  induction l as [|y l IH]; intros l1 x l2 H; cbn [filter] in H; [now destruct l1|].
  destruct (f y) eqn:Ey.
  - destruct l1 as [|z l1]; cbn [app] in H; inversion H; subst.
    + exists [], l. auto.
    + destruct (IH _ _ _ H2) as (m1 & m2 & -> & F1 & F2). exists (z :: m1), m2. cbn [filter]. rewrite Ey, F1. auto.
  - destruct (IH _ _ _ H) as (m1 & m2 & -> & F1 & F2). exists (y :: m1), m2. cbn [filter]. rewrite Ey. auto.
Qed.
Lemma described_by_first st uri pos ds starting : knows st uri ds ->
  exists locals backs, read_variables uri pos starting None st = Some (locals ++ backs) /\
    Forall (fun i => exists d, first_offered (point_of pos) ds d /\ presents d i) locals /\
    Forall2 plain_for (filter is_backend (all_vars (ls_vars st))) backs.
Proof.
  intros Hk. destruct (knows_vars _ _ _ Hk) as (vs & E & ->). unfold read_variables. rewrite E.
  destruct (match starting with Some x => x | None => (EmptyString, range0) end) as (typed, r).
  do 2 eexists. split; [reflexivity|]. split; [|apply backend_items_spec].
  apply Forall_forall. intros i Hi. destruct (local_items_first _ _ _ _ _ _ Hi) as (vs1 & v & vs2 & Ef & Hd & Ei).
  destruct (filter_split _ _ _ _ _ Ef) as (m1 & m2 & -> & F1 & F2).
  exists (decl_of_id v). split; [|apply (local_item_some _ _ _ _ _ Ei)].
  exists (map decl_of_id m1), (map decl_of_id m2). split; [now rewrite map_app|].
  split; [now apply completion_visible_sees|]. intros e He Ho. apply in_map_iff in He. destruct He as (w & <- & Hw).
  cbn [decl_of_id dc_name]. apply Hd. rewrite <- F1. apply filter_In. split; [exact Hw|]. now apply completion_visible_sees.
Qed.

(** ** Completion does not depend on the order of the definitions *)
Lemma read_variables_reordered st m uri pos starting : reordered (ls_vars st) m ->
  match read_variables uri pos starting None st, read_variables uri pos starting None (set_vars m st) with
  | Some a, Some b => Permutation (map ci_label a) (map ci_label b)
  | None, None => True
  | _, _ => False
  end.
Proof.
  intros R. unfold read_variables. cbn [set_vars ls_vars ls_vscode]. pose proof (reordered_get _ _ uri R) as G.
  destruct (sget uri (ls_vars st)) as [vs|], (sget uri m) as [vs'|]; try easy.
  destruct (match starting with Some x => x | None => (EmptyString, range0) end) as (typed, r).
  rewrite !map_app. apply Permutation_app.
  - destruct (local_items_spec (ls_vscode st) typed r (filter (completion_visible (point_of pos)) vs) []) as (A & B & C).
    destruct (local_items_spec (ls_vscode st) typed r (filter (completion_visible (point_of pos)) vs') []) as (A' & B' & C').
    cbv zeta in *. pose proof (filter_perm (completion_visible (point_of pos)) _ _ G) as P.
    apply NoDup_Permutation; auto. intros x. split; intros Hx; apply in_map_iff in Hx; destruct Hx as (i & <- & Hi).
    + destruct (B i Hi) as (v & V1 & _ & V3). destruct (local_item_some _ _ _ _ _ V3) as ((L & _) & W & _). rewrite L.
      apply C'; auto. eapply Permutation_in; eauto.
    + destruct (B' i Hi) as (v & V1 & _ & V3). destruct (local_item_some _ _ _ _ _ V3) as ((L & _) & W & _). rewrite L.
      apply C; auto. eapply Permutation_in; [symmetry; exact P|exact V1].
  - unfold backend_items. clear - R. induction R as [|(f, v) (f', v') l l' (H1 & H2) _ IH]; [constructor|].
    cbn [flat_map fst snd] in *. rewrite !map_app. apply Permutation_app; [|exact IH].
    apply Permutation_map, Permutation_map. now apply filter_perm.
Qed.
Lemma do_completion_reordered b st m uri pos ctx : reordered (ls_vars st) m ->
  same_res offers_alike (do_completion b uri pos ctx st) (do_completion b uri pos ctx (set_vars m st)).
Proof.
  intros R. unfold do_completion. change (completion b uri pos ctx (set_vars m st)) with (completion b uri pos ctx st).
  assert (Rf : forall x, offers_alike x x) by (intros [l|]; cbn; auto).
  destruct (completion b uri pos ctx st) as [[(ct, a)|]|]; [|apply Rf|exact I]. cbn [bind same_res].
  assert (G : forall starting, offers_alike
     (match read_variables uri pos starting None st with Some l => Some (map RItem l) | None => None end)
     (match read_variables uri pos starting None (set_vars m st) with Some l => Some (map RItem l) | None => None end)).
  { intros starting. pose proof (read_variables_reordered st m uri pos starting R) as P.
    destruct (read_variables uri pos starting None st), (read_variables uri pos starting None (set_vars m st)); try easy.
    cbn [offers_alike]. rewrite !map_map. exact P. }
  destruct ct; try apply Rf; apply G.
Qed.
End Goto.

(** ** A server without an index *)
Lemma open_without_index {T : ts} F url b rid client cfg (s1 s2 : task_state T) e1 e2 uri t tr tp ps sts :
  parse_total T ->
  step F url b (task0 T) (MInitialize rid client (Some (Some cfg))) = Ok (s1, e1) ->
  step F url b s1 MInitialized = Ok (s2, e2) ->
  ~ (cf_lang cfg = "rust" \/ cf_lang cfg = "python")%string \/ entry F (set_user cfg) WErr ->
  file_ext uri = Some Template -> scalars t -> t_parse T PJinja (encode t) None = Some tr ->
  parsed T tr (encode t) tp ps sts -> plain_ends tp ->
  exists s3 e, step F url b s2 (MDidOpen uri t) = Ok (s3, [EDiag [(uri, e ++ missing_reports F "" sts)]]) /\
    tk_config s3 = set_user cfg /\ (forall f vs, In (f, vs) (ls_vars (tk_data s3)) -> f = uri) /\
    reported (tallied (t_root_end T tr) tp) (SpecLint.indexed (ls_vars (tk_data s3))) (chains ps) e.
Proof.
  intros Hpt S1 S2 Hbad He Hsc Hp Hpd Hs. cbn [step] in S1. inversion S1; subst s1 e1. clear S1.
  set (d := match client with Some n => if String.eqb n "Visual Studio Code" then set_vscode true (ls_default T) else ls_default T | None => ls_default T end) in *.
  change (tk_data (task0 T)) with (ls_default T) in S2. fold d in S2.
  assert (E2 : s2 = mktask (set_user cfg) d 0).
  { destruct (do_initialized_cases F b _ s2 e2 Hpt S2) as [(A & B & _)|(_ & C & _)]; [|exact C]. cbn [tk_config init_config] in *.
    destruct Hbad as [Hb|Hb]; contradiction. }
  subst s2. assert (Hd : ls_ignore d = false /\ ls_config d = config0 /\ ls_tt d = [] /\ ls_vars d = []).
  { unfold d. destruct client as [n|]; [destruct (String.eqb n _)|]; repeat split. }
  destruct Hd as (D1 & D2 & D3 & D4).
  destruct (open_any T F b uri t tr tp ps sts d He Hsc D1) as (s' & e & O & R & V & D); auto; [now rewrite D3|].
  cbn [step tk_data]. rewrite O. cbn [bind fst snd]. rewrite D2. do 2 eexists. split; [reflexivity|]. split; [reflexivity|].
  split; [|exact R]. cbn [with_data tk_data].
  intros f vs Hin. destruct (string_dec f uri) as [Ef|Ef]; [exact Ef|]. apply (V f vs Ef) in Hin. rewrite D4 in Hin. destruct Hin.
Qed.
