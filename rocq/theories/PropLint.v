(** * PropLint: properties C22-C30, C63-C65 (diagnostics). *)
From Verif Require Import Base RString Utf8 Rope Types Captures.
From Verif Require Import MDefinition MObjects MTemplates MSearchErrors MLspFiles MLspTask MChannels.
From Verif Require Import SpecText SpecFiles SpecScope SpecScope2 SpecObjects SpecLint SpecOrder.
From Verif Require Import PText PObjects PLint PLint2 PLint3 POrder PropObjects.

(** ** A parser and a server for the examples *)
Definition ts_all (defs objs : list capture) (imps : list (list capture)) (snips : list capture)
  (root_end : point) : ts :=
  mkts unit (fun _ _ _ => Some tt) (fun t _ => t)
    (fun q _ _ => match q with
                  | QDefinitions => [defs] | QObjects => [objs] | QImports => imps
                  | QSnippets => [snips] | _ => []
                  end) (fun _ => root_end).
(** A file system in which exactly the given paths exist. *)
Definition fs_with (paths : list string) : fs :=
  mkfs (fun p => if str_mem p paths then CanonOk p else CanonNotFound) (fun _ => None) (fun _ => []) (fun _ => None).
Definition cfg_dir (dir : string) : config := mkcfg dir [] "rust" true None.
Definition a_html : string := "file:///a.html".
Definition b_html : string := "file:///b.html".
Definition server (T : ts) (dir : string) (vars : smap (list identifier)) : lsp_files T :=
  mkls [] [] [] PRust PRust (cfg_dir dir) None true vars [] false false.
Definition var (name : string) (a z : N) : identifier :=
  mkid (mkpt 0 a) (mkpt 0 z) name (0, mkpt 9 0) SetVariable [].

Definition c64_src : string := "{% extends ""b.html"" %}{% for i in l %}{{ i.a }}{{ j }}{% endfor %}{{ i }}".
Definition c64_tpl : tpl :=
  TOther [] (nd 0 2) (nd 20 22)
    (TBlock (HFor (nd 25 28) (tk 29 30 "i") [] [NId (tk 34 35 "l")]) (nd 22 24) (nd 36 38)
      (TExpr [NId (tk 41 42 "i"); NId (tk 43 44 "a")] (TExpr [NId (tk 50 51 "j")] TNil))
      (mkend (nd 57 63) [] (nd 54 56) (nd 64 66))
      (TExpr [NId (tk 69 70 "i")] TNil)).
Definition c64_ps : list piece :=
  [PChain (tk 29 30 "i") []; PChain (tk 34 35 "l") []; PExpr (ex 38 47);
   PChain (tk 41 42 "i") [mkacc (nd 42 43) false (tk 43 44 "a")]; PExpr (ex 47 54);
   PChain (tk 50 51 "j") []; PExpr (ex 66 73); PChain (tk 69 70 "i") []].
Definition c64_sts : list istmt := [SExtends (nd 0 22) (nd 3 10) (nd 11 19, "b.html"%string)].
Definition c64_ts : ts :=
  ts_all (captures_of c64_tpl) (cap_pieces c64_ps) (flat_map cap_stmt c64_sts)
    [cap CStart (nd 0 2); cap CKeyword (nd 3 10); cap CEnd (nd 20 22)] (mkpt 0 73).
Ltac quoted_ref :=
  split; [split; cbn; intuition discriminate|exists dquote; split; [now left|vm_compute; reflexivity]].
Lemma c64_parsed : parsed c64_ts tt c64_src c64_tpl c64_ps c64_sts.
Proof.
  constructor.
  - cbn. repeat split; try discriminate; repeat constructor; try discriminate.
  - unfold distinct_nodes; cbn; repeat constructor; cbn; intuition discriminate.
  - reflexivity.
  - pieces_okay.
  - apply app_nil_r.
  - split; [constructor; [quoted_ref|constructor]|]. cbn. repeat constructor. intros [].
  - reflexivity.
  - cbn. repeat constructor; discriminate.
Qed.

(** ** C22: which uses are reported, and how *)
Theorem C22_diagnostics_exact :
  forall T F b tr src vars file dir this ps tail,
    pieces_ok src ps -> concat (t_captures T QObjects tr src) = cap_pieces ps ++ tail -> stops tail ->
    Forall (fun c => utf8_text (c_node c) src <> Panic) (concat (t_captures T QImports tr src)) ->
    sget file vars = Some this ->
    exists e1 e2, search_errors T F b tr src vars file dir Template false = Ok (Some (e1 ++ e2)) /\
      reported (map decl_of_id this) (indexed vars) (chains ps) e1 /\
      Forall (fun d => fst d = TemplateNotFound) e2.
Proof. exact diagnostics_exact. Qed.
Print Assumptions C22_diagnostics_exact.
(** The verdict is a function of the declarations and the indexed names. *)
Theorem C22_reports_unique :
  forall this anywhere us es es', reported this anywhere us es -> reported this anywhere us es' -> es = es'.
Proof. exact reported_unique. Qed.
Print Assumptions C22_reports_unique.
Definition c22_vars : smap (list identifier) :=
  [(a_html, [mkid (mkpt 0 29) (mkpt 0 30) "i" (26, mkpt 0 54) ForLoopKey []]); (b_html, [var "l" 3 4])].
Example C22_example :
  pieces_ok c64_src c64_ps /\
  search_errors c64_ts (fs_with []) Debug tt c64_src c22_vars a_html "templates" Template false =
    Ok (Some [(DefinedSomewhere, use_id (tk 34 35 "l", [])); (Undefined, use_id (tk 50 51 "j", []));
              (Undefined, use_id (tk 69 70 "i", [])); (TemplateNotFound, ref_id (nd 11 19, "b.html"%string))]).
Proof. split; [pieces_okay|]. vm_compute. reflexivity. Qed.

(** ** C23: hide_undefined *)
Theorem C23_hide_undefined :
  forall T F b tr src vars file dir lang,
    search_errors T F b tr src vars file dir lang true =
    match search_errors T F b tr src vars file dir lang false with
    | Ok (Some e) => Ok (Some (filter (fun d => match fst d with TemplateNotFound => true | _ => false end) e))
    | r => r
    end.
Proof. exact hide_exact. Qed.
Print Assumptions C23_hide_undefined.
Example C23_example :
  search_errors c64_ts (fs_with []) Debug tt c64_src c22_vars a_html "templates" Template true =
    Ok (Some [(TemplateNotFound, ref_id (nd 11 19, "b.html"%string))]).
Proof. vm_compute. reflexivity. Qed.

(** ** C24: missing templates *)
Theorem C24_missing_templates :
  forall T F b tr src vars file dir ig this ps sts,
    pieces_ok src ps -> concat (t_captures T QObjects tr src) = cap_pieces ps ->
    stmts_ok src sts -> t_captures T QImports tr src = flat_map cap_stmt sts ->
    sget file vars = Some this ->
    exists e1, search_errors T F b tr src vars file dir Template ig =
        Ok (Some (e1 ++ map (fun r => (TemplateNotFound, ref_id r))
                          (filter (fun r => missing F dir (snd r)) (flat_map refs sts)))) /\
      Forall (fun d => fst d <> TemplateNotFound) e1.
Proof.
  intros T F b tr src vars file dir ig this ps sts H1 H2 H3 H4 H5.
  destruct (missing_exact T F b tr src vars file dir ig this ps sts H1 H2 H3 H4 H5) as (e1 & E & K & _). eauto.
Qed.
Print Assumptions C24_missing_templates.
Theorem C24_missing_templates_backend :
  forall T F b tr src vars file dir ig ids,
    sget file vars = Some ids ->
    search_errors T F b tr src vars file dir Backend ig =
      Ok (Some (map (fun i => (TemplateNotFound, i))
                  (filter (fun i => itype_eqb (id_type i) JinjaTemplate && not_found F dir (id_name i)) ids))).
Proof. exact backend_missing_exact. Qed.
Print Assumptions C24_missing_templates_backend.
(** An include of three templates and an import: one exists, one is empty. *)
Definition c24_src : string := "{% include ""a"" %}{% include """" %}{% from ""x/y"" import z %}".
Definition c24_sts : list istmt :=
  [SInclude (nd 0 17) (nd 3 10) [(nd 11 14, "a"%string)]; SInclude (nd 17 33) (nd 20 27) [(nd 28 30, EmptyString)];
   SFrom (nd 33 59) (nd 36 40) (nd 41 46, "x/y"%string) (nd 47 53) [Some (tk 54 55 "z")]].
Definition c24_ts : ts := ts_all [] (cap_pieces [PChain (tk 54 55 "z") []]) (flat_map cap_stmt c24_sts) [] (mkpt 0 59).
Example C24_example :
  stmts_ok c24_src c24_sts /\ pieces_ok c24_src [PChain (tk 54 55 "z") []] /\
  search_errors c24_ts (fs_with ["t/a"%string]) Debug tt c24_src [(a_html, [])] a_html "t" Template false =
    Ok (Some [(Undefined, use_id (tk 54 55 "z", [])); (TemplateNotFound, ref_id (nd 28 30, EmptyString));
              (TemplateNotFound, ref_id (nd 41 46, "x/y"%string))]) /\
  search_errors c24_ts (fs_with ["t/a"; "t/x/y"]%string) Debug tt c24_src
    [(a_html, [var "v" 0 1; mkid pt0 (mkpt 0 1) "q" (0, pt0) JinjaTemplate []])] a_html "t" Backend false =
    Ok (Some [(TemplateNotFound, mkid pt0 (mkpt 0 1) "q" (0, pt0) JinjaTemplate [])]).
Proof.
  split; [|split; [pieces_okay|split; vm_compute; reflexivity]]. split.
  - constructor; [split; [discriminate|constructor; [quoted_ref|constructor]]|].
    constructor; [split; [discriminate|constructor; [quoted_ref|constructor]]|].
    constructor; [|constructor]. split; [quoted_ref|]. split; [discriminate|]. constructor; [rd|constructor].
  - cbn. repeat constructor; cbn; intuition discriminate.
Qed.

(** ** C25: only paths that begin with the template directory are looked up *)
Theorem C25_lookups_begin_with_directory :
  forall T F F' b tr src vars file dir lang ig,
    (forall p, starts_with p dir = true -> f_canon F p = f_canon F' p) ->
    search_errors T F b tr src vars file dir lang ig = search_errors T F' b tr src vars file dir lang ig.
Proof. exact lint_paths. Qed.
Print Assumptions C25_lookups_begin_with_directory.
(** An absolute name is looked up below the directory. *)
Example C25_example :
  lookup_path "t" "/etc/hosts" = "t/etc/hosts"%string /\
  (forall p, starts_with p "t" = true ->
     f_canon (fs_with ["/etc/hosts"; "t/a"]%string) p = f_canon (fs_with ["t/a"]%string) p).
Proof.
  split; [reflexivity|]. intros p Hp. cbn [fs_with f_canon]. unfold str_mem. cbn [existsb].
  destruct (String.eqb p "/etc/hosts") eqn:E; [|reflexivity]. apply String.eqb_eq in E. subst p. discriminate Hp.
Qed.

(** ** C63: [..] leaves the template directory *)
Theorem C63_dotdot_refuted :
  exists T tr src vars file dir ps sts F F',
    parsed T tr src TNil ps sts /\ sget file vars = Some [] /\
    (forall p, below dir p -> f_canon F p = f_canon F' p) /\
    search_errors T F Debug tr src vars file dir Template false <>
    search_errors T F' Debug tr src vars file dir Template false.
Proof.
  exists (ts_all [] [] (cap_stmt (SExtends (nd 0 22) (nd 3 10) (nd 11 20, "../s.j2"%string))) [] (mkpt 0 23)), tt,
    "{% extends ""../s.j2"" %}"%string, [(a_html, [])], a_html, "t"%string, [],
    [SExtends (nd 0 22) (nd 3 10) (nd 11 20, "../s.j2"%string)], (fs_with ["t/../s.j2"%string]), (fs_with []).
  split; [|split; [reflexivity|split]].
  - constructor; try reflexivity; try exact I.
    + unfold distinct_nodes; cbn; repeat constructor; cbn; intuition discriminate.
    + split; [constructor|]. exists (mkpt 0 1). split; [right; cbn; lia|exact I].
    + split; [constructor; [quoted_ref|constructor]|]. cbn. repeat constructor. intros [].
    + constructor.
  - intros p (rel & Ha & Hs & ->). cbn [fs_with f_canon]. unfold str_mem. cbn [existsb].
    destruct (String.eqb (join "t" rel) "t/../s.j2") eqn:E; [|reflexivity].
    apply String.eqb_eq in E. cbn in E. inversion E; subst rel. discriminate Hs.
  - vm_compute. discriminate.
Qed.
Print Assumptions C63_dotdot_refuted.
Theorem C63_without_dotdot_below :
  forall T F F' b tr src vars file dir ig this ps sts,
    (forall p, below dir p -> f_canon F p = f_canon F' p) ->
    pieces_ok src ps -> concat (t_captures T QObjects tr src) = cap_pieces ps ->
    stmts_ok src sts -> t_captures T QImports tr src = flat_map cap_stmt sts ->
    Forall (fun r : sref => no_dotdot (snd r)) (flat_map refs sts) ->
    sget file vars = Some this ->
    search_errors T F b tr src vars file dir Template ig = search_errors T F' b tr src vars file dir Template ig.
Proof. exact lint_below. Qed.
Print Assumptions C63_without_dotdot_below.
Example C63_example : Forall (fun r : sref => no_dotdot (snd r)) (flat_map refs c24_sts) /\
  below "t" "t/x/y" /\ ~ below "t" "t/../s.j2".
Proof.
  split; [repeat constructor; cbn; unfold no_dotdot; cbn; intuition discriminate|]. split.
  - exists "x/y"%string. repeat split.
  - intros (rel & _ & Hs & E). cbn in E. inversion E; subst rel. discriminate Hs.
Qed.

(** ** C26: goto on a template reference and linting *)
(** A name without empty segments: linting reports it missing exactly when
    resolution fails with "not found", and goto opens what resolution gives. *)
Theorem C26_goto_agrees_partial :
  forall T F url name (s : lsp_files T),
    ~ In EmptyString (split_char slash name) ->
    (template_missing F (cf_templates (ls_config s)) name = true -> goto_template F url name s = None) /\
    (forall p u, f_canon F (lookup_path (cf_templates (ls_config s)) name) = CanonOk p -> url (file_uri p) = Some u ->
       goto_template F url name s = Some (GScalar (mkloc u range0)) /\
       template_missing F (cf_templates (ls_config s)) name = false).
Proof.
  intros T F url name s H. unfold goto_template. rewrite (goto_lint_path _ _ H). split.
  - rewrite template_missing_not_found. unfold not_found. destruct (f_canon F _); congruence.
  - intros p u Hp Hu. rewrite Hp, Hu. split; [reflexivity|].
    rewrite template_missing_not_found. unfold not_found. now rewrite Hp.
Qed.
Print Assumptions C26_goto_agrees_partial.
Example C26_example :
  ~ In EmptyString (split_char slash "x/y") /\ lookup_path "t" "x/y" = "t/x/y"%string /\
  goto_template (fs_with ["t/x/y"%string]) Some "x/y" (server c64_ts "t" []) =
    Some (GScalar (mkloc "file://t/x/y" range0)).
Proof. split; [cbn; intuition discriminate|]. split; reflexivity. Qed.
(** An absolute name: reported missing, yet goto opens a file outside. *)
Definition c26_src : string := "{% extends ""/etc/hosts"" %}".
Definition c26_ts : ts :=
  ts_all [] [] (cap_stmt (SExtends (nd 0 26) (nd 3 10) (nd 11 23, "/etc/hosts"%string))) [] (mkpt 0 26).
Definition c26_state : lsp_files c26_ts :=
  mkls [(a_html, tt : tree c26_ts)] [] [(a_html, ascii_text c26_src)] PRust PRust (cfg_dir "t") None true [(a_html, [])] [] false false.
Theorem C26_absolute_name_refuted :
  exists (F : fs) (r : sref) u,
    sref_ok c26_src r /\
    read_tree F Debug a_html c26_state = Ok (Some [(TemplateNotFound, ref_id r)]) /\
    goto_definition F Some Debug a_html (mkpos 0 15) c26_state = Ok (Some (GScalar (mkloc u range0))) /\
    u = "file:///etc/hosts"%string.
Proof.
  exists (fs_with ["/etc/hosts"%string]), (nd 11 23, "/etc/hosts"%string), "file:///etc/hosts"%string.
  split; [quoted_ref|]. split; [vm_compute; reflexivity|]. split; [vm_compute; reflexivity|reflexivity].
Qed.
Print Assumptions C26_absolute_name_refuted.

(** ** C27: hash-map order *)
Theorem C27_order_irrelevant :
  forall T F url b (s s' : task_state T) m m',
    same_task s s' -> same_msg m m' ->
    same_res (fun x y => same_task (fst x) (fst y) /\ Forall2 same_effect (snd x) (snd y))
      (step F url b s m) (step F url b s' m').
Proof. intros T F url b s s' m m'. exact (step_same F url b s s' m m'). Qed.
Print Assumptions C27_order_irrelevant.
Theorem C27_diagnostics_order :
  forall T F b (s s' : lsp_files T),
    same_state s s' ->
    (forall uri, read_tree F b uri s = read_tree F b uri s') /\
    same_res same_map (read_trees F b s) (read_trees F b s').
Proof. intros T F b s s' S. split; [intros uri; now apply read_tree_same|now apply read_trees_same]. Qed.
Print Assumptions C27_diagnostics_order.
(** The statements of one template are themselves kept in a hash map. *)
Theorem C27_statement_order :
  forall F dir (m m' : list (N * import)),
    Permutation m m' ->
    Permutation (lint_templates F dir (flat_map (fun kv => import_collect (snd kv)) m))
                (lint_templates F dir (flat_map (fun kv => import_collect (snd kv)) m')).
Proof. intros F dir m m' P. unfold lint_templates. now repeat apply Permutation_flat_map. Qed.
Print Assumptions C27_statement_order.
Definition c27_state (vars : smap (list identifier)) : task_state c64_ts :=
  mktask (cfg_dir "t")
    (mkls [(a_html, tt : tree c64_ts)] [] [(a_html, ascii_text c64_src)] PRust PRust (cfg_dir "t") None true vars [] false false) 0.
Example C27_example :
  same_task (c27_state c22_vars) (c27_state (rev c22_vars)) /\ c22_vars <> rev c22_vars /\
  step (fs_with []) Some Debug (c27_state c22_vars) (MHover 7 a_html (mkpos 0 34)) =
    Ok (c27_state c22_vars, [EReply 7 (RHover (DocKind (completion_detail BackendVariable)))]).
Proof.
  split; [|split; [discriminate|vm_compute; reflexivity]].
  split; [reflexivity|]. split; [|reflexivity]. constructor; try reflexivity; cbn.
  - apply same_map_single.
  - apply same_map_refl. constructor.
  - apply same_map_single.
  - split; [cbn; repeat constructor; cbn; intuition discriminate|]. apply Permutation_rev.
  - apply same_map_refl. constructor.
Qed.

(** ** C28: what is published for a computed error *)
Definition published_for (e : jdiag * identifier) (d : diagnostic) : Prop :=
  dg_range d = mkrange (mkpos (row (id_start (snd e))) (col (id_start (snd e))))
                       (mkpos (row (id_end (snd e))) (col (id_end (snd e)))) /\
  (dg_severity d = SevInformation <-> fst e = DefinedSomewhere) /\
  (dg_severity d = SevWarning <-> fst e <> DefinedSomewhere) /\
  dg_message d = match fst e with
                 | Undefined => "Undefined variable"
                 | DefinedSomewhere => "Variable is defined in other file."
                 | TemplateNotFound => "Template not found"
                 end%string.
Theorem C28_published_faithful :
  forall T url b (y : sys T) uri u e rest acts,
    Forall (fun x => small (id_start (snd x)) /\ small (id_end (snd x))) e ->
    y_diag y = DPublish ((uri, e) :: rest) acts -> url uri = Some u ->
    exists y' ds, act url b y ADiagPublish = Some y' /\
      y_published y' = y_published y ++ [(u, ds)] /\ Forall2 published_for e ds.
Proof.
  intros T url b y uri u e rest acts Hs Hd Hu. cbn [act]. rewrite Hd, Hu.
  eexists; exists (publish_of e). split; [reflexivity|]. split; [reflexivity|].
  clear Hd. unfold publish_of. induction Hs as [|(d, i) e (H1 & H2) _ IH]; constructor; [|exact IH].
  unfold published_for, create_diagnostic. cbn [fst snd dg_range dg_severity dg_message] in *. split.
  - unfold to_range, to_position2, as_u32. cbn [fst snd]. destruct H1, H2. now rewrite !N.mod_small by assumption.
  - destruct d; cbn; repeat split; congruence.
Qed.
Print Assumptions C28_published_faithful.
Example C28_example :
  let e := [(DefinedSomewhere, var "l" 3 4); (TemplateNotFound, var "q" 5 9)] in
  Forall (fun x => small (id_start (snd x)) /\ small (id_end (snd x))) e /\
  exists y', act Some Debug (mksys (TIdle (task0 c64_ts)) [] [] (DPublish [(a_html, e)] []) [] [] [] [] []) ADiagPublish = Some y' /\
    y_published y' = [(a_html, [mkdiag (mkrange (mkpos 0 3) (mkpos 0 4)) SevInformation "Variable is defined in other file.";
                                mkdiag (mkrange (mkpos 0 5) (mkpos 0 9)) SevWarning "Template not found"])].
Proof.
  split; [repeat constructor|]. eexists. split; vm_compute; reflexivity.
Qed.

(** ** C29: a syntax error anywhere makes every use undefined *)
Definition c29_src : string := "{% set x = 1 %}{{ x }}{% for %}".
Definition c29_tpl : tpl :=
  TSet (nd 3 6) (tk 7 8 "x") [NEq (nd 9 10)] (nd 0 2) (nd 13 15) (TExpr [NId (tk 18 19 "x")] TNil).
Definition c29_ps : list piece := [PChain (tk 7 8 "x") []; POp (tk 9 10 "="); PExpr (ex 15 22); PChain (tk 18 19 "x") []].
Definition c29_tail : list capture := [cap CError (nd 22 31)].
Definition c29_ts : ts :=
  ts_all (captures_of c29_tpl ++ c29_tail) (cap_pieces c29_ps ++ c29_tail) [c29_tail]
    [cap CStart (nd 0 2); cap CKeyword (nd 3 6); cap CEnd (nd 13 15); cap CErrorBlock (nd 22 31)] (mkpt 0 31).
(** The variables were found when the file was opened, before the error. *)
Definition c29_state : lsp_files c29_ts :=
  mkls [(a_html, tt : tree c29_ts)] [] [(a_html, ascii_text c29_src)] PRust PRust (cfg_dir "t") None true
    [(a_html, [mkid (mkpt 0 7) (mkpt 0 8) "x" (0, mkpt 0 22) SetVariable []])] [] false false.
Theorem C29_error_hides_definitions_refuted :
  exists T tr t tp rest ps tail d u F (s s' : lsp_files T) es,
    tpl_ok (encode t) tp /\ straight tp /\ plain_headers tp /\ distinct_nodes tp /\
    concat (t_captures T QDefinitions tr (encode t)) = captures_of tp ++ rest /\ stops rest /\
    pieces_ok (encode t) ps /\ concat (t_captures T QObjects tr (encode t)) = cap_pieces ps ++ tail /\ stops tail /\
    (* the use sees a definition in front of the error *)
    In d (introduced (t_root_end T tr) tp) /\ In u (chains ps) /\
    means (snd (fst u)) d /\ seen_from (n_start (fst (fst u))) (n_end (fst (fst u))) d /\
    (* and is reported all the same *)
    sget a_html (ls_docs s) = Some t /\ sget a_html (ls_tt s) = Some tr /\
    did_save F Debug a_html s = Ok (s', Some [(a_html, es)]) /\ In (Undefined, use_id u) es.
Proof.
  exists c29_ts, tt, (ascii_text c29_src), c29_tpl, c29_tail, c29_ps, c29_tail,
    (mkdecl "x"%string SetVariable (mkpt 0 7) (mkpt 0 8) (mkpt 0 31)), (tk 18 19 "x", []), (fs_with []), c29_state.
  eexists; eexists.
  split; [cbn; repeat split; try discriminate; repeat constructor; discriminate|].
  split; [cbn; repeat constructor|]. split; [exact I|].
  split; [unfold distinct_nodes; cbn; repeat constructor; cbn; intuition discriminate|].
  split; [apply app_nil_r|]. split; [right; do 2 eexists; split; reflexivity|].
  split; [change (encode (ascii_text c29_src)) with c29_src; pieces_okay|].
  split; [apply app_nil_r|]. split; [right; do 2 eexists; split; reflexivity|].
  split; [now left|]. split; [cbn; auto|]. split; [split; [reflexivity|discriminate]|].
  split; [split; [unfold pt_le; cbn; lia|right; unfold pt_lt; cbn; lia]|].
  split; [reflexivity|]. split; [reflexivity|]. split; [vm_compute; reflexivity|]. cbn. auto.
Qed.
Print Assumptions C29_error_hides_definitions_refuted.
(** In general: saving (also the refresh after an edit) with an error present
    empties the file's definitions and reports every chain. *)
Theorem C29_error_reports_everything :
  forall T F b uri t tr ps tail (s : lsp_files T),
    file_ext uri = Some Template -> scalars t -> ls_ignore s = false ->
    sget uri (ls_docs s) = Some t -> sget uri (ls_tt s) = Some tr -> is_some (sget uri (ls_vars s)) = true ->
    Exists (fun c => c_name c = CErrorBlock) (concat (t_captures T QSnippets tr (encode t))) ->
    pieces_ok (encode t) ps -> concat (t_captures T QObjects tr (encode t)) = cap_pieces ps ++ tail -> stops tail ->
    Forall (fun c => utf8_text (c_node c) (encode t) <> Panic) (concat (t_captures T QImports tr (encode t))) ->
    exists s' e1 e2, did_save F b uri s = Ok (s', Some [(uri, e1 ++ e2)]) /\
      sget uri (ls_vars s') = Some [] /\ map snd e1 = map use_id (chains ps) /\
      Forall (fun d => fst d = TemplateNotFound) e2.
Proof. exact save_with_error. Qed.
Print Assumptions C29_error_reports_everything.
Example C29_example :
  file_ext a_html = Some Template /\ scalars (ascii_text c29_src) /\ encode (ascii_text c29_src) = c29_src /\
  Exists (fun c => c_name c = CErrorBlock) (concat (t_captures c29_ts QSnippets tt c29_src)) /\
  pieces_ok c29_src c29_ps /\ stops c29_tail /\
  map snd (match did_save (fs_with []) Debug a_html c29_state with Ok (_, Some [(_, e)]) => e | _ => [] end) =
    map use_id (chains c29_ps).
Proof.
  split; [reflexivity|]. split; [repeat constructor|]. split; [reflexivity|].
  split; [cbn; repeat (try (apply Exists_cons_hd; reflexivity); apply Exists_cons_tl)|].
  split; [pieces_okay|]. split; [right; do 2 eexists; split; reflexivity|]. vm_compute. reflexivity.
Qed.

(** ** C30: names bound by an import are unknown *)
Definition c30_src : string := "{% import ""m"" as y %}{{ y }}".
Definition c30_tpl : tpl :=
  TOther [NId (tk 14 16 "as"); NId (tk 17 18 "y")] (nd 0 2) (nd 19 21) (TExpr [NId (tk 24 25 "y")] TNil).
Definition c30_ps : list piece := [PBuiltin (tk 14 16 "as"); PChain (tk 17 18 "y") []; PExpr (ex 21 28); PChain (tk 24 25 "y") []].
Definition c30_sts : list istmt :=
  [SImport (nd 0 21) (nd 3 9) (nd 10 13, "m"%string) [(Some (nd 14 16), Some (tk 17 18 "y")); (None, Some (tk 14 16 "as"))]].
Definition c30_ts : ts :=
  ts_all (captures_of c30_tpl) (cap_pieces c30_ps) (flat_map cap_stmt c30_sts) [cap CKeyword (nd 3 9)] (mkpt 0 28).
Theorem C30_import_alias_refuted :
  exists T tr src tp ps n kw t k alias u F vars ids es,
    parsed T tr src tp ps [SImport n kw t [(Some k, Some alias); (None, Some (k, "as"%string))]] /\
    In u (chains ps) /\ snd (fst u) = snd alias /\ pt_lt (n_end (fst alias)) (n_start (fst (fst u))) /\
    (exists d, definition_query (t_captures T QDefinitions tr src) (t_root_end T tr) pt0 src true = Ok d /\ def_identifiers d = ids) /\
    sget a_html vars = Some ids /\
    search_errors T F Debug tr src vars a_html "t" Template false = Ok (Some es) /\ In (Undefined, use_id u) es.
Proof.
  exists c30_ts, tt, c30_src, c30_tpl, c30_ps, (nd 0 21), (nd 3 9), (nd 10 13, "m"%string), (nd 14 16), (tk 17 18 "y"),
    (tk 24 25 "y", []), (fs_with ["t/m"%string]), [(a_html, [])], [].
  eexists. split.
  { constructor; try reflexivity.
    - cbn. repeat split; try discriminate; repeat constructor; try discriminate.
    - unfold distinct_nodes; cbn; repeat constructor; cbn; intuition discriminate.
    - split; [|exists (mkpt 0 1); split; [right; cbn; lia|]; vm_compute; intuition discriminate].
      repeat (apply Forall_cons; [first [split; [rd|unfold built_in; cbn [In snd tk]; tauto] | piece_okay]|]). apply Forall_nil.
    - split; [constructor; [|constructor]|cbn; repeat constructor; intros []].
      split; [quoted_ref|]. split; [discriminate|]. constructor; [rd|constructor; [rd|constructor]].
    - cbn. repeat constructor; discriminate. }
  split; [cbn; auto|]. split; [reflexivity|]. split; [right; cbn; split; [reflexivity|lia]|].
  split; [eexists; split; vm_compute; reflexivity|]. split; [reflexivity|]. split; [vm_compute; reflexivity|]. cbn. auto.
Qed.
Print Assumptions C30_import_alias_refuted.
(** In general: without one of the keywords for, set, with, macro, block a
    template defines nothing, whatever it imports. *)
Theorem C30_imports_define_nothing :
  forall src ms root_end tp all,
    Forall (fun c => c_name c <> CDefinition) (concat ms) ->
    exists d, definition_query ms root_end tp src all = Ok d /\ def_identifiers d = [].
Proof. exact imports_define_nothing. Qed.
Print Assumptions C30_imports_define_nothing.
Example C30_example : Forall (fun c => c_name c <> CDefinition) (captures_of c30_tpl).
Proof. cbn. repeat constructor; discriminate. Qed.

(** ** C64: from opening or saving a template to its diagnostics *)
Theorem C64_open_end_to_end :
  forall T F b uri t tr tp ps sts (s : lsp_files T),
    file_ext uri = Some Template -> scalars t -> ls_ignore s = false ->
    t_parse T PJinja (encode t) (sget uri (ls_tt s)) = Some tr ->
    parsed T tr (encode t) tp ps sts -> straight tp -> plain_headers tp ->
    exists s' e1,
      did_open F b uri t false s =
        Ok (s', Some [(uri, e1 ++ missing_reports F (cf_templates (ls_config s)) sts)]) /\
      reported (introduced (t_root_end T tr) tp) (indexed (ls_vars s')) (chains ps) e1 /\
      (forall f vs, f <> uri -> In (f, vs) (ls_vars s') <-> In (f, vs) (ls_vars s)) /\
      option_map (map decl_of_id) (sget uri (ls_vars s')) = Some (introduced (t_root_end T tr) tp).
Proof. exact open_exact. Qed.
Print Assumptions C64_open_end_to_end.
Theorem C64_save_end_to_end :
  forall T F b uri t tr tp ps sts (s : lsp_files T),
    file_ext uri = Some Template -> scalars t -> ls_ignore s = false ->
    sget uri (ls_docs s) = Some t -> sget uri (ls_tt s) = Some tr ->
    parsed T tr (encode t) tp ps sts -> straight tp -> plain_headers tp ->
    exists s' e1,
      did_save F b uri s =
        Ok (s', Some [(uri, e1 ++ missing_reports F (cf_templates (ls_config s)) sts)]) /\
      reported (introduced (t_root_end T tr) tp) (indexed (ls_vars s')) (chains ps) e1 /\
      (forall f vs, f <> uri -> In (f, vs) (ls_vars s') <-> In (f, vs) (ls_vars s)) /\
      option_map (map decl_of_id) (sget uri (ls_vars s')) = Some (introduced (t_root_end T tr) tp).
Proof. exact save_exact. Qed.
Print Assumptions C64_save_end_to_end.
(** Templates of any shape, with the extents the analysis counts (C12). *)
Theorem C64_open_any_shape :
  forall T F b uri t tr tp ps sts (s : lsp_files T),
    file_ext uri = Some Template -> scalars t -> ls_ignore s = false ->
    t_parse T PJinja (encode t) (sget uri (ls_tt s)) = Some tr ->
    parsed T tr (encode t) tp ps sts -> plain_ends tp ->
    exists s' e1,
      did_open F b uri t false s =
        Ok (s', Some [(uri, e1 ++ missing_reports F (cf_templates (ls_config s)) sts)]) /\
      reported (tallied (t_root_end T tr) tp) (indexed (ls_vars s')) (chains ps) e1 /\
      (forall f vs, f <> uri -> In (f, vs) (ls_vars s') <-> In (f, vs) (ls_vars s)) /\
      option_map (map decl_of_id) (sget uri (ls_vars s')) = Some (tallied (t_root_end T tr) tp).
Proof. exact open_any. Qed.
Print Assumptions C64_open_any_shape.
Theorem C64_save_any_shape :
  forall T F b uri t tr tp ps sts (s : lsp_files T),
    file_ext uri = Some Template -> scalars t -> ls_ignore s = false ->
    sget uri (ls_docs s) = Some t -> sget uri (ls_tt s) = Some tr ->
    parsed T tr (encode t) tp ps sts -> plain_ends tp ->
    exists s' e1,
      did_save F b uri s =
        Ok (s', Some [(uri, e1 ++ missing_reports F (cf_templates (ls_config s)) sts)]) /\
      reported (tallied (t_root_end T tr) tp) (indexed (ls_vars s')) (chains ps) e1 /\
      (forall f vs, f <> uri -> In (f, vs) (ls_vars s') <-> In (f, vs) (ls_vars s)) /\
      option_map (map decl_of_id) (sget uri (ls_vars s')) = Some (tallied (t_root_end T tr) tp).
Proof. exact save_any. Qed.
Print Assumptions C64_save_any_shape.
(** With branches, loop filters and inline conditionals: no false alarms. *)
Theorem C64_no_false_alarms :
  forall T F b uri t tr tp ps sts (s : lsp_files T),
    file_ext uri = Some Template -> scalars t ->
    t_parse T PJinja (encode t) (sget uri (ls_tt s)) = Some tr ->
    parsed T tr (encode t) tp ps sts -> plain_headers tp -> branching tp -> nested (t_root_end T tr) tp ->
    exists s' e, did_open F b uri t false s = Ok (s', Some [(uri, e)]) /\
      forall u k, In u (chains ps) ->
        (exists d, In d (introduced (t_root_end T tr) tp) /\ means (snd (fst u)) d /\
           pt_le (dc_start d) (n_end (fst (fst u))) /\ pt_lt (n_start (fst (fst u))) (dc_until d)) ->
        ~ In (k, use_id u) e.
Proof. exact open_no_false_alarm. Qed.
Print Assumptions C64_no_false_alarms.
Definition c64_text : text := ascii_text c64_src.
Example C64_example :
  file_ext a_html = Some Template /\ scalars c64_text /\ encode c64_text = c64_src /\
  parsed c64_ts tt (encode c64_text) c64_tpl c64_ps c64_sts /\ straight c64_tpl /\
  branching c64_tpl /\ nested (mkpt 0 73) c64_tpl /\
  match did_open (fs_with []) Debug a_html c64_text false (server c64_ts "templates" [(b_html, [var "l" 3 4])]) with
  | Ok (_, Some d) =>
      d = [(a_html, [(DefinedSomewhere, use_id (tk 34 35 "l", [])); (Undefined, use_id (tk 50 51 "j", []));
                     (Undefined, use_id (tk 69 70 "i", [])); (TemplateNotFound, ref_id (nd 11 19, "b.html"%string))])]
  | _ => False
  end.
Proof.
  split; [reflexivity|]. split; [repeat constructor|]. split; [reflexivity|]. split; [exact c64_parsed|].
  split; [cbn; repeat split; repeat constructor|]. split; [cbn; repeat split; repeat constructor|].
  split; [cbn; repeat split; unfold pt_le; cbn; lia|]. vm_compute. reflexivity.
Qed.

(** ** C65: the language's own global names are reported *)
(** Names every Jinja template may use without defining them. *)
Definition jinja_globals : list string :=
  ["range"; "dict"; "lipsum"; "cycler"; "joiner"; "namespace"; "self"; "caller"; "varargs"; "kwargs";
   "none"; "True"; "False"; "None"; "loop"; "true"; "false"; "super"]%string.
Theorem C65_globals_refuted :
  exists T F b tr src vars file dir u e,
    pieces_ok src [PExpr (ex 0 11); PChain u []] /\
    concat (t_captures T QObjects tr src) = cap_pieces [PExpr (ex 0 11); PChain u []] /\
    In (snd u) jinja_globals /\ sget file vars = Some [] /\
    search_errors T F b tr src vars file dir Template false = Ok (Some e) /\ In (Undefined, use_id (u, [])) e.
Proof.
  exists (ts_all [] (cap_pieces [PExpr (ex 0 11); PChain (tk 3 8 "range") []]) [] [] (mkpt 0 11)), (fs_with []), Debug, tt,
    "{{ range }}"%string, [(a_html, [])], a_html, "t"%string, (tk 3 8 "range").
  eexists. split; [pieces_okay|]. split; [apply app_nil_r|]. split; [cbn; auto|]. split; [reflexivity|].
  split; [vm_compute; reflexivity|]. cbn. auto.
Qed.
Print Assumptions C65_globals_refuted.
(** Exactly eight names are never reported, wherever they stand alone: the
    pieces [PBuiltin] yield no use. *)
Theorem C65_builtins_never_reported :
  forall T F b tr src vars file dir this ps tail e d i,
    pieces_ok src ps -> concat (t_captures T QObjects tr src) = cap_pieces ps ++ tail -> stops tail ->
    Forall (fun c => utf8_text (c_node c) src <> Panic) (concat (t_captures T QImports tr src)) ->
    sget file vars = Some this ->
    search_errors T F b tr src vars file dir Template false = Ok (Some e) -> In (d, i) e -> d <> TemplateNotFound ->
    ~ built_in (id_name i).
Proof. exact builtins_never_reported. Qed.
Print Assumptions C65_builtins_never_reported.
Example C65_example :
  pieces_ok "{{ loop }}" [PExpr (ex 0 10); PBuiltin (tk 3 7 "loop")] /\
  search_errors (ts_all [] (cap_pieces [PExpr (ex 0 10); PBuiltin (tk 3 7 "loop")]) [] [] (mkpt 0 10)) (fs_with []) Debug tt
    "{{ loop }}" [(a_html, [])] a_html "t" Template false = Ok (Some []).
Proof.
  split; [|vm_compute; reflexivity].
  split; [|exists (mkpt 0 1); split; [right; cbn; lia|]; vm_compute; intuition discriminate].
  repeat (apply Forall_cons; [first [split; [rd|unfold built_in; cbn [In snd tk]; tauto] | piece_okay]|]). apply Forall_nil.
Qed.
