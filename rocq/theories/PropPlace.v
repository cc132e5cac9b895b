(** * PropPlace: properties C93-C97 (where something is offered or found, what
    the order of the definitions and a missing index change). *)
From Verif Require Import Base RString Utf8 Rope Types Captures.
From Verif Require Import MDefinition MObjects MTemplates MSearchErrors MLspFiles MLspTask.
From Verif Require Import SpecText SpecFiles SpecScope SpecScope2 SpecObjects SpecLint SpecNav SpecConfig SpecOrder SpecPlace.
From Verif Require Import PText PFiles PScope PObjects PLint PLint2 PNav PNav2 POrder POrder2 PPlace PPlace2 PropObjects PropLint PropNav.

(** ** C93: offers fit the place of the cursor *)
(** Whatever the query yields: what is offered needs an element of its kind at
    the cursor; only the very beginning of the file is special. *)
Theorem C93_offers_fit_partial :
  forall T b (st : lsp_files T) uri pos ctx tr t ct a,
    holds st uri tr t -> completion b uri pos ctx st = Ok (Some (ct, a)) ->
    let src := rope_content t in
    fits (concat (t_captures T QObjects tr src)) (concat (t_captures T QImports tr src)) (concat (t_captures T QSnippets tr src))
      src (point_of pos) ct.
Proof. intros T. exact (@completion_fits T). Qed.
Print Assumptions C93_offers_fit_partial.
(** At the beginning of every template filters are offered. *)
Theorem C93_filters_at_start :
  forall T b (st : lsp_files T) uri ctx tr t,
    let src := rope_content t in
    asked T st uri (mkpos 0 0) ctx tr t ->
    Forall (fun c => utf8_text (c_node c) src <> Panic) (concat (t_captures T QObjects tr src)) ->
    ~ captured CPipe (concat (t_captures T QObjects tr src)) (fun n => n_start n = pt0) ->
    exists a, completion b uri (mkpos 0 0) ctx st = Ok (Some (CtFilter, a)).
Proof.
  intros T b st uri ctx tr t src (A & B & C & D & E) H1 H2.
  destruct (start_filters b _ src H1 H2) as (s & Q & Hp & _).
  exists (should_autoclose s). apply (completion_in_template b st uri (mkpos 0 0) ctx tr t s); auto.
  unfold obj_completion, in_pipe. change (point_of (mkpos 0 0)) with pt0. rewrite Hp. reflexivity.
Qed.
Print Assumptions C93_filters_at_start.
(** In front of an expression, and inside its brackets, variables are offered. *)
Theorem C93_variables_in_front :
  forall T b (st : lsp_files T) uri pos ctx tr t ps p n rest,
    let src := rope_content t in
    let tp := point_of pos in
    asked T st uri pos ctx tr t -> ends_before src ps p -> pt_lt p tp ->
    concat (t_captures T QObjects tr src) = cap_pieces ps ++ cap CExpr n :: rest -> before_all tp rest ->
    holds_point tp n ->
    exists a, completion b uri pos ctx st = Ok (Some (CtIdentifier, a)).
Proof.
  intros T b st uri pos ctx tr t ps p n rest src tp (A & B & C & D & E) H1 H2 H3 H4 H5.
  destruct (complete_front b _ tp src ps p n rest H1 H2 H3 H4 H5) as (s & a & Q & O).
  exists a. eapply completion_in_template; eauto.
Qed.
Print Assumptions C93_variables_in_front.
(** Both are wrong: [ab{{ x }}] at 0:0 and at 0:2 (in front of the brackets). *)
Definition c93_src : string := "ab{{ x }}".
Definition c93_ps : list piece := [PExpr (ex 2 9); PChain (tk 5 6 "x") []].
Theorem C93_offers_fit_refuted :
  exists src ps,
    pieces_ok src ps /\ rope_content (ascii_text src) = src /\
    ~ captured CPipe (cap_pieces ps) (fun _ => True) /\
    ~ captured CExpr (cap_pieces ps) (between (mkpt 0 2)) /\
    completion Debug a_html (mkpos 0 0) (Some TkInvoked) (holding ps src) = Ok (Some (CtFilter, true)) /\
    completion Debug a_html (mkpos 0 2) (Some TkInvoked) (holding ps src) = Ok (Some (CtIdentifier, false)).
Proof.
  exists c93_src, c93_ps. split; [pieces_okay|]. split; [reflexivity|].
  split. { intros (c & Hc & Hk & _). cbn in Hc. repeat destruct Hc as [<-|Hc]; try discriminate. destruct Hc. }
  split. { intros (c & Hc & Hk & (H & _)). cbn in Hc. repeat destruct Hc as [<-|Hc]; try discriminate; [|destruct Hc].
           vm_compute in H. intuition discriminate. }
  split; vm_compute; reflexivity.
Qed.
Print Assumptions C93_offers_fit_refuted.
Example C93_example :
  asked (ts_fixed c93_ps) (holding c93_ps c93_src) a_html (mkpos 0 2) (Some TkInvoked) tt (ascii_text c93_src) /\
  ends_before c93_src [] (mkpt 0 1) /\ holds_point (mkpt 0 2) (ex 2 9) /\
  before_all (mkpt 0 2) (cap_pieces (skipn 1 c93_ps)) /\
  completion Debug a_html (mkpos 0 4) (Some TkInvoked) (holding c93_ps c93_src) = Ok (Some (CtIdentifier, false)) /\
  fits (cap_pieces c93_ps) [] [] c93_src (mkpt 0 4) CtIdentifier /\
  ~ fits (cap_pieces c93_ps) [] [] c93_src (mkpt 0 9) CtIdentifier /\
  ~ fits (cap_pieces c93_ps) [] [] c93_src (mkpt 0 4) CtFilter.
Proof.
  split. { split; [now left|]. do 3 (split; [reflexivity|]). now apply clean_nil. }
  split. { split; [constructor|]. exists (mkpt 0 1). split; [vm_compute; auto|]. split; [exact I|right; vm_compute; intuition discriminate]. }
  split; [split; vm_compute; intuition discriminate|]. split; [vm_compute; intuition discriminate|].
  split; [vm_compute; reflexivity|].
  split. { exists (cap CExpr (ex 2 9)). split; [now left|]. split; [reflexivity|]. split; vm_compute; intuition discriminate. }
  split.
  - intros (c & Hc & Hk & (_ & H)). cbn in Hc. repeat destruct Hc as [<-|Hc]; try discriminate; [|destruct Hc].
    vm_compute in H. intuition discriminate.
  - intros [H|(c & Hc & Hk & _)]; [discriminate|]. cbn in Hc. repeat destruct Hc as [<-|Hc]; try discriminate. destruct Hc.
Qed.

(** ** C94: the order of the stored definitions *)
Theorem C94_goto_order :
  forall T F url b uri pos (s : lsp_files T) m,
    reordered (ls_vars s) m ->
    same_res goto_alike (goto_definition F url b uri pos s) (goto_definition F url b uri pos (set_vars m s)).
Proof. intros T. exact (@goto_reordered T). Qed.
Print Assumptions C94_goto_order.
Theorem C94_hover_order :
  forall T b uri pos (s : lsp_files T) m,
    reordered (ls_vars s) m -> do_hover b uri pos (set_vars m s) = do_hover b uri pos s.
Proof. intros T. exact (@hover_reordered T). Qed.
Print Assumptions C94_hover_order.
Theorem C94_diagnostics_order :
  forall T F b tr src vars vars' file dir l ig,
    reordered vars vars' ->
    same_res (lint_alike l) (search_errors T F b tr src vars file dir l ig) (search_errors T F b tr src vars' file dir l ig).
Proof. intros T. exact (@errors_reordered T). Qed.
Print Assumptions C94_diagnostics_order.
Theorem C94_symbols_order :
  forall T uri (s : lsp_files T) m,
    reordered (ls_vars s) m ->
    match document_symbols uri s, document_symbols uri (set_vars m s) with
    | Some a, Some b => Permutation a b | None, None => True | _, _ => False end.
Proof. intros T. exact (@symbols_reordered T). Qed.
Print Assumptions C94_symbols_order.
Theorem C94_offered_names_order :
  forall T b (s : lsp_files T) m uri pos ctx,
    reordered (ls_vars s) m ->
    same_res offers_alike (do_completion b uri pos ctx s) (do_completion b uri pos ctx (set_vars m s)).
Proof. intros T. exact (@do_completion_reordered T). Qed.
Print Assumptions C94_offered_names_order.
(** Every list of [nav_vars] turned around. *)
Definition c94_vars : smap (list identifier) := [(a_html, rev nav_ids); (b_html, rev (match sget b_html nav_vars with Some l => l | None => [] end))].
Example C94_example :
  reordered (ls_vars nav_st) c94_vars /\ c94_vars <> ls_vars nav_st /\
  goto_definition (fs_with []) Some Debug a_html (mkpos 0 34) (set_vars c94_vars nav_st) = Ok (Some (GScalar (at_pos a_html 22 23))) /\
  goto_definition (fs_with []) Some Debug a_html (mkpos 0 60) (set_vars c94_vars nav_st) =
    Ok (Some (GArray [at_pos "file:///b.html-y" 0 0; at_pos b_html 3 4])) /\
  do_hover Debug a_html (mkpos 0 34) (set_vars c94_vars nav_st) = Ok (Some (DocKind "For loop key")).
Proof.
  split. { constructor; [split; [reflexivity|apply Permutation_rev]|]. constructor; [split; [reflexivity|apply Permutation_rev]|constructor]. }
  split; [discriminate|]. split; [vm_compute; reflexivity|]. split; vm_compute; reflexivity.
Qed.
(** The order is that of the positions: of two declarations visible at a place
    the one that starts later wins, then the one that ends later, then the
    greater name. *)
Example C94_ties :
  let a := dv "x" 7 8 63 SetVariable in let b := dv "x" 7 9 60 SetVariable in let c := dv "y" 7 9 50 SetVariable in
  iter_max [c; a; b] = Some c /\ iter_max [b; a] = Some b /\ iter_max [a; b] = Some b.
Proof. repeat split. Qed.

(** ** C95: goto with the cursor on nothing *)
(** Behind the beginning of the file: the variables of other files whose name
    starts with a dot or is empty (tree-sitter yields no such name). *)
Theorem C95_goto_on_nothing_partial :
  forall T F url b (st : lsp_files T) uri pos tr t,
    let src := rope_content t in
    let tp := point_of pos in
    let here := filter (fun fv => heads "" (id_name (snd fv))) (other_vars uri (ls_vars st)) in
    holds st uri tr t ->
    no_use_at src (concat (t_captures T QObjects tr src)) tp ->
    no_ref_at tp (t_captures T QImports tr src) ->
    Forall (fun c => utf8_text (c_node c) src <> Panic) (concat (t_captures T QImports tr src)) ->
    Forall (fun fv => small_id (snd fv)) (other_vars uri (ls_vars st)) ->
    Forall (fun fv => url (target_name fv) <> None) here ->
    exists locs, goto_definition F url b uri pos st = Ok (Some (GArray locs)) /\ Forall2 (found url) here locs.
Proof. intros T. exact (@goto_nothing T). Qed.
Print Assumptions C95_goto_on_nothing_partial.
(** At the beginning of a template that begins with [{% extends ... %}] goto
    opens the template directory itself. *)
Theorem C95_goto_at_start :
  forall T F url b (st : lsp_files T) uri tr t n kw r rest p u,
    let src := rope_content t in
    holds st uri tr t ->
    Forall (fun c => pt_lt pt0 (n_start (c_node c))) (concat (t_captures T QObjects tr src)) ->
    t_captures T QImports tr src = flat_map cap_stmt (SExtends n kw r :: rest) ->
    n_start n = pt0 -> pt_lt pt0 (n_start kw) -> pt_lt pt0 (n_start (fst r)) ->
    Forall (fun c => pt_lt pt0 (n_start (c_node c))) (concat (flat_map cap_stmt rest)) ->
    f_canon F (path_push (cf_templates (ls_config st)) EmptyString) = CanonOk p -> url (file_uri p) = Some u ->
    goto_definition F url b uri (mkpos 0 0) st = Ok (Some (GScalar (mkloc u (lsp_range pt0 pt0)))).
Proof. intros T. exact (@goto_start T). Qed.
Print Assumptions C95_goto_at_start.
Definition c95_fs : fs :=
  mkfs (fun p => if String.eqb p "t/" then CanonOk "/w/t" else if String.eqb p "t/b.html" then CanonOk "/w/t/b.html" else CanonNotFound)
    (fun _ => None) (fun _ => []) (fun _ => None).
Definition c95_st : lsp_files c64_ts := nav_state (T := c64_ts) tt c64_src "t" false [(a_html, [])] [].
Theorem C95_goto_on_nothing_refuted :
  exists (T : ts) F (st : lsp_files T) tr t sts,
    let src := rope_content t in
    holds st a_html tr t /\ stmts_ok src sts /\ t_captures T QImports tr src = flat_map cap_stmt sts /\
    no_ref_at pt0 (t_captures T QImports tr src) /\
    Forall (fun c => pt_lt pt0 (n_start (c_node c))) (concat (t_captures T QObjects tr src)) /\
    goto_definition F Some Debug a_html (mkpos 0 0) st = Ok (Some (GScalar (at_pos "file:///w/t" 0 0))).
Proof.
  exists c64_ts, c95_fs, c95_st, tt, (ascii_text c64_src), c64_sts. cbv zeta.
  replace (rope_content (ascii_text c64_src)) with c64_src by (vm_compute; reflexivity).
  split; [split; [reflexivity|split; reflexivity]|]. split; [exact (pd_stmts _ _ _ _ _ _ c64_parsed)|].
  split; [reflexivity|].
  split. { unfold no_ref_at. cbn. repeat (apply Forall_cons; [intros Hk; try discriminate|]); [|apply Forall_nil].
           intros (H & _). vm_compute in H. intuition discriminate. }
  split; [cbn; repeat (apply Forall_cons; [vm_compute; auto|]); apply Forall_nil|]. vm_compute. reflexivity.
Qed.
Print Assumptions C95_goto_on_nothing_refuted.
(** In the text between two expressions of [nav_src]: nothing. *)
Example C95_example :
  no_use_at nav_src (cap_pieces nav_ps) (mkpt 0 45) /\
  goto_definition (fs_with []) Some Debug a_html (mkpos 0 45) nav_st = Ok (Some (GArray [])).
Proof.
  split; [|vm_compute; reflexivity].
  exists (firstn 5 nav_ps), (cap_pieces (skipn 5 nav_ps)), (mkpt 0 37).
  split; [reflexivity|]. split; [|split; [right; vm_compute; auto|right; vm_compute; auto]].
  split; [repeat (apply Forall_cons; [piece_okay|]); apply Forall_nil|]. exists (mkpt 0 1). vm_compute. intuition discriminate.
Qed.

(** ** C96: a server whose index could not be built *)
Theorem C96_open_without_index :
  forall (T : ts) F url b rid client cfg (s1 s2 : task_state T) e1 e2 uri t tr tp ps sts,
    parse_total T ->
    step F url b (task0 T) (MInitialize rid client (Some (Some cfg))) = Ok (s1, e1) ->
    step F url b s1 MInitialized = Ok (s2, e2) ->
    ~ (cf_lang cfg = "rust" \/ cf_lang cfg = "python")%string \/ entry F (set_user cfg) WErr ->
    file_ext uri = Some Template -> scalars t -> t_parse T PJinja (encode t) None = Some tr ->
    parsed T tr (encode t) tp ps sts -> plain_ends tp ->
    exists s3 e, step F url b s2 (MDidOpen uri t) = Ok (s3, [EDiag [(uri, e ++ missing_reports F "" sts)]]) /\
      tk_config s3 = set_user cfg /\ (forall f vs, In (f, vs) (ls_vars (tk_data s3)) -> f = uri) /\
      reported (tallied (t_root_end T tr) tp) (SpecLint.indexed (ls_vars (tk_data s3))) (chains ps) e.
Proof. intros T. exact (@open_without_index T). Qed.
Print Assumptions C96_open_without_index.
(** The referenced template exists in the configured directory, yet it is
    reported missing. *)
Definition c96_cfg (lang : string) : config := mkcfg "t" [] lang false None.
Definition c96_run (lang : string) : res (list effect) :=
  r1 <- step c95_fs Some Debug (task0 c64_ts) (MInitialize 0 None (Some (Some (c96_cfg lang))));;
  r2 <- step c95_fs Some Debug (fst r1) MInitialized;;
  r3 <- step c95_fs Some Debug (fst r2) (MDidOpen a_html (ascii_text c64_src));;
  Ok (snd r3).
Definition c96_missing := (TemplateNotFound, ref_id (nd 11 19, "b.html"%string)).
Example C96_example :
  parse_total c64_ts /\ ~ (cf_lang (c96_cfg "go") = "rust" \/ cf_lang (c96_cfg "go") = "python")%string /\
  parsed c64_ts tt (encode (ascii_text c64_src)) c64_tpl c64_ps c64_sts /\ straight c64_tpl /\
  (exists e, c96_run "go" = Ok [EDiag [(a_html, e)]] /\ In c96_missing e) /\
  (exists e, c96_run "rust" = Ok [EDiag [(a_html, e)]] /\ ~ In c96_missing e).
Proof.
  split; [intros l c o; discriminate|]. split; [cbn; intuition discriminate|].
  split; [exact c64_parsed|]. split; [cbn; repeat split; repeat constructor|].
  split; eexists; (split; [vm_compute; reflexivity|]).
  - vm_compute. auto 10.
  - vm_compute. intuition discriminate.
Qed.

(** ** C97: how an offered name is described *)
(** Every offered name of this file is described by the first stored visible
    declaration of that name. *)
Theorem C97_described_by_first_partial :
  forall T (st : lsp_files T) uri pos ds starting,
    knows st uri ds ->
    exists locals backs, read_variables uri pos starting None st = Some (locals ++ backs) /\
      Forall (fun i => exists d, first_offered (point_of pos) ds d /\ presents d i) locals /\
      Forall2 plain_for (filter is_backend (all_vars (ls_vars st))) backs.
Proof. intros T. exact (@described_by_first T). Qed.
Print Assumptions C97_described_by_first_partial.
(** Hover describes it by the last one (C34): in the loop [x] is a loop key for
    hover and a [set] variable for completion. *)
Theorem C97_description_agrees_refuted :
  exists ps src (st : lsp_files (ts_fixed ps)) r items i,
    pieces_ok src ps /\ holds st a_html tt (ascii_text src) /\
    completion (T := ts_fixed ps) Debug a_html (mkpos 0 35) (Some TkInvoked) st = Ok (Some (CtIncompleteIdentifier "x" r, false)) /\
    do_completion (T := ts_fixed ps) Debug a_html (mkpos 0 35) (Some TkInvoked) st = Ok (Some (map RItem items)) /\
    In i items /\ ci_label i = "x"%string /\ ci_detail i = Some "Set variable"%string /\
    do_hover (T := ts_fixed ps) Debug a_html (mkpos 0 35) st = Ok (Some (DocKind "For loop key")).
Proof.
  exists nav_ps, nav_src, nav_st. do 3 eexists.
  split; [pieces_okay|]. split; [split; [reflexivity|split; reflexivity]|]. split; [vm_compute; reflexivity|].
  split. { instantiate (1 := [_; _]). vm_compute. reflexivity. }
  split; [left; reflexivity|]. repeat split; vm_compute; reflexivity.
Qed.
Print Assumptions C97_description_agrees_refuted.
