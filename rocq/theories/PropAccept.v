(** * PropAccept: properties C98-C102 (what accepting a completion item does,
    which names are documented, where snippets are offered). *)
From Verif Require Import Base RString Utf8 Rope Types Captures.
From Verif Require Import MDefinition MObjects MTemplates MSearchErrors MLspFiles MLspTask.
From Verif Require Import SpecText SpecFiles SpecScope SpecObjects SpecLint SpecNav SpecOrder SpecPlace SpecAccept.
From Verif Require Import PText PFiles PScope PObjects PLint PLint2 PNav PNav2 PNav3 POrder PPlace PAccept PropObjects PropLint PropNav.

(** ** C98: accepting a snippet *)
(** What is offered: one item for every kind of statement. *)
Theorem C98_snippets_offered :
  forall T b (st : lsp_files T) uri pos ctx r a,
    completion b uri pos ctx st = Ok (Some (CtSnippets r, a)) ->
    exists items, do_completion b uri pos ctx st = Ok (Some items) /\
      map (fun i => p_label (proposal_of i)) items = map (fun k => fst (fst k)) snippet_kinds /\
      Forall (fun i => exists l d e, i = RSnippet l d e) items.
Proof. intros T. exact (@snippets_all T). Qed.
Print Assumptions C98_snippets_offered.
(** In editors other than Visual Studio Code the statement of that kind is
    written, but over the character behind the cursor, if there is one, and with
    placeholders in it that are taken literally. *)
Theorem C98_accept_elsewhere_partial :
  forall T b (st : lsp_files T) uri pos ctx items label detail e m word (t t' : text) i c,
    ls_vscode st = false -> small (point_of pos) -> character pos + 1 < two32 ->
    do_completion b uri pos ctx st = Ok (Some items) -> In (RSnippet label detail e) items ->
    cursor_at t pos i c -> match c with Some c => utf16_len c = 1 | None => True end ->
    exists kw close x, In (label, kw, close) snippet_kinds /\ statement kw close x /\ placeholder x /\
      (accepted m word t (proposal_of (RSnippet label detail e)) t' <->
       exists y, encode y = x /\ t' = firstn i t ++ y ++ skipn (match c with Some _ => S i | None => i end) t).
Proof.
  intros T b st uri pos ctx items label detail e m word t t' i c Hv Hs Hs2 D Hin Hcur Hc.
  destruct (snippet_item b st uri pos ctx items label detail e D Hin) as (r & a & x & kw & close & C & H1 & H2 & H3 & ->).
  rewrite Hv. pose proof (snippet_range b st uri pos ctx r a Hs Hs2 C) as ->. exists kw, close, x.
  split; [exact H1|]. split; [exact H2|]. split; [exact H3|].
  rewrite (accepted_one m word t _ i (match c with Some _ => S i | None => i end) t').
  - destruct m; reflexivity.
  - reflexivity.
  - destruct m; exact (cursor_denotes _ _ _ _ Hcur).
  - destruct m, c; cbn; try exact (cursor_next _ _ _ _ Hcur Hc); exact (cursor_end _ _ _ Hcur).
  - destruct c; lia.
Qed.
Print Assumptions C98_accept_elsewhere_partial.
(** In Visual Studio Code the label is written over the word at the cursor. *)
Theorem C98_accept_vscode :
  forall T b (st : lsp_files T) uri pos ctx items label detail e m word (t t' : text) s z,
    ls_vscode st = true ->
    do_completion b uri pos ctx st = Ok (Some items) -> In (RSnippet label detail e) items ->
    denotes t (rstart word) s -> denotes t (rend word) z -> (s <= z)%nat ->
    (accepted m word t (proposal_of (RSnippet label detail e)) t' <->
     exists y, encode y = label /\ t' = firstn s t ++ y ++ skipn z t).
Proof.
  intros T b st uri pos ctx items label detail e m word t t' s z Hv D Hin H1 H2 H3.
  destruct (snippet_item b st uri pos ctx items label detail e D Hin) as (r & a & x & kw & close & _ & _ & _ & _ & ->).
  rewrite Hv. now rewrite (accepted_one m word t _ s z t').
Qed.
Print Assumptions C98_accept_vscode.
(** Nothing but the statement is inserted at the cursor: false.  [{% %}] with the
    cursor behind the space: the percent sign is lost, the placeholders stay; in
    Visual Studio Code [for1] is written. *)
Definition c98_ts : ts := ts_all [] [] [] [cap CErrorBlock (nd 0 5)] (mkpt 0 5).
Definition c98_src : string := "{% %}".
Definition c98_st (vscode : bool) : lsp_files c98_ts := nav_state (T := c98_ts) tt c98_src "t" vscode [(a_html, [])] [].
Definition c98_text : string := " for ${1:i} in ${2:items} %}
{% endfor %}
".
Definition c98_here : range := mkrange (mkpos 0 3) (mkpos 0 3).
Theorem C98_accept_refuted :
  exists items items' it it' t',
    do_completion (T := c98_ts) Debug a_html (mkpos 0 3) (Some TkInvoked) (c98_st false) = Ok (Some items) /\ In it items /\
    do_completion (T := c98_ts) Debug a_html (mkpos 0 3) (Some TkInvoked) (c98_st true) = Ok (Some items') /\ In it' items' /\
    p_label (proposal_of it) = "for1"%string /\ p_label (proposal_of it') = "for1"%string /\
    accepted Inserting c98_here (ascii_text c98_src) (proposal_of it) t' /\
    encode t' = ("{% " ++ c98_text ++ "}")%string /\
    accepted Inserting c98_here (ascii_text c98_src) (proposal_of it') (ascii_text "{% for1%}").
Proof.
  do 2 eexists.
  exists (RSnippet "for1" "Basic for loop" (Some (CInsertReplace c98_text (mkrange (mkpos 0 3) (mkpos 0 4)) (mkrange (mkpos 0 3) (mkpos 0 4))))),
    (RSnippet "for1" "Basic for loop" None), (ascii_text ("{% " ++ c98_text ++ "}")).
  split; [vm_compute; reflexivity|]. split; [now left|]. split; [vm_compute; reflexivity|]. split; [now left|].
  split; [reflexivity|]. split; [reflexivity|].
  assert (D : denotes (ascii_text c98_src) (mkpos 0 3) 3) by (left; exists (ascii_text c98_src), [], 3%nat; cbn; repeat split; lia).
  split; [|split].
  - apply (accepted_one _ _ _ _ 3 4); [reflexivity|exact D| |lia|].
    + left. exists (ascii_text c98_src), [], 4%nat. cbn. repeat split; lia.
    + exists (ascii_text c98_text). split; vm_compute; reflexivity.
  - vm_compute. reflexivity.
  - apply (accepted_one _ _ _ _ 3 3); [reflexivity|exact D|exact D|lia|]. exists (ascii_text "for1"). split; vm_compute; reflexivity.
Qed.
Print Assumptions C98_accept_refuted.
Example C98_example :
  completion (T := c98_ts) Debug a_html (mkpos 0 3) (Some TkInvoked) (c98_st false) =
    Ok (Some (CtSnippets (mkrange (mkpos 0 3) (mkpos 0 4)), false)) /\
  small (point_of (mkpos 0 3)) /\
  cursor_at (ascii_text c98_src) (mkpos 0 3) 3 (Some 37) /\ utf16_len 37 = 1 /\
  cursor_at (ascii_text c98_src) (mkpos 0 5) 5 None.
Proof.
  split; [vm_compute; reflexivity|]. split; [split; vm_compute; reflexivity|].
  split; [exists (ascii_text c98_src), [], 3%nat; cbn; repeat split; lia|]. split; [reflexivity|].
  exists (ascii_text c98_src), [], 5%nat; cbn; repeat split; lia.
Qed.

(** ** C99: the edits of one item do not collide *)
(** In other editors an item has no further edits. *)
Theorem C99_elsewhere_one_edit :
  forall T b (st : lsp_files T) uri pos ctx items,
    ls_vscode st = false -> do_completion b uri pos ctx st = Ok (Some items) ->
    Forall (fun i => p_more (proposal_of i) = []) items.
Proof. intros T. exact (@no_more_elsewhere T). Qed.
Print Assumptions C99_elsewhere_one_edit.
(** In Visual Studio Code every further edit collides with the main edit (for a
    template name: as long as the cursor is not behind the name). *)
Theorem C99_vscode_collide :
  forall T b (st : lsp_files T) uri pos ctx ct a items m word i e,
    ls_vscode st = true -> small (point_of pos) -> completion b uri pos ctx st = Ok (Some (ct, a)) ->
    (forall n r, ct = CtIncludedTemplate n r -> pos_lt pos (rend r)) ->
    do_completion b uri pos ctx st = Ok (Some items) -> In i items -> In e (p_more (proposal_of i)) ->
    collide (te_range (main_edit m word (proposal_of i))) (te_range e).
Proof. intros T. exact (@collide_vscode T). Qed.
Print Assumptions C99_vscode_collide.
(** So accepting such an item has no defined result. *)
Theorem C99_vscode_refuted :
  exists ps (st : lsp_files (ts_fixed ps)) items i,
    ls_vscode st = true /\ do_completion (T := ts_fixed ps) Debug a_html (mkpos 0 45) (Some TkInvoked) st = Ok (Some items) /\
    In i items /\ p_label (proposal_of i) = "user"%string /\ p_more (proposal_of i) <> [] /\
    forall m word t t', ~ accepted m word t (proposal_of i) t'.
Proof.
  exists cpl_ps, (cpl_st true). do 2 eexists. split; [reflexivity|].
  split. { instantiate (1 := [_; _]). vm_compute. reflexivity. }
  split; [now left|]. split; [reflexivity|]. split; [discriminate|].
  intros m word t t' (H & _). inversion H as [|? ? H1 _]; subst. apply H1. left. reflexivity.
Qed.
Print Assumptions C99_vscode_refuted.
Example C99_example :
  completion (T := ts_fixed cpl_ps) Debug a_html (mkpos 0 45) (Some TkInvoked) (cpl_st true) =
    Ok (Some (CtIncompleteIdentifier "us" (mkrange (mkpos 0 43) (mkpos 0 45)), false)) /\
  ls_vscode (cpl_st false) = false /\
  (exists items, do_completion (T := ts_fixed cpl_ps) Debug a_html (mkpos 0 45) (Some TkInvoked) (cpl_st false) = Ok (Some items) /\ length items = 2%nat).
Proof. split; [vm_compute; reflexivity|]. split; [reflexivity|]. eexists. split; [vm_compute; reflexivity|reflexivity]. Qed.

(** ** C100: accepting a template writes a reference that is found *)
(** The literal is replaced by the quoted label (ASCII in front of the literal and
    in it). *)
Theorem C100_reference_written_partial :
  forall T b (st : lsp_files T) uri pos ctx n r a items i m word (t before lit after t' : text),
    ls_vscode st = false -> completion b uri pos ctx st = Ok (Some (CtIncludedTemplate n r, a)) ->
    do_completion b uri pos ctx st = Ok (Some items) -> In i items ->
    t = before ++ lit ++ after -> no_lone_cr t -> plain_text (before ++ lit) ->
    hd_error (lit ++ after) <> Some 10 -> hd_error after <> Some 10 ->
    r = lsp_range (ts_point before) (ts_point (before ++ lit)) ->
    (accepted m word t (proposal_of i) t' <->
     exists y, encode y = String dquote (p_label (proposal_of i) ++ String dquote EmptyString) /\ t' = before ++ y ++ after).
Proof. intros T. exact (@template_written T). Qed.
Print Assumptions C100_reference_written_partial.
(** The label of every template indexed from the directory leads back to it: it
    is not reported and goto opens that file. *)
Theorem C100_offered_found_partial :
  forall T F (st : lsp_files T) p r sp,
    let dir := cf_templates (ls_config st) in
    let prefix := if String.eqb p "" then "file:///"%string else p in
    ~ occurs "." dir -> ends_with_slash dir = false ->
    (forall uri, In uri (map fst (ls_tt st)) -> occurs prefix uri ->
       exists label c, lies_below dir uri label /\ ~ In EmptyString (split_char slash label) /\
         f_canon F (dir ++ "/" ++ label)%string = CanonOk c /\ uri = file_uri c) ->
    exists us items, read_templates p r sp st = Some items /\
      (forall u, In u us <-> In u (map fst (ls_tt st)) /\ occurs prefix u) /\
      Forall2 (fun u i => missing F dir (ci_label i) = false /\
        exists c, f_canon F (lookup_path dir (ci_label i)) = CanonOk c /\ file_uri c = u) us items.
Proof. intros T. exact (@offered_found T). Qed.
Print Assumptions C100_offered_found_partial.
(** Not for documents opened in the editor, whose URIs are percent-encoded, ... *)
Definition c100_fs : fs := fs_with ["/p/t/my page.html"; "t/my page.html"]%string.
Theorem C100_opened_found_refuted :
  exists (st st' : lsp_files (ts_fixed [])) d items i,
    did_open (T := ts_fixed []) c100_fs Debug "file:///p/t/my%20page.html" (ascii_text "hello") false st = Ok (st', d) /\
    read_templates "" range0 (mkpos 0 0) st' = Some items /\ In i items /\
    not_found c100_fs (cf_templates (ls_config st')) "my page.html" = false /\
    missing c100_fs (cf_templates (ls_config st')) (ci_label i) = true.
Proof.
  exists (server (ts_fixed []) "t" []). do 4 eexists. split; [vm_compute; reflexivity|].
  split; [vm_compute; reflexivity|]. split; [now left|]. split; vm_compute; reflexivity.
Qed.
Print Assumptions C100_opened_found_refuted.
(** ... and with a character outside ASCII in front of the literal something else
    is replaced: a quote is left over and the character behind is lost. *)
Definition c100_src : text := 233 :: ascii_text "{% include ""b"" %}".
Definition c100_stmt : istmt := SInclude (nd 2 19) (nd 5 12) [(nd 13 16, "b"%string)].
Definition c100_ts : ts := ts_all [] [] (cap_stmt c100_stmt) [] (mkpt 0 19).
Definition c100_st : lsp_files c100_ts :=
  mkls [(a_html, tt : tree c100_ts); ("file:///t/b", tt : tree c100_ts)]%string [] [(a_html, c100_src)] PRust PRust (cfg_dir "t") None true
    [(a_html, [])] [] false false.
Theorem C100_reference_written_refuted :
  exists items i before lit after t',
    c100_src = before ++ lit ++ after /\
    completion (T := c100_ts) Debug a_html (mkpos 0 14) (Some TkInvoked) c100_st =
      Ok (Some (CtIncludedTemplate "b" (lsp_range (ts_point before) (ts_point (before ++ lit))), false)) /\
    do_completion (T := c100_ts) Debug a_html (mkpos 0 14) (Some TkInvoked) c100_st = Ok (Some items) /\ In i items /\
    p_label (proposal_of i) = "b"%string /\ lit = ascii_text """b""" /\
    accepted Inserting range0 c100_src (proposal_of i) t' /\ t' = before ++ ascii_text """""b""%}".
Proof.
  do 2 eexists. exists (firstn 12 c100_src), (ascii_text """b"""), (ascii_text " %}"). eexists.
  split; [reflexivity|]. split; [vm_compute; reflexivity|]. split; [vm_compute; reflexivity|]. split; [now left|].
  split; [reflexivity|]. split; [reflexivity|]. split; [|reflexivity].
  apply (accepted_one _ _ _ _ 13 16); [reflexivity| | |lia|].
  - left. exists c100_src, [], 13%nat. split; [vm_compute; reflexivity|]. split; [vm_compute; lia|]. split; vm_compute; reflexivity.
  - left. exists c100_src, [], 16%nat. split; [vm_compute; reflexivity|]. split; [vm_compute; lia|]. split; vm_compute; reflexivity.
  - exists (ascii_text """b"""). split; vm_compute; reflexivity.
Qed.
Print Assumptions C100_reference_written_refuted.
Definition c100_idx : lsp_files (ts_fixed []) := dir_state "tpl" ["file:///p/tpl/a/b.html"; "file:///p/tpl/c.html"]%string.
Definition c100_disk : fs :=
  mkfs (fun p => if str_mem p ["tpl/a/b.html"; "tpl/c.html"]%string then CanonOk ("/p/" ++ p) else CanonNotFound)
    (fun _ => None) (fun _ => []) (fun _ => None).
Example C100_example :
  (forall uri, In uri (map fst (ls_tt c100_idx)) -> occurs "file:///" uri ->
     exists label c, lies_below "tpl" uri label /\ ~ In EmptyString (split_char slash label) /\
       f_canon c100_disk ("tpl/" ++ label)%string = CanonOk c /\ uri = file_uri c) /\
  ~ occurs "." "tpl" /\
  match read_templates "" range0 (mkpos 0 0) c100_idx with Some l => map ci_label l | None => [] end = ["a/b.html"; "c.html"]%string /\
  (let lit := ascii_text """b""" in let before := ascii_text "{% include " in
   plain_text (before ++ lit) /\ no_lone_cr (before ++ lit ++ ascii_text " %}") /\
   lsp_range (ts_point before) (ts_point (before ++ lit)) = mkrange (mkpos 0 11) (mkpos 0 14)).
Proof.
  split.
  { intros uri [<-|[<-|[]]] _.
    - exists "a/b.html"%string, "/p/tpl/a/b.html"%string. split; [eapply below_once; [discriminate| |vm_compute; reflexivity]; reflexivity|].
      split; [vm_compute; intuition discriminate|]. split; reflexivity.
    - exists "c.html"%string, "/p/tpl/c.html"%string. split; [eapply below_once; [discriminate| |vm_compute; reflexivity]; reflexivity|].
      split; [vm_compute; intuition discriminate|]. split; reflexivity. }
  split. { intros H. apply contains_iff in H. vm_compute in H. discriminate. }
  split; [vm_compute; reflexivity|]. cbv zeta. split; [|split].
  - repeat (apply Forall_cons; [vm_compute; intuition discriminate|]). apply Forall_nil.
  - cbn. intuition discriminate.
  - vm_compute. reflexivity.
Qed.

(** ** C101: documented filters and tests *)
(** Every filter with a documentation file is offered once, with it; the same for
    tests. *)
Theorem C101_documented_offered :
  forall T b (st : lsp_files T) uri pos ctx a,
    (completion b uri pos ctx st = Ok (Some (CtFilter, a)) ->
     exists ns, do_completion b uri pos ctx st = Ok (Some (map (fun n => RDoc n (DocFilter n)) ns)) /\
       NoDup ns /\ forall n, In n ns <-> In n filter_docs) /\
    (completion b uri pos ctx st = Ok (Some (CtTest, a)) ->
     exists ns, do_completion b uri pos ctx st = Ok (Some (map (fun n => RDoc n (DocTest n)) ns)) /\
       NoDup ns /\ forall n, In n ns <-> In n test_docs).
Proof.
  intros T b st uri pos ctx a. split; intros E; unfold do_completion; rewrite E; cbn [bind].
  - exists filter_names. split; [reflexivity|]. split; [apply names_once|exact filters_documented].
  - exists test_names. split; [reflexivity|]. split; [apply names_once|exact tests_documented].
Qed.
Print Assumptions C101_documented_offered.
(** On the name of a filter or test hover shows its documentation if it has a
    file, and nothing otherwise. *)
Theorem C101_documented_hover :
  forall T b (st : lsp_files T) uri pos i,
    (hover b uri pos st = Ok (Some (i, CtFilter)) ->
     (In (id_name i) filter_docs /\ do_hover b uri pos st = Ok (Some (DocFilter (id_name i)))) \/
     (~ In (id_name i) filter_docs /\ do_hover b uri pos st = Ok None)) /\
    (hover b uri pos st = Ok (Some (i, CtTest)) ->
     (In (id_name i) test_docs /\ do_hover b uri pos st = Ok (Some (DocTest (id_name i)))) \/
     (~ In (id_name i) test_docs /\ do_hover b uri pos st = Ok None)).
Proof.
  intros T b st uri pos i. split; intros E; unfold do_hover; rewrite E; cbn [bind].
  - destruct (str_mem (id_name i) filter_names) eqn:Em; [left|right]; (split; [|reflexivity]); rewrite <- filters_documented, <- str_mem_In; congruence.
  - destruct (str_mem (id_name i) test_names) eqn:Em; [left|right]; (split; [|reflexivity]); rewrite <- tests_documented, <- str_mem_In; congruence.
Qed.
Print Assumptions C101_documented_hover.
(** The names built into Jinja: these have no documentation, the others do. *)
Theorem C101_jinja_names :
  (forall n, In n jinja_filters ->
     (In n filter_docs <-> ~ In n ["center"; "count"; "d"; "e"; "filesizeformat"; "forceescape"; "format"; "groupby"; "random"; "string";
        "striptags"; "sum"; "truncate"; "urlize"; "wordcount"; "wordwrap"; "xmlattr"]%string)) /\
  (forall n, In n jinja_tests ->
     (In n test_docs <-> ~ In n ["callable"; "equalto"; "escaped"; "greaterthan"; "lessthan"]%string)).
Proof.
  assert (G : forall all docs missing, forallb (fun n => Bool.eqb (str_mem n docs) (negb (str_mem n missing))) all = true ->
    forall n, In n all -> (In n docs <-> ~ In n missing)).
  { intros all docs ms H n Hn. rewrite forallb_forall in H. specialize (H n Hn). apply Bool.eqb_prop in H.
    rewrite <- !str_mem_In, H. destruct (str_mem n ms); cbn; intuition congruence. }
  split; apply G; vm_compute; reflexivity.
Qed.
Print Assumptions C101_jinja_names.
(** Every documented or built-in name is explained: false, for [sum] of Jinja and
    for [pluralize], whose documentation file is never read. *)
Definition c101_src : string := "{{ x|sum|pluralize|upper }}".
Definition c101_ps : list piece :=
  [PExpr (ex 0 27); PChain (tk 3 4 "x") []; PFilter (tk 4 5 "|") (tk 5 8 "sum"); PFilter (tk 8 9 "|") (tk 9 18 "pluralize"); PFilter (tk 18 19 "|") (tk 19 24 "upper")].
Theorem C101_all_documented_refuted :
  exists i j,
    pieces_ok c101_src c101_ps /\
    hover (T := ts_fixed c101_ps) Debug a_html (mkpos 0 6) (holding c101_ps c101_src) = Ok (Some (i, CtFilter)) /\
    id_name i = "sum"%string /\ In (id_name i) jinja_filters /\
    do_hover (T := ts_fixed c101_ps) Debug a_html (mkpos 0 6) (holding c101_ps c101_src) = Ok None /\
    hover (T := ts_fixed c101_ps) Debug a_html (mkpos 0 12) (holding c101_ps c101_src) = Ok (Some (j, CtFilter)) /\
    id_name j = "pluralize"%string /\ In (id_name j) contrib_docs /\
    do_hover (T := ts_fixed c101_ps) Debug a_html (mkpos 0 12) (holding c101_ps c101_src) = Ok None.
Proof.
  do 2 eexists. split; [pieces_okay|]. split; [vm_compute; reflexivity|]. split; [reflexivity|].
  split; [apply str_mem_In; vm_compute; reflexivity|]. split; [vm_compute; reflexivity|]. split; [vm_compute; reflexivity|]. split; [reflexivity|].
  split; [apply str_mem_In; vm_compute; reflexivity|]. vm_compute; reflexivity.
Qed.
Print Assumptions C101_all_documented_refuted.
Example C101_example :
  do_hover (T := ts_fixed c101_ps) Debug a_html (mkpos 0 21) (holding c101_ps c101_src) = Ok (Some (DocFilter "upper")) /\
  In "upper"%string filter_docs /\
  completion (T := ts_fixed c101_ps) Debug a_html (mkpos 0 5) (Some TkInvoked) (holding c101_ps c101_src) = Ok (Some (CtFilter, false)).
Proof. split; [vm_compute; reflexivity|]. split; [apply str_mem_In; vm_compute; reflexivity|]. vm_compute. reflexivity. Qed.

(** ** C102: snippets in every incomplete statement *)
(** Exactly when snippets are offered: only the first error counts. *)
Theorem C102_snippets_exact :
  forall T b (st : lsp_files T) uri pos ctx tr t,
    ctx = Some TkInvoked \/ ctx = Some TkTriggerCharacter -> holds st uri tr t -> character pos + 1 < two32 ->
    let lim := mkpt (line pos) (character pos + 2) in
    ((exists r a, completion b uri pos ctx st = Ok (Some (CtSnippets r, a))) <->
     exists n, first_error lim (concat (t_captures T QSnippets tr (rope_content t))) n /\ pt_le (point_of pos) (n_end n)).
Proof. intros T. exact (@snippets_when T). Qed.
Print Assumptions C102_snippets_exact.
(** An incomplete statement with no other in front of it. *)
Theorem C102_incomplete_partial :
  forall T b (st : lsp_files T) uri pos ctx tr t cs1 n cs2,
    ctx = Some TkInvoked \/ ctx = Some TkTriggerCharacter -> holds st uri tr t -> character pos + 1 < two32 ->
    concat (t_captures T QSnippets tr (rope_content t)) = cs1 ++ cap CErrorBlock n :: cs2 ->
    (forall c, In c cs1 -> c_name c <> CErrorBlock) -> on_node (point_of pos) n ->
    exists r a, completion b uri pos ctx st = Ok (Some (CtSnippets r, a)).
Proof.
  intros T b st uri pos ctx tr t cs1 n cs2 H1 H2 H3 E F (L1 & L2). apply (snippets_when b st uri pos ctx tr t H1 H2 H3).
  exists n. split; [|exact L2]. exists cs1, (cap CErrorBlock n), cs2. split; [exact E|]. split; [reflexivity|]. split; [reflexivity|].
  split; [unfold point_of in L1; clear - L1; pts|]. intros c Hc Hk. now apply F in Hk.
Qed.
Print Assumptions C102_incomplete_partial.
(** Behind another incomplete statement nothing is offered: [{% %}x{% %}] with the
    cursor in the second one. *)
Definition c102_ts : ts := ts_all [] [] [] [cap CErrorBlock (nd 0 5); cap CErrorBlock (nd 6 11)] (mkpt 0 11).
Definition c102_st : lsp_files c102_ts := nav_state (T := c102_ts) tt "{% %}x{% %}" "t" false [(a_html, [])] [].
Theorem C102_second_refuted :
  exists (st : lsp_files c102_ts) tr t n cs1,
    holds st a_html tr t /\ concat (t_captures c102_ts QSnippets tr (rope_content t)) = cs1 ++ [cap CErrorBlock n] /\
    on_node (point_of (mkpos 0 9)) n /\ n_start n = mkpt 0 6 /\
    completion (T := c102_ts) Debug a_html (mkpos 0 9) (Some TkInvoked) st = Ok None.
Proof.
  exists c102_st, tt, (ascii_text "{% %}x{% %}"), (nd 6 11), [cap CErrorBlock (nd 0 5)].
  split; [split; [reflexivity|split; reflexivity]|]. split; [vm_compute; reflexivity|].
  split; [split; vm_compute; intuition discriminate|]. split; [reflexivity|]. vm_compute. reflexivity.
Qed.
Print Assumptions C102_second_refuted.
Example C102_example :
  holds c102_st a_html tt (ascii_text "{% %}x{% %}") /\ on_node (point_of (mkpos 0 3)) (nd 0 5) /\
  completion (T := c102_ts) Debug a_html (mkpos 0 3) (Some TkInvoked) c102_st =
    Ok (Some (CtSnippets (mkrange (mkpos 0 3) (mkpos 0 4)), false)).
Proof.
  split; [split; [reflexivity|split; reflexivity]|]. split; [split; vm_compute; intuition discriminate|]. vm_compute. reflexivity.
Qed.
