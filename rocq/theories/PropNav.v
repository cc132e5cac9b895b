(** * PropNav: properties C31-C37 and C66-C72 (goto, hover, completion items,
    symbols, code actions). *)
From Verif Require Import Base RString Utf8 Rope Types Captures.
From Verif Require Import MDefinition MObjects MTemplates MSearchErrors MLspFiles MLspTask.
From Verif Require Import SpecText SpecFiles SpecScope SpecObjects SpecObjects2 SpecLint SpecNav.
From Verif Require Import PText PObjects PLint PLint2 PLint3 POrder PNav PNav2 PNav3 PNav4 PNav5 PropObjects PropLint.

(** ** The template of the examples *)
Definition nav_state {T} (tr : tree T) (src dir : string) (vscode : bool)
  (vars acts : smap (list identifier)) : lsp_files T :=
  mkls [(a_html, tr)] [] [(a_html, ascii_text src)] PRust PRust (cfg_dir dir) None true vars acts vscode false.
(** A declaration on the first line whose scope ends at column [u]. *)
Definition dv (name : string) (a z u : N) (k : identifier_type) : identifier :=
  mkid (mkpt 0 a) (mkpt 0 z) name (0, mkpt 0 u) k [].
Definition at_pos (f : string) (a z : N) : location := mkloc f (mkrange (mkpos 0 a) (mkpos 0 z)).
Definition nav_src : string := "{% set x = 1 %}{% for x in l %}{{ x.a }}{% endfor %}{{ x + y }}".
Definition nav_ps : list piece :=
  [PChain (tk 7 8 "x") []; PChain (tk 22 23 "x") []; PChain (tk 27 28 "l") []; PExpr (ex 31 40);
   PChain (tk 34 35 "x") [mkacc (nd 35 36) false (tk 36 37 "a")]; PExpr (ex 52 63); PChain (tk 55 56 "x") [];
   POp (tk 57 59 "+ "); PChain (tk 59 60 "y") []].
Definition nav_ids : list identifier := [dv "x" 7 8 63 SetVariable; dv "x" 22 23 40 ForLoopKey].
Definition nav_vars : smap (list identifier) :=
  [(a_html, nav_ids);
   (b_html, [dv "y.z" 3 4 63 SetVariable; dv "x" 3 4 63 SetVariable; mkid pt0 pt0 "y" (0, pt0) BackendVariable []])].
Definition nav_ds : list decl := map decl_of_id nav_ids.
Definition nav_st : lsp_files (ts_fixed nav_ps) := nav_state (T := ts_fixed nav_ps) tt nav_src "templates" false nav_vars [].
Lemma nav_facts :
  holds nav_st a_html tt (ascii_text nav_src) /\ knows nav_st a_html nav_ds /\ Forall small_decl nav_ds /\
  rope_content (ascii_text nav_src) = nav_src /\ pieces_ok nav_src nav_ps /\ all_small (cap_pieces nav_ps) /\
  concat (t_captures (ts_fixed nav_ps) QObjects tt nav_src) = cap_pieces nav_ps.
Proof.
  split; [split; [reflexivity|split; reflexivity]|]. split; [reflexivity|]. split; [repeat constructor|].
  split; [vm_compute; reflexivity|]. split; [pieces_okay|].
  split; [repeat (apply Forall_cons; [vm_compute; auto|]); apply Forall_nil|]. vm_compute. reflexivity.
Qed.
Ltac fa := repeat (apply Forall_cons; [vm_compute; auto|]); apply Forall_nil.

(** ** C31 *)
Theorem C31_goto_latest_visible :
  forall T F url b (st : lsp_files T) uri pos tr t pre h fs post ds,
    let src := rope_content t in
    let tp := point_of pos in
    let ps := pre ++ PChain h fs :: post in
    holds st uri tr t -> knows st uri ds -> Forall small_decl ds ->
    pieces_ok src ps -> concat (t_captures T QObjects tr src) = cap_pieces ps ->
    on_tok tp h -> Forall (behind tp) (cap_pieces post) ->
    (exists d, In d ds /\ goto_sees tp (snd h) d) ->
    exists d, latest (goto_sees tp (snd h)) ds d /\
      goto_definition F url b uri pos st = Ok (Some (GScalar (mkloc uri (lsp_range (dc_start d) (dc_end d))))).
Proof. intros T. exact (@goto_latest T). Qed.
Print Assumptions C31_goto_latest_visible.
(** Inside the loop goto finds the loop's [x], behind it the other one. *)
Example C31_example :
  on_tok (mkpt 0 34) (tk 34 35 "x") /\ Forall (behind (mkpt 0 34)) (cap_pieces (skipn 5 nav_ps)) /\
  goto_sees (mkpt 0 34) "x" (decl_of_id (dv "x" 7 8 63 SetVariable)) /\
  goto_sees (mkpt 0 34) "x" (decl_of_id (dv "x" 22 23 40 ForLoopKey)) /\
  goto_definition (fs_with []) Some Debug a_html (mkpos 0 34) nav_st = Ok (Some (GScalar (at_pos a_html 22 23))) /\
  goto_definition (fs_with []) Some Debug a_html (mkpos 0 55) nav_st = Ok (Some (GScalar (at_pos a_html 7 8))).
Proof.
  split; [split; vm_compute; intuition discriminate|]. split; [fa|].
  split; [repeat split; right; vm_compute; intuition discriminate|].
  split; [repeat split; right; vm_compute; intuition discriminate|]. split; vm_compute; reflexivity.
Qed.

(** ** C32 *)
Theorem C32_goto_other_files :
  forall T F url b (st : lsp_files T) uri pos tr t pre h fs post ds,
    let src := rope_content t in
    let tp := point_of pos in
    let ps := pre ++ PChain h fs :: post in
    let here := filter (fun fv => heads (snd h) (id_name (snd fv))) (other_vars uri (ls_vars st)) in
    holds st uri tr t -> knows st uri ds ->
    pieces_ok src ps -> concat (t_captures T QObjects tr src) = cap_pieces ps ->
    on_tok tp h -> Forall (behind tp) (cap_pieces post) ->
    (forall d, In d ds -> ~ goto_sees tp (snd h) d) ->
    no_ref_at tp (t_captures T QImports tr src) ->
    Forall (fun c => utf8_text (c_node c) src <> Panic) (concat (t_captures T QImports tr src)) ->
    Forall (fun fv => small_id (snd fv)) (other_vars uri (ls_vars st)) ->
    Forall (fun fv => url (target_name fv) <> None) here ->
    exists locs, goto_definition F url b uri pos st = Ok (Some (GArray locs)) /\ Forall2 (found url) here locs.
Proof. intros T. exact (@goto_elsewhere T). Qed.
Print Assumptions C32_goto_other_files.
Example C32_example :
  (forall d, In d nav_ds -> ~ goto_sees (mkpt 0 60) "y" d) /\
  map (fun fv => id_name (snd fv)) (filter (fun fv => heads "y" (id_name (snd fv))) (other_vars a_html nav_vars)) =
    ["y.z"; "y"]%string /\
  goto_definition (fs_with []) Some Debug a_html (mkpos 0 60) nav_st =
    Ok (Some (GArray [at_pos b_html 3 4; at_pos "file:///b.html-y" 0 0])).
Proof.
  split. { intros d [<-|[<-|[]]] (H & _); discriminate. }
  split; vm_compute; reflexivity.
Qed.
(** The last hypothesis is needed: one matching variable whose target is no URL
    crashes the server. *)
Theorem C32_goto_crash :
  forall T F url b (st : lsp_files T) uri pos tr t pre h fs post ds,
    let src := rope_content t in
    let tp := point_of pos in
    let ps := pre ++ PChain h fs :: post in
    let here := filter (fun fv => heads (snd h) (id_name (snd fv))) (other_vars uri (ls_vars st)) in
    holds st uri tr t -> knows st uri ds ->
    pieces_ok src ps -> concat (t_captures T QObjects tr src) = cap_pieces ps ->
    on_tok tp h -> Forall (behind tp) (cap_pieces post) ->
    (forall d, In d ds -> ~ goto_sees tp (snd h) d) ->
    no_ref_at tp (t_captures T QImports tr src) ->
    Forall (fun c => utf8_text (c_node c) src <> Panic) (concat (t_captures T QImports tr src)) ->
    Exists (fun fv => url (target_name fv) = None) here ->
    goto_definition F url b uri pos st = Panic.
Proof. intros T. exact (@goto_elsewhere_crash T). Qed.
Print Assumptions C32_goto_crash.
(** Such a variable: one without position in a file whose name does not start
    with a scheme. *)
Example C32_hypothesis_needed :
  goto_definition (fs_with []) (fun u => if String.prefix "file:" u then Some u else None) Debug a_html (mkpos 0 60)
    (nav_state (T := ts_fixed nav_ps) tt nav_src "templates" false
       [(a_html, nav_ids); ("temp-views"%string, [mkid pt0 pt0 "y" (0, pt0) BackendVariable []])] []) = Panic.
Proof. vm_compute. reflexivity. Qed.

(** ** C33: one notion of visibility *)
(** When hover explains the head of a chain by a definition of this file, and
    the use starts strictly before the end of that definition's scope, linting
    does not report the use.  (Hover explains it by this file whenever it does
    not say "Backend variable", or when no other file defines the name.) *)
Theorem C33_hover_agrees_with_linting :
  forall T F b (st : lsp_files T) uri pos tr t pre h fs1 fs2 post ds dir k,
    let src := rope_content t in
    let tp := point_of pos in
    let ps := pre ++ PChain h (fs1 ++ fs2) :: post in
    holds st uri tr t -> knows st uri ds -> Forall wf_decl ds ->
    pieces_ok src ps -> concat (t_captures T QObjects tr src) = cap_pieces ps ->
    Forall (fun c => utf8_text (c_node c) src <> Panic) (concat (t_captures T QImports tr src)) ->
    on_tok tp (segment h fs1) -> Forall (behind tp) (cap_pieces post) -> all_small (cap_pieces ps) ->
    pt_le (n_start (fst h)) (n_end (fst h)) ->
    (forall d, In d ds -> dc_name d = snd h -> dc_until d <> n_start (fst h)) ->
    do_hover b uri pos st = Ok (Some (DocKind k)) ->
    k <> "Backend variable"%string \/
      (forall fv, In fv (other_vars uri (ls_vars st)) -> heads (snd h) (id_name (snd fv)) = false) ->
    exists es, search_errors T F b tr src (ls_vars st) uri dir Template false = Ok (Some es) /\
      forall e, ~ In (e, use_id (h, fs1 ++ fs2)) es.
Proof. intros T. exact (@hover_agrees T). Qed.
Print Assumptions C33_hover_agrees_with_linting.
(** When the name under the cursor is itself offered, as a definition of this
    file, linting does not report it. *)
Theorem C33_completion_agrees_with_linting :
  forall T F b (st : lsp_files T) uri pos ctx tr src ps tail h fs ds dir ct a typed r items i,
    knows st uri ds -> Forall wf_decl ds ->
    pieces_ok src ps -> concat (t_captures T QObjects tr src) = cap_pieces ps ++ tail -> stops tail ->
    Forall (fun c => utf8_text (c_node c) src <> Panic) (concat (t_captures T QImports tr src)) ->
    on_tok (point_of pos) h ->
    (forall d, In d ds -> dc_name d = snd h -> dc_until d <> n_start (fst h)) ->
    completion b uri pos ctx st = Ok (Some (ct, a)) ->
    (ct = CtIdentifier /\ typed = EmptyString) \/ ct = CtIncompleteIdentifier typed r ->
    do_completion b uri pos ctx st = Ok (Some (map RItem items)) ->
    In i items -> ci_label i = snd h -> ci_detail i <> Some "Backend variable"%string ->
    exists es, search_errors T F b tr src (ls_vars st) uri dir Template false = Ok (Some es) /\
      forall e, ~ In (e, use_id (h, fs)) es.
Proof. intros T. exact (@completion_agrees T). Qed.
Print Assumptions C33_completion_agrees_with_linting.
(** The [x] in the loop and the one behind it; [y], which only another file
    defines, is reported. *)
Definition c33_edit : range := mkrange (mkpos 0 55) (mkpos 0 56).
Example C33_example :
  Forall wf_decl nav_ds /\ on_tok (mkpt 0 36) (segment (tk 34 35 "x") [mkacc (nd 35 36) false (tk 36 37 "a")]) /\
  Forall (behind (mkpt 0 36)) (cap_pieces (skipn 5 nav_ps)) /\ on_tok (mkpt 0 56) (tk 55 56 "x") /\
  (forall d, In d nav_ds -> dc_name d = "x"%string -> dc_until d <> mkpt 0 34 /\ dc_until d <> mkpt 0 55) /\
  do_hover Debug a_html (mkpos 0 36) nav_st = Ok (Some (DocKind "For loop key")) /\
  completion Debug a_html (mkpos 0 56) (Some TkInvoked) nav_st = Ok (Some (CtIncompleteIdentifier "x" c33_edit, false)) /\
  do_completion Debug a_html (mkpos 0 56) (Some TkInvoked) nav_st =
    Ok (Some (map RItem [mkci "x" (Some "Set variable"%string) KVariable (Some (CInsertReplace "x" c33_edit c33_edit)) None;
                         mkci "y" (Some "Backend variable"%string) KVariable None None])) /\
  search_errors (ts_fixed nav_ps) (fs_with []) Debug tt nav_src nav_vars a_html "t" Template false =
    Ok (Some [(Undefined, use_id (tk 27 28 "l", [])); (DefinedSomewhere, use_id (tk 59 60 "y", []))]).
Proof.
  split; [repeat (apply Forall_cons; [right; vm_compute; intuition discriminate|]); apply Forall_nil|].
  split; [split; vm_compute; intuition discriminate|]. split; [fa|]. split; [split; vm_compute; intuition discriminate|].
  split. { intros d [<-|[<-|[]]] _; split; discriminate. }
  repeat split; vm_compute; reflexivity.
Qed.
(** Goto does not agree: in [{% block title %}{{ title }}{% endblock %}] it
    opens the block for a use that linting reports as defined elsewhere. *)
Definition blk_src : string := "{% block title %}{{ title }}{% endblock %}".
Definition blk_ps : list piece := [PChain (tk 9 14 "title") []; PExpr (ex 17 28); PChain (tk 20 25 "title") []].
Definition blk_vars : smap (list identifier) := [(a_html, [dv "title" 9 14 30 TemplateBlock])].
Theorem C33_goto_agrees_refuted :
  exists (T : ts) (tr : tree T) st vars ps u use l es,
    pieces_ok blk_src ps /\ concat (t_captures T QObjects tr blk_src) = cap_pieces ps /\ ls_vars st = vars /\
    holds st a_html tr (ascii_text blk_src) /\ on_tok (mkpt 0 u) use /\
    goto_definition (fs_with []) Some Debug a_html (mkpos 0 u) st = Ok (Some (GScalar (mkloc a_html l))) /\
    search_errors T (fs_with []) Debug tr blk_src vars a_html "templates" Template false = Ok (Some es) /\
    In (DefinedSomewhere, use_id (use, [])) es.
Proof.
  exists (ts_fixed blk_ps), tt, (nav_state (T := ts_fixed blk_ps) tt blk_src "templates" false blk_vars []), blk_vars, blk_ps,
    22, (tk 20 25 "title"), (mkrange (mkpos 0 9) (mkpos 0 14)).
  eexists. split; [pieces_okay|]. split; [vm_compute; reflexivity|]. split; [reflexivity|].
  split; [split; [reflexivity|split; reflexivity]|]. split; [split; vm_compute; intuition discriminate|].
  split; [vm_compute; reflexivity|]. split; [vm_compute; reflexivity|]. vm_compute.
  repeat (first [left; reflexivity|right]).
Qed.
Print Assumptions C33_goto_agrees_refuted.

(** ** C34 *)
(** Whenever the request asks for identifiers (C20 says when). *)
Theorem C34_variables_offered :
  forall T b (st : lsp_files T) uri pos ctx ds ct a,
    knows st uri ds -> completion b uri pos ctx st = Ok (Some (ct, a)) ->
    forall typed r, (ct = CtIdentifier /\ typed = EmptyString) \/ ct = CtIncompleteIdentifier typed r ->
    exists items, do_completion b uri pos ctx st = Ok (Some (map RItem items)) /\
      variables_offered st uri ds (point_of pos) typed r items.
Proof. intros T. exact (@do_completion_variables T). Qed.
Print Assumptions C34_variables_offered.
(** Two instances at the level of the request: in the white space of an
    expression, and behind the first byte of a name. *)
Theorem C34_variables_in_expression :
  forall T b (st : lsp_files T) uri pos ctx tr t ps rest p ds,
    asked T st uri pos ctx tr t -> knows st uri ds ->
    let src := rope_content t in
    let tp := point_of pos in
    ends_before src ps p -> pt_lt p tp ->
    concat (t_captures T QObjects tr src) = cap_pieces ps ++ rest -> before_all tp rest -> inside ps tp ->
    exists items, do_completion b uri pos ctx st = Ok (Some (map RItem items)) /\
      variables_offered st uri ds tp EmptyString range0 items.
Proof.
  intros T b st uri pos ctx tr t ps rest p ds HA Hk src tp H1 H2 H3 H4 H5.
  destruct (C20_identifiers_in_expression T b st uri pos ctx tr t ps rest p HA H1 H2 H3 H4 H5) as (a & E).
  exact (do_completion_variables b st uri pos ctx ds _ _ Hk E EmptyString range0 (or_introl (conj eq_refl eq_refl))).
Qed.
Print Assumptions C34_variables_in_expression.
Theorem C34_variables_for_prefix :
  forall T b (st : lsp_files T) uri pos ctx tr t pre n p2 h fs post typed more ds,
    asked T st uri pos ctx tr t -> knows st uri ds ->
    let src := rope_content t in
    let tp := point_of pos in
    let ps := (pre ++ PExpr n :: p2) ++ PChain h fs :: post in
    pieces_ok src ps -> concat (t_captures T QObjects tr src) = cap_pieces ps ->
    Forall (fun p => match p with PExpr _ => False | _ => True end) p2 ->
    pt_lt (n_start (fst h)) tp -> pt_le tp (n_end (fst h)) ->
    Forall (fun c => pt_lt tp (n_start (c_node c))) (cap_pieces post) ->
    pt_lt tp (n_end n) -> pt_le (snd (n_first n)) (n_start (fst h)) ->
    col (n_end (fst h)) = col (n_start (fst h)) + slen (snd h) ->
    snd h = (typed ++ more)%string -> splits_char more = false -> typed <> EmptyString ->
    col tp = col (n_start (fst h)) + slen typed ->
    exists items e, do_completion b uri pos ctx st = Ok (Some (map RItem items)) /\
      variables_offered st uri ds tp typed (to_range (n_start (fst h), e)) items.
Proof.
  intros T b st uri pos ctx tr t pre n p2 h fs post typed more ds HA Hk src tp ps H1 H2 H3 H4 H5 H6 H7 H8 K1 K2 K3 K4 K5.
  destruct (C20_typed_part_in_chain T b st uri pos ctx tr t pre n p2 h fs post typed more HA H1 H2 H3 H4 H5 H6 H7 H8 K1 K2 K3 K4 K5)
    as (e & a & E).
  destruct (do_completion_variables b st uri pos ctx ds _ _ Hk E typed _ (or_intror eq_refl)) as (items & D & V). eauto.
Qed.
Print Assumptions C34_variables_for_prefix.
Definition labels (r : res (option (list ritem))) : option (list string) :=
  match r with
  | Ok (Some l) => Some (map (fun i => match i with RItem c => ci_label c | RDoc n _ => n | RSnippet n _ _ => n end) l)
  | _ => None
  end.
Definition cpl_src : string := "{% set user = 1 %}{% set total = user %}{{ us }}".
Definition cpl_ps : list piece :=
  [PChain (tk 7 11 "user") []; PChain (tk 25 30 "total") []; PChain (tk 33 37 "user") []; PExpr (ex 40 48); PChain (tk 43 45 "us") []].
Definition cpl_vars : smap (list identifier) :=
  [(a_html, [dv "user" 7 11 48 SetVariable; dv "total" 25 30 48 SetVariable; dv "user" 8 9 48 WithVariable;
             dv "later" 46 47 48 SetVariable; dv "block" 9 12 48 TemplateBlock]);
   (b_html, [dv "n" 1 2 48 BackendVariable; dv "m" 1 2 48 SetVariable])].
Definition cpl_st (vscode : bool) : lsp_files (ts_fixed cpl_ps) :=
  nav_state (T := ts_fixed cpl_ps) tt cpl_src "templates" vscode cpl_vars [].
Example C34_example :
  asked (ts_fixed cpl_ps) (cpl_st false) a_html (mkpos 0 45) (Some TkInvoked) tt (ascii_text cpl_src) /\
  pieces_ok cpl_src cpl_ps /\
  completion Debug a_html (mkpos 0 45) (Some TkInvoked) (cpl_st false) =
    Ok (Some (CtIncompleteIdentifier "us" (mkrange (mkpos 0 43) (mkpos 0 45)), false)) /\
  labels (do_completion Debug a_html (mkpos 0 45) (Some TkInvoked) (cpl_st false)) = Some ["user"; "n"]%string /\
  labels (do_completion Debug a_html (mkpos 0 42) (Some TkInvoked) (cpl_st false)) = Some ["user"; "total"; "n"]%string.
Proof.
  split. { split; [now left|]. do 3 (split; [reflexivity|]). now apply clean_nil. }
  split; [pieces_okay|]. split; [vm_compute; reflexivity|]. split; vm_compute; reflexivity.
Qed.

(** ** C35 *)
Theorem C35_templates_offered :
  forall T (st : lsp_files T) p r sp,
    let d := strip_dots (cf_templates (ls_config st)) in
    let prefix := if String.eqb p "" then "file:///"%string else p in
    (forall uri, In uri (map fst (ls_tt st)) -> occurs prefix uri -> exists label, lies_below d uri label) ->
    exists us items, read_templates p r sp st = Some items /\
      (forall u, In u us <-> In u (map fst (ls_tt st)) /\ occurs prefix u) /\
      (NoDup (map fst (ls_tt st)) -> NoDup us) /\ Forall2 (template_for d (ls_vscode st) r) us items.
Proof. intros T. exact (@read_templates_exact T). Qed.
Print Assumptions C35_templates_offered.
(** All or nothing: one matching template without the directory's name in its
    URI, and nothing is offered. *)
Theorem C35_all_or_nothing :
  forall T (st : lsp_files T) p r sp u,
    let d := strip_dots (cf_templates (ls_config st)) in
    let prefix := if String.eqb p "" then "file:///"%string else p in
    d <> EmptyString -> In u (map fst (ls_tt st)) -> occurs prefix u -> ~ occurs d u ->
    read_templates p r sp st = None.
Proof. intros T. exact (@read_templates_nothing T). Qed.
Print Assumptions C35_all_or_nothing.
(** The request: the cursor inside a quoted reference outside any expression. *)
Theorem C35_asked_inside_reference :
  forall T b (st : lsp_files T) uri pos ctx tr t pre i post r typed rest,
    let src := rope_content t in
    let tp := point_of pos in
    ctx = Some TkInvoked \/ ctx = Some TkTriggerCharacter ->
    holds st uri tr t -> clean_before tp (t_captures T QSnippets tr src) ->
    (exists ps cs2 p, concat (t_captures T QObjects tr src) = cap_pieces ps ++ cs2 /\
       ends_before src ps p /\ pt_lt p tp /\ before_all tp cs2 /\ outside ps tp) ->
    stmts_ok src (pre ++ i :: post) -> t_captures T QImports tr src = flat_map cap_stmt (pre ++ i :: post) ->
    Forall (all_before tp) pre -> cursor_in tp i r -> Forall (all_behind tp) post ->
    snd r = (typed ++ rest)%string -> Forall (fun c => c < 128) (map N_of_ascii (list_ascii_of_string (snd r))) ->
    col (n_end (fst r)) = col (n_start (fst r)) + slen (snd r) + 2 ->
    col tp = col (n_start (fst r)) + 1 + slen typed ->
    small (n_start (fst r)) -> small (n_end (fst r)) ->
    exists n, quoted_prefix typed (snd r) n /\
    completion b uri pos ctx st =
      Ok (Some (CtIncludedTemplate n (lsp_range (n_start (fst r)) (n_end (fst r))), false)).
Proof. intros T. exact (@completion_reference T). Qed.
Print Assumptions C35_asked_inside_reference.
Definition dir_state (dir : string) (uris : list string) : lsp_files (ts_fixed []) :=
  mkls (T := ts_fixed []) (map (fun u => (u, tt)) uris) [] [] PRust PRust (cfg_dir dir) None true [] [] false false.
Definition offered (dir p : string) (uris : list string) : option (list string) :=
  match read_templates p range0 (mkpos 0 0) (dir_state dir uris) with
  | Some l => Some (map ci_label l) | None => None
  end.
Lemma below_example : lies_below "t" "f/t/a" "a".
Proof.
  split; [discriminate|]. exists "f/"%string. split; [reflexivity|]. intros a z H.
  destruct a as [|x a]; cbn in H; inversion H as [[H1 H2]]; subst. destruct a as [|y a]; cbn in H2; inversion H2 as [[H3 H4]]; subst.
  destruct a as [|w a]; [reflexivity|]. cbn in H4; inversion H4 as [[H5 H6]]; subst. destruct a as [|v a]; cbn in H6; inversion H6 as [[H7 H8]]; subst.
  destruct a as [|q a]; cbn in H8; inversion H8 as [[H9 H10]]; subst. destruct a; discriminate.
Qed.
Example C35_example :
  (forall uri, In uri ["f/t/a"; "g/x/b"]%string -> occurs "f/" uri -> exists label, lies_below "t" uri label) /\
  offered "./t" "f/" ["f/t/a"; "g/x/b"]%string = Some ["a"]%string /\
  offered "templates" "" ["file:///p/templates/a/b.html"; "file:///p/templates/c.html"]%string = Some ["a/b.html"; "c.html"]%string /\
  offered "templates" "b" ["file:///p/templates/a/b.html"; "file:///p/templates/c.html"]%string = Some ["a/b.html"]%string.
Proof.
  split; [|split; [|split]; vm_compute; reflexivity]. intros uri [<-|[<-|[]]] H.
  - exists "a"%string. exact below_example.
  - exfalso. apply contains_iff in H. vm_compute in H. discriminate.
Qed.
(** Every indexed template below the directory is offered by its own path:
    false.  A path that repeats the directory's name is cut, a dot in the
    directory's name hides everything, and a directory written with a final
    slash loses a slash of the path. *)
Theorem C35_every_template_refuted :
  (exists dir root label, let u := (root ++ dir ++ "/" ++ label)%string in
     offered dir "" [u] = Some ["a/"]%string /\ label = "a/templates/b.html"%string) /\
  (exists dir root label, let u := (root ++ dir ++ "/" ++ label)%string in
     dir = "my.templates"%string /\ offered dir "" [u] = None) /\
  (exists dir root label, let u := (root ++ dir ++ label)%string in
     dir = "templates/"%string /\ label = "sub/a.html"%string /\ offered dir "" [u] = Some ["suba.html"]%string) /\
  (exists dir u1 u2, offered dir "" [u1] = Some ["a.html"]%string /\ offered dir "" [u1; u2] = None).
Proof.
  split; [exists "templates"%string, "file:///p/"%string, "a/templates/b.html"%string; split; vm_compute; reflexivity|].
  split; [exists "my.templates"%string, "file:///p/"%string, "b.html"%string; split; vm_compute; reflexivity|].
  split; [exists "templates/"%string, "file:///p/"%string, "sub/a.html"%string; repeat split; vm_compute; reflexivity|].
  exists "templates"%string, "file:///p/templates/a.html"%string, "file:///q/scratch.html"%string. split; vm_compute; reflexivity.
Qed.
Print Assumptions C35_every_template_refuted.

(** ** C36 *)
Theorem C36_document_symbols :
  forall T F url b (s : task_state T) rid uri ds, knows (tk_data s) uri ds -> Forall small_decl ds ->
    step F url b s (MDocumentSymbol rid uri) =
    Ok (s, [EReply rid (RSymbols (map (fun d => mksym (dc_name d) (lsp_kind (dc_kind d))
             (lsp_range (dc_start d) (dc_end d)) (lsp_range (dc_start d) (dc_end d))) ds))]).
Proof. intros T. exact (@symbols_exact T). Qed.
Print Assumptions C36_document_symbols.
Example C36_example :
  knows nav_st a_html nav_ds /\ Forall small_decl nav_ds /\
  step (fs_with []) Some Debug (mktask (cfg_dir "t") nav_st 0) (MDocumentSymbol 4 a_html) =
    Ok (mktask (cfg_dir "t") nav_st 0,
        [EReply 4 (RSymbols [mksym "x" KVariable (mkrange (mkpos 0 7) (mkpos 0 8)) (mkrange (mkpos 0 7) (mkpos 0 8));
                             mksym "x" KVariable (mkrange (mkpos 0 22) (mkpos 0 23)) (mkrange (mkpos 0 22) (mkpos 0 23))])]).
Proof. split; [reflexivity|]. split; [repeat constructor|]. vm_compute. reflexivity. Qed.

(** ** C37 *)
Theorem C37_create_offered :
  forall T b (st : lsp_files T) uri pos l tr acts t,
    file_ext uri = Some l -> sget uri (trees_of l st) = Some tr -> sget uri (ls_docs st) = Some t ->
    sget uri (ls_actions st) = Some acts ->
    (exists i, In i acts /\ on_id (point_of pos) i) ->
    exists i, In i acts /\ on_id (point_of pos) i /\ code_action b uri pos st = Ok (Some (CaCreate (id_name i))).
Proof. intros T. exact (@create_action T). Qed.
Print Assumptions C37_create_offered.
Theorem C37_create_only_there :
  forall T b (st : lsp_files T) uri pos acts, sget uri (ls_actions st) = Some acts ->
    (forall i, In i acts -> ~ on_id (point_of pos) i) -> forall n, code_action b uri pos st <> Ok (Some (CaCreate n)).
Proof. intros T. exact (@no_create_action T). Qed.
Print Assumptions C37_create_only_there.
(** The references are those of the last message from the diagnostics task. *)
Theorem C37_references_remembered :
  forall T F url b (s : task_state T) m uri, NoDup (map fst m) ->
    exists s', step F url b s (MCodeActions m) = Ok (s', []) /\
      sget uri (ls_actions (tk_data s')) =
        match sget uri m with Some l => Some l | None => sget uri (ls_actions (tk_data s)) end.
Proof.
  intros T F url b s m uri Hn. eexists. split; [reflexivity|]. exact (add_actions_get m (tk_data s) uri Hn).
Qed.
Print Assumptions C37_references_remembered.
(** Reset: in the white space of an expression, not outside of expressions. *)
Theorem C37_reset_in_gap :
  forall T b (st : lsp_files T) uri pos tr t acts ps cs2 p,
    let src := rope_content t in
    let tp := point_of pos in
    holds st uri tr t -> sget uri (ls_actions st) = Some acts -> (forall i, In i acts -> ~ on_id tp i) ->
    ends_before src ps p -> pt_lt p tp -> concat (t_captures T QObjects tr src) = cap_pieces ps ++ cs2 -> before_all tp cs2 ->
    (inside ps tp -> code_action b uri pos st = Ok (Some CaReset)) /\
    (outside ps tp -> code_action b uri pos st = Ok None).
Proof. intros T. exact (@reset_in_gap T). Qed.
Print Assumptions C37_reset_in_gap.
(** Reset: on a name, behind its first character. *)
Theorem C37_reset_on_name_partial :
  forall T b (st : lsp_files T) uri pos tr t acts pre n p2 h fs post,
    let src := rope_content t in
    let tp := point_of pos in
    let ps := (pre ++ PExpr n :: p2) ++ PChain h fs :: post in
    holds st uri tr t -> sget uri (ls_actions st) = Some acts -> (forall i, In i acts -> ~ on_id tp i) ->
    pieces_ok src ps -> concat (t_captures T QObjects tr src) = cap_pieces ps ->
    Forall (fun p => match p with PExpr _ => False | _ => True end) p2 ->
    pt_lt (n_start (fst h)) tp -> pt_le tp (n_end (fst h)) -> Forall (behind tp) (cap_pieces post) ->
    pt_lt tp (n_end n) ->
    code_action b uri pos st = Ok (Some CaReset).
Proof. intros T. exact (@reset_on_name T). Qed.
Print Assumptions C37_reset_on_name_partial.
(** In front of the first character of a name it is never offered. *)
Theorem C37_no_reset_at_start :
  forall T b (st : lsp_files T) uri pos tr t acts pre n p2 h fs post,
    let src := rope_content t in
    let tp := point_of pos in
    let ps := (pre ++ PExpr n :: p2) ++ PChain h fs :: post in
    holds st uri tr t -> sget uri (ls_actions st) = Some acts -> (forall i, In i acts -> ~ on_id tp i) ->
    pieces_ok src ps -> concat (t_captures T QObjects tr src) = cap_pieces ps ->
    Forall (fun p => match p with PExpr _ => False | _ => True end) p2 ->
    tp = n_start (fst h) -> Forall (behind tp) (cap_pieces post) -> snd (n_first n) <> fst (n_last n) ->
    code_action b uri pos st = Ok None.
Proof. intros T. exact (@no_reset_at_start T). Qed.
Print Assumptions C37_no_reset_at_start.
(** Before the first character of a name inside an expression it is not
    offered; nor anywhere in a document for which no diagnostics were sent. *)
Theorem C37_reset_refuted :
  exists (ps : list piece) src (st0 st : lsp_files (ts_fixed ps)) e h pre post,
    ps = pre ++ PExpr e :: PChain h [] :: post /\ pieces_ok src ps /\
    holds st a_html tt (ascii_text src) /\ holds st0 a_html tt (ascii_text src) /\ sget a_html (ls_actions st) = Some [] /\
    pt_lt (n_start e) (n_start (fst h)) /\ pt_lt (n_end (fst h)) (n_end e) /\
    code_action (T := ts_fixed ps) Debug a_html (mkpos 0 (col (n_start (fst h)))) st = Ok None /\
    code_action (T := ts_fixed ps) Debug a_html (mkpos 0 (col (n_end (fst h)))) st = Ok (Some CaReset) /\
    forall pos, code_action (T := ts_fixed ps) Debug a_html pos st0 = Ok None.
Proof.
  exists nav_ps, nav_src, nav_st, (nav_state (T := ts_fixed nav_ps) tt nav_src "templates" false nav_vars [(a_html, [])]), (ex 52 63),
    (tk 55 56 "x"), (firstn 5 nav_ps), (skipn 7 nav_ps).
  split; [reflexivity|]. split; [pieces_okay|]. do 2 (split; [split; [reflexivity|split; reflexivity]|]). split; [reflexivity|].
  do 2 (split; [right; vm_compute; auto|]). split; [vm_compute; reflexivity|]. split; [vm_compute; reflexivity|]. intros pos. reflexivity.
Qed.
Print Assumptions C37_reset_refuted.
Definition c37_st : lsp_files c64_ts :=
  nav_state (T := c64_ts) tt c64_src "t" false [(a_html, [])] [(a_html, [ref_id (nd 11 19, "b.html"%string)])].
Example C37_example :
  (exists i, In i [ref_id (nd 11 19, "b.html"%string)] /\ on_id (mkpt 0 12) i) /\
  code_action Debug a_html (mkpos 0 12) c37_st = Ok (Some (CaCreate "b.html")) /\
  code_action Debug a_html (mkpos 0 52) c37_st = Ok (Some CaReset) /\
  code_action Debug a_html (mkpos 0 25) c37_st = Ok None.
Proof.
  split; [eexists; split; [now left|]; split; right; vm_compute; intuition discriminate|]. repeat split; vm_compute; reflexivity.
Qed.

(** ** C66: goto on a template reference opens the file *)
Theorem C66_goto_reference :
  forall T F url b (st : lsp_files T) uri pos tr t pre i post r p u,
    let src := rope_content t in
    let tp := point_of pos in
    holds st uri tr t ->
    no_use_at src (concat (t_captures T QObjects tr src)) tp ->
    stmts_ok src (pre ++ i :: post) -> t_captures T QImports tr src = flat_map cap_stmt (pre ++ i :: post) ->
    Forall (all_before tp) pre -> cursor_in tp i r -> Forall (all_behind tp) post ->
    f_canon F (path_push (cf_templates (ls_config st)) (snd r)) = CanonOk p -> url (file_uri p) = Some u ->
    goto_definition F url b uri pos st = Ok (Some (GScalar (mkloc u (lsp_range pt0 pt0)))).
Proof. intros T. exact (@goto_reference T). Qed.
Print Assumptions C66_goto_reference.
(** [{{ x }}{% include ["a.html", "b.html"] %}], cursor in the second name. *)
Definition inc_src : string := "{{ x }}{% include [""a.html"", ""b.html""] %}".
Definition inc_ps : list piece := [PExpr (ex 0 7); PChain (tk 3 4 "x") []].
Definition inc_stmt : istmt := SInclude (nd 7 42) (nd 10 17) [(nd 19 27, "a.html"%string); (nd 29 37, "b.html"%string)].
Definition inc_ts : ts := ts_all [] (cap_pieces inc_ps) (cap_stmt inc_stmt) [] (mkpt 0 42).
Definition inc_st : lsp_files inc_ts := nav_state (T := inc_ts) tt inc_src "t" false [(a_html, [])] [].
Example C66_example :
  let r := (nd 29 37, "b.html"%string) in
  no_use_at inc_src (cap_pieces inc_ps) (mkpt 0 31) /\ stmts_ok inc_src ([] ++ inc_stmt :: []) /\
  cursor_in (mkpt 0 31) inc_stmt r /\
  goto_definition (fs_with ["t/a.html"; "t/b.html"]%string) Some Debug a_html (mkpos 0 31) inc_st =
    Ok (Some (GScalar (at_pos "file://t/b.html" 0 0))) /\
  goto_definition (fs_with ["t/a.html"; "t/b.html"]%string) Some Debug a_html (mkpos 0 20) inc_st =
    Ok (Some (GScalar (at_pos "file://t/a.html" 0 0))).
Proof.
  split. { exists inc_ps, [], (mkpt 0 7). split; [symmetry; apply app_nil_r|]. split; [|split; [right; vm_compute; auto|]].
           - split; [repeat (apply Forall_cons; [piece_okay|]); apply Forall_nil|]. exists (mkpt 0 1). vm_compute. intuition discriminate.
           - exact I. }
  split. { split; [|cbn; repeat constructor; cbn; intuition discriminate].
           constructor; [|constructor]. split; [discriminate|]. constructor; [quoted_ref|]. constructor; [quoted_ref|constructor]. }
  split. { split; [right; vm_compute; intuition discriminate|]. split; [split; right; vm_compute; intuition discriminate|].
           split; [right; vm_compute; intuition discriminate|].
           exists [(nd 19 27, "a.html"%string)], []. split; [reflexivity|]. split; [|constructor].
           constructor; [|constructor]. split; right; vm_compute; intuition discriminate. }
  split; vm_compute; reflexivity.
Qed.

(** ** C67: accepting a completed name in Visual Studio Code *)
(** What the item tells the editor to write: texts and their ranges. *)
Definition written (i : citem) : list (string * range) :=
  match ci_edit i with
  | Some (CInsertReplace s r _) => [(s, r)]
  | Some (CEdit e) => [(te_text e, te_range e)]
  | None => [(ci_label i, range0)]
  end ++ match ci_additional i with Some l => map (fun e => (te_text e, te_range e)) l | None => [] end.
(** For a typed prefix the item writes nothing at the start of the name and the
    prefix itself over the name: never the label (other editors: C34). *)
Theorem C67_vscode_inserts_label_refuted :
  exists ps src (st : lsp_files (ts_fixed ps)) typed r items i,
    pieces_ok src ps /\ ls_vscode st = true /\ holds st a_html tt (ascii_text src) /\
    completion (T := ts_fixed ps) Debug a_html (mkpos 0 45) (Some TkInvoked) st = Ok (Some (CtIncompleteIdentifier typed r, false)) /\
    do_completion (T := ts_fixed ps) Debug a_html (mkpos 0 45) (Some TkInvoked) st = Ok (Some (map RItem items)) /\
    In i items /\ ci_label i = "user"%string /\ typed = "us"%string /\
    written i = [(EmptyString, mkrange (rstart r) (rstart r)); (typed, r)].
Proof.
  exists cpl_ps, cpl_src, (cpl_st true), "us"%string, (mkrange (mkpos 0 43) (mkpos 0 45)). do 2 eexists.
  split; [pieces_okay|]. split; [reflexivity|]. split; [split; [reflexivity|split; reflexivity]|].
  split; [vm_compute; reflexivity|].
  split. { instantiate (1 := [mkci "user" (Some "Set variable"%string) KVariable
             (Some (CEdit (mkte (mkrange (mkpos 0 43) (mkpos 0 43)) EmptyString)))
             (Some [mkte (mkrange (mkpos 0 43) (mkpos 0 45)) "us"%string]);
             mkci "n" (Some "Backend variable"%string) KVariable None None]). vm_compute. reflexivity. }
  split; [left; reflexivity|]. repeat split.
Qed.
Print Assumptions C67_vscode_inserts_label_refuted.
(** The same for every typed prefix and every offered name of this file. *)
Theorem C67_vscode_writes_prefix :
  forall T b (st : lsp_files T) uri pos ctx ds typed r a,
    knows st uri ds -> ls_vscode st = true -> typed <> EmptyString ->
    completion b uri pos ctx st = Ok (Some (CtIncompleteIdentifier typed r, a)) ->
    exists local back, do_completion b uri pos ctx st = Ok (Some (map RItem (local ++ back))) /\
      (forall n, In n (map ci_label local) <-> exists d, In d ds /\ dc_name d = n /\ offered_at (point_of pos) d /\ wanted typed n) /\
      Forall (fun i => written i = [(EmptyString, mkrange (rstart r) (rstart r)); (typed, r)]) local.
Proof.
  intros T b st uri pos ctx ds typed r a Hk Hv Ht E.
  destruct (do_completion_variables b st uri pos ctx ds _ _ Hk E typed r (or_intror eq_refl)) as (items & D & V).
  destruct V as (local & back & -> & _ & V1 & _ & _ & V2 & _). exists local, back. split; [exact D|]. split; [exact V1|].
  eapply Forall_impl; [|exact (V2 Ht Hv)]. intros i (E1 & E2). unfold written. now rewrite E1, E2.
Qed.
Print Assumptions C67_vscode_writes_prefix.

(** ** C68: goto on an attribute *)
(** Whether goto on [name] of [user.name] opens the definition of [user]
    depends on what follows. *)
Definition at1_src : string := "{{ x + user.name }}".
Definition at1_ps : list piece :=
  [PExpr (ex 0 19); PChain (tk 3 4 "x") []; POp (tk 5 7 "+ "); PChain (tk 7 11 "user") [mkacc (nd 11 12) false (tk 12 16 "name")]].
Definition at2_src : string := "{{ user.name + x }}".
Definition at2_ps : list piece :=
  [PExpr (ex 0 19); PChain (tk 3 7 "user") [mkacc (nd 7 8) false (tk 8 12 "name")]; POp (tk 13 15 "+ "); PChain (tk 15 16 "x") []].
Definition at_st (ps : list piece) (src : string) : lsp_files (ts_fixed ps) :=
  nav_state (T := ts_fixed ps) tt src "templates" false [(a_html, [mkid pt0 (mkpt 0 1) "user" (0, mkpt 0 19) SetVariable []])] [].
Theorem C68_goto_attribute_refuted :
  exists ps1 src1 c1 ps2 src2 c2 name,
    pieces_ok src1 ps1 /\ pieces_ok src2 ps2 /\
    (exists h d, In (PChain h [mkacc d false (tk (c1 - 1) (c1 + 3) name)]) ps1 /\ snd h = "user"%string) /\
    (exists h d, In (PChain h [mkacc d false (tk (c2 - 1) (c2 + 3) name)]) ps2 /\ snd h = "user"%string) /\
    goto_definition (fs_with []) Some Debug a_html (mkpos 0 c1) (at_st ps1 src1) = Ok (Some (GScalar (at_pos a_html 0 1))) /\
    goto_definition (fs_with []) Some Debug a_html (mkpos 0 c2) (at_st ps2 src2) = Ok (Some (GArray [])).
Proof.
  exists at1_ps, at1_src, 13, at2_ps, at2_src, 9, "name"%string.
  split; [pieces_okay|]. split; [pieces_okay|].
  split; [exists (tk 7 11 "user"), (nd 11 12); split; [vm_compute; auto|reflexivity]|].
  split; [exists (tk 3 7 "user"), (nd 7 8); split; [vm_compute; auto|reflexivity]|]. split; vm_compute; reflexivity.
Qed.
Print Assumptions C68_goto_attribute_refuted.
(** Exactly what happens: when the server comes to no other name behind the
    cursor, goto on an attribute is goto on the first name of the chain;
    otherwise it is goto on nothing, which finds no definition of this file and
    elsewhere only names beginning with a dot or empty ones. *)
Theorem C68_goto_attribute_partial :
  forall T F url b (st : lsp_files T) uri pos tr t pre h fs1 fs2 post ds,
    let src := rope_content t in
    let tp := point_of pos in
    let ps := pre ++ PChain h (fs1 ++ fs2) :: post in
    let ahead := name_ahead tp false (flat_map cap_access fs2 ++ cap_pieces post) in
    let name := if ahead then EmptyString else snd h in
    let here := filter (fun fv => heads name (id_name (snd fv))) (other_vars uri (ls_vars st)) in
    holds st uri tr t -> knows st uri ds -> Forall small_decl ds ->
    pieces_ok src ps -> concat (t_captures T QObjects tr src) = cap_pieces ps ->
    fs1 <> [] -> on_tok tp (segment h fs1) -> Forall (behind tp) (cap_pieces post) ->
    (ahead = false -> (exists d, In d ds /\ goto_sees tp (snd h) d) ->
       exists d, latest (goto_sees tp (snd h)) ds d /\
         goto_definition F url b uri pos st = Ok (Some (GScalar (mkloc uri (lsp_range (dc_start d) (dc_end d)))))) /\
    ((ahead = false -> forall d, In d ds -> ~ goto_sees tp (snd h) d) ->
       no_ref_at tp (t_captures T QImports tr src) ->
       Forall (fun c => utf8_text (c_node c) src <> Panic) (concat (t_captures T QImports tr src)) ->
       Forall (fun fv => small_id (snd fv)) (other_vars uri (ls_vars st)) ->
       Forall (fun fv => url (target_name fv) <> None) here ->
       exists locs, goto_definition F url b uri pos st = Ok (Some (GArray locs)) /\ Forall2 (found url) here locs).
Proof.
  intros T F url b st uri pos tr t pre h fs1 fs2 post ds src tp ps ahead name here H1 H2 H3 H4 H5 H6 H7 H8.
  destruct (ident_on_segment b _ tp src pre h fs1 fs2 post H4 H5 H6 H7 H8) as (Ht & s & Q & Ei). fold ahead in Ei.
  destruct (goto_by_ident F url b st uri pos tr t ds s _ H1 H2 H3 Q Ei) as (A & B). split.
  - intros Ea. rewrite Ea in A. now apply A.
  - intros Hno Hr Hx Hs Hu. apply (B name); auto; unfold name; destruct ahead; auto; discriminate.
Qed.
Print Assumptions C68_goto_attribute_partial.
Example C68_example :
  let a := mkacc (nd 11 12) false (tk 12 16 "name") in
  let a2 := mkacc (nd 7 8) false (tk 8 12 "name") in
  on_tok (mkpt 0 13) (segment (tk 7 11 "user") [a]) /\ name_ahead (mkpt 0 13) false (cap_pieces []) = false /\
  on_tok (mkpt 0 9) (segment (tk 3 7 "user") [a2]) /\ name_ahead (mkpt 0 9) false (cap_pieces (skipn 2 at2_ps)) = true /\
  (exists d, In d [decl_of_id (mkid pt0 (mkpt 0 1) "user" (0, mkpt 0 19) SetVariable [])] /\ goto_sees (mkpt 0 9) "user" d) /\
  goto_definition (fs_with []) Some Debug a_html (mkpos 0 9) (at_st at2_ps at2_src) = Ok (Some (GArray [])).
Proof.
  cbv zeta. split; [split; vm_compute; intuition discriminate|]. split; [reflexivity|].
  split; [split; vm_compute; intuition discriminate|]. split; [reflexivity|].
  split; [eexists; split; [now left|]; repeat split; vm_compute; intuition discriminate|]. vm_compute. reflexivity.
Qed.

(** ** C69: what hover says about a name *)
Theorem C69_hover_exact :
  forall T b (st : lsp_files T) uri pos tr t pre h fs1 fs2 post ds,
    let src := rope_content t in
    let tp := point_of pos in
    let ps := pre ++ PChain h (fs1 ++ fs2) :: post in
    holds st uri tr t -> knows st uri ds ->
    pieces_ok src ps -> concat (t_captures T QObjects tr src) = cap_pieces ps ->
    on_tok tp (segment h fs1) -> Forall (behind tp) (cap_pieces post) -> all_small (cap_pieces ps) ->
    exists r, do_hover b uri pos st = Ok r /\
      let s := n_start (fst h) in
      ((exists d, latest (hover_sees s (snd h)) ds d /\ r = Some (DocKind (kind_text (dc_kind d)))) \/
       ((forall d, In d ds -> ~ hover_sees s (snd h) d) /\
        (exists fv, In fv (other_vars uri (ls_vars st)) /\ heads (snd h) (id_name (snd fv)) = true) /\
        r = Some (DocKind "Backend variable")) \/
       ((forall d, In d ds -> ~ hover_sees s (snd h) d) /\
        (forall fv, In fv (other_vars uri (ls_vars st)) -> heads (snd h) (id_name (snd fv)) = false) /\ r = None)).
Proof. intros T. exact (@hover_exact T). Qed.
Print Assumptions C69_hover_exact.
Example C69_example :
  on_tok (mkpt 0 36) (segment (tk 34 35 "x") [mkacc (nd 35 36) false (tk 36 37 "a")]) /\
  Forall (behind (mkpt 0 36)) (cap_pieces (skipn 5 nav_ps)) /\
  do_hover Debug a_html (mkpos 0 36) nav_st = Ok (Some (DocKind "For loop key")) /\
  do_hover Debug a_html (mkpos 0 55) nav_st = Ok (Some (DocKind "Set variable")) /\
  do_hover Debug a_html (mkpos 0 59) nav_st = Ok (Some (DocKind "Backend variable")) /\
  do_hover Debug a_html (mkpos 0 27) nav_st = Ok None.
Proof.
  split; [split; vm_compute; intuition discriminate|]. split; [fa|]. repeat split; vm_compute; reflexivity.
Qed.
(** Hovering a definition: not its own kind.  Here [{% set x = 1 %}] is called
    a backend variable because another template also sets [x]. *)
Theorem C69_hover_on_definition_refuted :
  exists ps src (st : lsp_files (ts_fixed ps)) d,
    pieces_ok src ps /\ holds st a_html tt (ascii_text src) /\ knows st a_html [d] /\
    In (PChain (tk (col (dc_start d)) (col (dc_end d)) (dc_name d)) []) ps /\ dc_kind d = SetVariable /\
    (forall fv, In fv (other_vars a_html (ls_vars st)) -> id_type (snd fv) = SetVariable) /\
    do_hover (T := ts_fixed ps) Debug a_html (mkpos 0 (col (dc_start d))) st = Ok (Some (DocKind "Backend variable")).
Proof.
  exists nav_ps, nav_src,
    (nav_state (T := ts_fixed nav_ps) tt nav_src "templates" false
       [(a_html, [dv "x" 7 8 63 SetVariable]); (b_html, [dv "x" 3 4 63 SetVariable])] []),
    (decl_of_id (dv "x" 7 8 63 SetVariable)).
  split; [pieces_okay|]. split; [split; [reflexivity|split; reflexivity]|]. split; [reflexivity|]. split; [left; reflexivity|].
  split; [reflexivity|]. split; [intros fv [<-|[]]; reflexivity|]. vm_compute. reflexivity.
Qed.
Print Assumptions C69_hover_on_definition_refuted.

(** ** C70: hover on a filter or test shows its documentation *)
Theorem C70_hover_documentation :
  forall T b (st : lsp_files T) uri pos tr t pre p name post,
    let src := rope_content t in
    let tp := point_of pos in
    let ps := pre ++ p :: post in
    holds st uri tr t -> pieces_ok src ps -> concat (t_captures T QObjects tr src) = cap_pieces ps ->
    (exists pipe, p = PFilter pipe name) \/ (exists kw nots, p = PTest kw nots name) ->
    on_tok tp name -> Forall (behind tp) (cap_pieces post) ->
    do_hover b uri pos st = Ok (match p with
      | PFilter _ _ => if str_mem (snd name) filter_names then Some (DocFilter (snd name)) else None
      | _ => if str_mem (snd name) test_names then Some (DocTest (snd name)) else None
      end).
Proof.
  intros T b st uri pos tr t pre p name post src tp ps Hh Hps E Hp Hon Hb.
  destruct Hp as [(pi & ->)|(kw & nots & ->)].
  - exact (@hover_documented T b st uri pos tr t pre _ name _ post Hh Hps E eq_refl eq_refl Hon Hb).
  - exact (@hover_documented T b st uri pos tr t pre _ name _ post Hh Hps E eq_refl eq_refl Hon Hb).
Qed.
Print Assumptions C70_hover_documentation.
Example C70_example :
  do_hover Debug "file:///a.html" (mkpos 0 17) (holding c17_ps c17_src) = Ok (Some (DocFilter "upper")) /\
  do_hover Debug "file:///a.html" (mkpos 0 40) (holding c17_ps c17_src) = Ok (Some (DocTest "defined")).
Proof. split; vm_compute; reflexivity. Qed.

(** ** C71: the file a create action makes *)
(** It is the path looked up for the missing reference, behind three slashes. *)
Theorem C71_created_path :
  forall T F (url : url_parser) (st : lsp_files T) name p u,
    f_canon F (cf_templates (ls_config st)) = CanonOk p ->
    url ("file:///" ++ lookup_path p name)%string = Some u ->
    process_code_actions F url (CaCreate name) st = Ok ([CaCreateFile u], true).
Proof. intros T. exact (@create_file T). Qed.
Print Assumptions C71_created_path.
Example C71_example :
  process_code_actions (fs_with ["srv/t"%string]) Some (CaCreate "a/b.html")
    (server c64_ts "srv/t" []) = Ok ([CaCreateFile "file:///srv/t/a/b.html"], true).
Proof. vm_compute. reflexivity. Qed.
(** A canonical path is absolute, so the URI has four slashes: it is not the
    URI under which the server would look up the created file. *)
Theorem C71_created_uri_refuted :
  exists F dir name u,
    f_canon F dir = CanonOk dir /\ String.prefix "/" dir = true /\
    process_code_actions F Some (CaCreate name) (server c64_ts dir []) = Ok ([CaCreateFile u], true) /\
    u = "file:////srv/t/b.html"%string /\ u <> file_uri (lookup_path dir name).
Proof.
  exists (fs_with ["/srv/t"%string]), "/srv/t"%string, "b.html"%string, "file:////srv/t/b.html"%string.
  repeat split; vm_compute; try reflexivity. discriminate.
Qed.
Print Assumptions C71_created_uri_refuted.

(** ** C72: "defined in another file" *)
(** A use reported so although this is the only file that mentions the name. *)
Theorem C72_defined_elsewhere_refuted :
  exists (T : ts) (tr : tree T) vars ps use es,
    pieces_ok blk_src ps /\ concat (t_captures T QObjects tr blk_src) = cap_pieces ps /\
    map fst vars = [a_html] /\
    search_errors T (fs_with []) Debug tr blk_src vars a_html "templates" Template false = Ok (Some es) /\
    In (DefinedSomewhere, use_id (use, [])) es.
Proof.
  exists (ts_fixed blk_ps), tt, blk_vars, blk_ps, (tk 20 25 "title"). eexists.
  split; [pieces_okay|]. split; [vm_compute; reflexivity|]. split; [reflexivity|].
  split; [vm_compute; reflexivity|]. vm_compute. repeat (first [left; reflexivity|right]).
Qed.
Print Assumptions C72_defined_elsewhere_refuted.
(** What holds of every report, whatever was parsed: another file defines the
    name, or this file has a block of that name.  Missing: the second case,
    which is the witness above. *)
Theorem C72_defined_elsewhere_partial :
  forall T F b tr src vars file dir lang ig es i ids,
    search_errors T F b tr src vars file dir lang ig = Ok (Some es) -> In (DefinedSomewhere, i) es ->
    NoDup (map fst vars) -> sget file vars = Some ids ->
    (exists fv, In fv (other_vars file vars) /\ id_name (snd fv) = id_name i) \/
    (exists v, In v ids /\ id_name v = id_name i /\ id_type v = TemplateBlock).
Proof. exact elsewhere_or_block. Qed.
Print Assumptions C72_defined_elsewhere_partial.
Example C72_example :
  let vars := [(a_html, nav_ids); (b_html, [dv "y" 3 4 63 SetVariable])] in
  sget a_html vars = Some nav_ids /\ NoDup (map fst vars) /\
  search_errors (ts_fixed nav_ps) (fs_with []) Debug tt nav_src vars a_html "t" Template false =
    Ok (Some [(Undefined, use_id (tk 27 28 "l", [])); (DefinedSomewhere, use_id (tk 59 60 "y", []))]).
Proof.
  split; [reflexivity|]. split; [repeat constructor; cbn; intuition discriminate|]. vm_compute. reflexivity.
Qed.

(** ** C73: hover, goto and linting agree on names of other files *)
(** [{{ y }}] with [y.z] in another file: hover and goto find it, linting
    reports [y] as undefined. *)
Definition y_src : string := "{{ y }}".
Definition y_ps : list piece := [PExpr (ex 0 7); PChain (tk 3 4 "y") []].
Definition y_vars : smap (list identifier) := [(a_html, []); (b_html, [dv "y.z" 3 6 9 BackendVariable])].
Theorem C73_other_files_agree_refuted :
  exists ps src (st : lsp_files (ts_fixed ps)) u es l,
    pieces_ok src ps /\ holds st a_html tt (ascii_text src) /\ In (PChain u []) ps /\
    do_hover (T := ts_fixed ps) Debug a_html (mkpos 0 (col (n_start (fst u)))) st = Ok (Some (DocKind "Backend variable")) /\
    goto_definition (T := ts_fixed ps) (fs_with []) Some Debug a_html (mkpos 0 (col (n_start (fst u)))) st = Ok (Some (GArray [l])) /\
    search_errors (ts_fixed ps) (fs_with []) Debug tt src (ls_vars st) a_html "templates" Template false = Ok (Some es) /\
    In (Undefined, use_id (u, [])) es.
Proof.
  exists y_ps, y_src, (nav_state (T := ts_fixed y_ps) tt y_src "templates" false y_vars []), (tk 3 4 "y"). do 2 eexists.
  split; [pieces_okay|]. split; [split; [reflexivity|split; reflexivity]|]. split; [vm_compute; auto|].
  split; [vm_compute; reflexivity|]. split; [vm_compute; reflexivity|]. split; [vm_compute; reflexivity|]. vm_compute. auto.
Qed.
Print Assumptions C73_other_files_agree_refuted.
(** What holds: for a name this file does not define (blocks aside), goto and
    hover look for a variable of another file whose first segment is the name,
    linting for one whose whole name it is.  When such a variable has no dotted
    name, the use is reported as defined elsewhere and not as undefined; when
    no file has a variable of exactly that name, it is reported as undefined.
    Missing: the variables with dotted names, the witness above. *)
Theorem C73_other_files_agree_partial :
  forall T F b (st : lsp_files T) uri tr src dir ps tail ds u,
    pieces_ok src ps -> concat (t_captures T QObjects tr src) = cap_pieces ps ++ tail -> stops tail ->
    Forall (fun c => utf8_text (c_node c) src <> Panic) (concat (t_captures T QImports tr src)) ->
    knows st uri ds -> In u (chains ps) -> (forall d, In d ds -> ~ means (snd (fst u)) d) ->
    exists es, search_errors T F b tr src (ls_vars st) uri dir Template false = Ok (Some es) /\
      (forall fv, In fv (other_vars uri (ls_vars st)) ->
         heads (snd (fst u)) (id_name (snd fv)) = true -> has_dot (id_name (snd fv)) = false ->
         In (DefinedSomewhere, use_id u) es /\ ~ In (Undefined, use_id u) es) /\
      ((forall fv, In fv (all_vars (ls_vars st)) -> id_name (snd fv) <> snd (fst u)) ->
         In (Undefined, use_id u) es /\ ~ In (DefinedSomewhere, use_id u) es).
Proof.
  intros T F b st uri tr src dir ps tail ds u H1 H2 H3 H4 H5 H6 H7.
  destruct (elsewhere_verdict F b st uri tr src dir ps tail ds u H1 H2 H3 H4 H5 H6 H7) as (es & E & A & B).
  exists es. split; [exact E|]. split.
  - intros fv Hfv Hh Hd. apply heads_no_dot in Hh; [|exact Hd].
    assert (Hx : exists fv, In fv (all_vars (ls_vars st)) /\ id_name (snd fv) = snd (fst u)).
    { apply indexed_iff. rewrite <- Hh. now apply other_vars_indexed with (uri := uri). }
    split; [now apply (A Hx)|]. intros Hu. apply (A Hx) in Hu. discriminate.
  - intros Hn. assert (Hx : ~ exists fv, In fv (all_vars (ls_vars st)) /\ id_name (snd fv) = snd (fst u)).
    { intros (fv & Hfv & Ef). exact (Hn fv Hfv Ef). }
    split; [now apply (B Hx)|]. intros Hu. apply (B Hx) in Hu. discriminate.
Qed.
Print Assumptions C73_other_files_agree_partial.
(** With [y] itself in the other file, and with nothing there. *)
Example C73_example :
  let other := [(a_html, []); (b_html, [dv "y.z" 3 6 9 BackendVariable; dv "y" 12 13 20 BackendVariable])] in
  pieces_ok y_src y_ps /\ In (tk 3 4 "y", []) (chains y_ps) /\
  heads "y" "y" = true /\ has_dot "y" = false /\ heads "y" "y.z" = true /\ has_dot "y.z" = true /\
  search_errors (ts_fixed y_ps) (fs_with []) Debug tt y_src other a_html "t" Template false =
    Ok (Some [(DefinedSomewhere, use_id (tk 3 4 "y", []))]) /\
  search_errors (ts_fixed y_ps) (fs_with []) Debug tt y_src [(a_html, [])] a_html "t" Template false =
    Ok (Some [(Undefined, use_id (tk 3 4 "y", []))]).
Proof.
  cbv zeta. split; [pieces_okay|]. split; [vm_compute; auto|]. repeat (split; [reflexivity|]). split; vm_compute; reflexivity.
Qed.
