(** * PropQueries2: properties C114 and C115 (goto, hover, completion and
    diagnostics of a template, from its syntax tree). *)
From Verif Require Import Base RString Utf8 Rope Types Captures.
From Verif Require Import MDefinition MObjects MTemplates MSearchErrors MLspFiles MLspTask MQueries.
From Verif Require Import SpecFiles SpecScope SpecScope2 SpecObjects SpecObjects2 SpecLint SpecNav SpecQueries SpecQueries2 SpecQueries4.
From Verif Require Import PLint2 PQueries7 PQueries10 PropObjects PropLint PropQueries.

(** ** C114: goto, hover and completion, from the tree *)
(** After opening or saving a template the server holds what its tree says. *)
Theorem C114_open :
  forall parse edit F b uri t tr tp ps sts (s : lsp_files (ts_with parse edit)),
    file_ext uri = Some Template -> scalars t -> ls_ignore s = false ->
    parse PJinja (encode t) (sget uri (ls_tt s)) = Some tr ->
    on_characters t tr -> depicts (encode t) tr tp ps sts -> well_placed tr -> plain_ends tp ->
    exists s' e1,
      did_open F b uri t false s =
        Ok (s', Some [(uri, e1 ++ missing_reports F (cf_templates (ls_config s)) sts)]) /\
      reported (tallied (n_end (s_node tr)) tp) (indexed (ls_vars s')) (chains ps) e1 /\
      (forall f vs, f <> uri -> In (f, vs) (ls_vars s') <-> In (f, vs) (ls_vars s)) /\
      shown s' uri t tr tp ps sts.
Proof. exact open_shown. Qed.
Print Assumptions C114_open.
Theorem C114_save :
  forall parse edit F b uri t tr tp ps sts (s : lsp_files (ts_with parse edit)),
    file_ext uri = Some Template -> scalars t -> ls_ignore s = false ->
    sget uri (ls_docs s) = Some t -> sget uri (ls_tt s) = Some tr ->
    on_characters t tr -> depicts (encode t) tr tp ps sts -> well_placed tr -> plain_ends tp ->
    exists s' e1,
      did_save F b uri s =
        Ok (s', Some [(uri, e1 ++ missing_reports F (cf_templates (ls_config s)) sts)]) /\
      reported (tallied (n_end (s_node tr)) tp) (indexed (ls_vars s')) (chains ps) e1 /\
      (forall f vs, f <> uri -> In (f, vs) (ls_vars s') <-> In (f, vs) (ls_vars s)) /\
      shown s' uri t tr tp ps sts.
Proof. exact save_shown. Qed.
Print Assumptions C114_save.
(** Goto on the first name of a chain leads to the latest visible definition. *)
Theorem C114_goto :
  forall parse edit (s : lsp_files (ts_with parse edit)) uri t tr tp ps sts,
    shown s uri t tr tp ps sts ->
    let ds := tallied (n_end (s_node tr)) tp in
    forall F url b h fs pos, In (h, fs) (chains ps) -> cursor_on tr (point_of pos) (fst h) ->
      (exists d, In d ds /\ goto_sees (point_of pos) (snd h) d) ->
      exists d, latest (goto_sees (point_of pos) (snd h)) ds d /\
        goto_definition F url b uri pos s = Ok (Some (GScalar (mkloc uri (lsp_range (dc_start d) (dc_end d))))).
Proof. exact tree_goto. Qed.
Print Assumptions C114_goto.
(** Without one, to every variable of the other files that starts with the name. *)
Theorem C114_goto_elsewhere :
  forall parse edit (s : lsp_files (ts_with parse edit)) uri t tr tp ps sts,
    shown s uri t tr tp ps sts ->
    let ds := tallied (n_end (s_node tr)) tp in
    forall F url b h fs pos,
      let here := filter (fun fv => heads (snd h) (id_name (snd fv))) (other_vars uri (ls_vars s)) in
      In (h, fs) (chains ps) -> cursor_on tr (point_of pos) (fst h) -> no_string_at tr (point_of pos) ->
      (forall d, In d ds -> ~ goto_sees (point_of pos) (snd h) d) ->
      Forall (fun fv => small_id (snd fv)) (other_vars uri (ls_vars s)) -> Forall (fun fv => url (target_name fv) <> None) here ->
      exists locs, goto_definition F url b uri pos s = Ok (Some (GArray locs)) /\ Forall2 (found url) here locs.
Proof. exact tree_goto_else. Qed.
Print Assumptions C114_goto_elsewhere.
(** Hover on any name of a chain tells what its first name is. *)
Theorem C114_hover :
  forall parse edit (s : lsp_files (ts_with parse edit)) uri t tr tp ps sts,
    shown s uri t tr tp ps sts ->
    let ds := tallied (n_end (s_node tr)) tp in
    forall b h fs1 fs2 pos, In (h, fs1 ++ fs2) (chains ps) -> cursor_on tr (point_of pos) (fst (segment h fs1)) ->
      exists r, do_hover b uri pos s = Ok r /\
        ((exists d, latest (hover_sees (n_start (fst h)) (snd h)) ds d /\ r = Some (DocKind (kind_text (dc_kind d)))) \/
         ((forall d, In d ds -> ~ hover_sees (n_start (fst h)) (snd h) d) /\
          (exists fv, In fv (other_vars uri (ls_vars s)) /\ heads (snd h) (id_name (snd fv)) = true) /\
          r = Some (DocKind "Backend variable")) \/
         ((forall d, In d ds -> ~ hover_sees (n_start (fst h)) (snd h) d) /\
          (forall fv, In fv (other_vars uri (ls_vars s)) -> heads (snd h) (id_name (snd fv)) = false) /\ r = None)).
Proof. exact tree_hover. Qed.
Print Assumptions C114_hover.
(** Completion between the words of an expression offers the visible names. *)
Theorem C114_completion :
  forall parse edit (s : lsp_files (ts_with parse edit)) uri t tr tp ps1 ps2 sts b pos ctx,
    shown s uri t tr tp (ps1 ++ ps2) sts -> ctx = Some TkInvoked \/ ctx = Some TkTriggerCharacter ->
    between (point_of pos) ps1 ps2 -> inside ps1 (point_of pos) ->
    exists items, do_completion b uri pos ctx s = Ok (Some (map RItem items)) /\
      variables_offered s uri (tallied (n_end (s_node tr)) tp) (point_of pos) EmptyString range0 items.
Proof. exact tree_complete. Qed.
Print Assumptions C114_completion.

(** Without branches and with plain headers the definitions are those of Jinja's
    blocks. *)
Theorem C114_definitions :
  forall root_end tp, straight tp -> plain_headers tp -> tallied root_end tp = introduced root_end tp.
Proof. exact tallied_introduced. Qed.
Print Assumptions C114_definitions.

(** ** C115: diagnostics agree with goto and hover *)
Theorem C115_open :
  forall parse edit F b uri t tr tp ps sts (s : lsp_files (ts_with parse edit)),
    file_ext uri = Some Template -> scalars t -> ls_ignore s = false ->
    parse PJinja (encode t) (sget uri (ls_tt s)) = Some tr ->
    on_characters t tr -> depicts (encode t) tr tp ps sts -> well_placed tr -> plain_ends tp ->
    exists s' e, did_open F b uri t false s = Ok (s', Some [(uri, e)]) /\
      forall h fs, In (h, fs) (chains ps) ->
        answers_agree s' uri tr (tallied (n_end (s_node tr)) tp) e h fs.
Proof. exact open_agrees. Qed.
Print Assumptions C115_open.
Theorem C115_save :
  forall parse edit F b uri t tr tp ps sts (s : lsp_files (ts_with parse edit)),
    file_ext uri = Some Template -> scalars t -> ls_ignore s = false ->
    sget uri (ls_docs s) = Some t -> sget uri (ls_tt s) = Some tr ->
    on_characters t tr -> depicts (encode t) tr tp ps sts -> well_placed tr -> plain_ends tp ->
    exists s' e, did_save F b uri s = Ok (s', Some [(uri, e)]) /\
      forall h fs, In (h, fs) (chains ps) ->
        answers_agree s' uri tr (tallied (n_end (s_node tr)) tp) e h fs.
Proof. exact save_agrees. Qed.
Print Assumptions C115_save.

(** ** Example: the template of C103 *)
Definition c114_server : lsp_files (always c103_tree) := server (always c103_tree) "templates" [(b_html, [var "l" 3 4])].
Definition c114_after : lsp_files (always c103_tree) :=
  match did_open (fs_with []) Debug a_html (ascii_text c103_src) false c114_server with Ok (s, _) => s | Panic => c114_server end.
Ltac before := first [right; split; [reflexivity|first [vm_compute; reflexivity|vm_compute; discriminate]]|left; vm_compute; reflexivity].
(** A condition on the nodes of certain kinds, at a node of another kind or by [tac]. *)
Ltac aside tac := intros K; first [tac|exfalso; vm_compute in K; repeat (destruct K as [K|K]; [discriminate|]); exact K].
Lemma c114_placed : well_placed c103_tree.
Proof.
  split; [|split].
  - repeat (apply Forall_cons; [split; [before|split; [repeat (apply FOP_cons; [repeat (apply Forall_cons; [before|]); apply Forall_nil|]); apply FOP_nil|
      repeat (apply Forall_cons; [split; before|]); apply Forall_nil]]|]); apply Forall_nil.
  - repeat (apply Forall_cons; [aside ltac:(split; [reflexivity|before])|]); apply Forall_nil.
  - repeat (apply Forall_cons; [repeat split; vm_compute; reflexivity|]); apply Forall_nil.
Qed.
Lemma c114_characters : on_characters (ascii_text c103_src) c103_tree.
Proof. whole. Qed.
Definition c114_ps1 : list piece :=
  [PChain (wt 10 29 30 "i") []; PChain (wt 12 34 35 "l") []; PExpr (xn 14 38 47);
   PChain (wt 16 41 42 "i") [mkacc (nn 17 42 43) false (wt 18 43 44 "a")]; PExpr (xn 20 47 55)].
Definition c114_ps2 : list piece := [PExpr (xn 28 67 74); PChain (wt 30 70 71 "i") []].
Definition c114_url : url_parser := fun s => Some s.
Definition says (r : res (option doc)) (d : option doc) : Prop := match r with Ok d' => d' = d | Panic => False end.
Definition offers_labels (r : res (option (list ritem))) (ls : list string) : Prop :=
  match r with Ok (Some l) => map (fun i => match i with RItem c => ci_label c | RDoc n _ => n | RSnippet n _ _ => n end) l = ls | _ => False end.
Definition c114_goto (c : N) : res (option goto_response) := goto_definition (fs_with []) c114_url Debug a_html (mkpos 0 c) c114_after.

(** In [{% for i in l %}{{ i.a }}{{ 42 }}{% endfor %}{{ i }}]: the [i] of the loop
    is found from inside the loop, not from behind it; [l] is another file's. *)
Example C114_example :
  shown c114_after a_html (ascii_text c103_src) c103_tree c103_tpl c103_ps c103_sts /\
  In (wt 16 41 42 "i", [mkacc (nn 17 42 43) false (wt 18 43 44 "a")]) (chains c103_ps) /\
  cursor_on c103_tree (mkpt 0 41) (nn 16 41 42) /\
  c114_goto 41 = Ok (Some (GScalar (mkloc a_html (lsp_range (mkpt 0 29) (mkpt 0 30))))) /\
  cursor_on c103_tree (mkpt 0 34) (nn 12 34 35) /\ no_string_at c103_tree (mkpt 0 34) /\
  c114_goto 34 = Ok (Some (GArray [mkloc b_html (lsp_range (mkpt 0 3) (mkpt 0 4))])) /\
  c114_goto 70 = Ok (Some (GArray [])) /\
  do_hover Debug a_html (mkpos 0 43) c114_after = Ok (Some (DocKind (kind_text ForLoopKey))) /\
  do_hover Debug a_html (mkpos 0 34) c114_after = Ok (Some (DocKind "Backend variable")) /\
  do_hover Debug a_html (mkpos 0 70) c114_after = Ok None /\
  c103_ps = c114_ps1 ++ c114_ps2 /\ between (mkpt 0 53) c114_ps1 c114_ps2 /\ inside c114_ps1 (mkpt 0 53) /\
  offers_labels (do_completion Debug a_html (mkpos 0 53) (Some TkInvoked) c114_after) ["i"]%string.
Proof.
  split.
  { destruct (C114_open (fun _ _ _ => Some c103_tree) (fun t _ => t) (fs_with []) Debug a_html (ascii_text c103_src) c103_tree c103_tpl c103_ps c103_sts c114_server)
      as (s' & e1 & E & _ & _ & H); try reflexivity.
    - repeat constructor.
    - exact c114_characters.
    - exact c103_depicts.
    - exact c114_placed.
    - cbn. repeat split; repeat constructor.
    - replace c114_after with s'; [exact H|]. unfold c114_after, always. now rewrite E. }
  split; [right; right; now left|].
  split; [split; [split; before|repeat (apply Forall_cons; [aside ltac:(vm_compute; discriminate)|]); apply Forall_nil]|].
  split; [vm_compute; reflexivity|].
  split; [split; [split; before|repeat (apply Forall_cons; [aside ltac:(vm_compute; discriminate)|]); apply Forall_nil]|].
  split; [repeat (apply Forall_cons; [intros K; first [discriminate K|intros [_ [X|[_ X]]]; [discriminate X|vm_compute in X; now apply X]]|]); apply Forall_nil|].
  do 5 (split; [vm_compute; reflexivity|]). split; [reflexivity|].
  split; [split; [before|split; [repeat (apply Forall_cons; [before|]); apply Forall_nil|before]]|].
  split; [|vm_compute; reflexivity].
  exists [PChain (wt 10 29 30 "i") []; PChain (wt 12 34 35 "l") []; PExpr (xn 14 38 47); PChain (wt 16 41 42 "i") [mkacc (nn 17 42 43) false (wt 18 43 44 "a")]], (xn 20 47 55), [].
  split; [reflexivity|]. split; [constructor|before].
Qed.
(** Agreement does not depend on the extents being right: with [else] the loop
    variable reaches the end of the file (C12); its use behind the loop is not
    reported, and goto and hover find the loop. *)
Definition c115_src : string := "{% for i in l %}{% else %}{% endfor %}{{ i }}".
Definition c115_tree : stree :=
 (SN "source_file" (nn 1 0 45)
  [("", SN "statement" (nn 2 0 16) [on "statement_begin" 3 0 2; on "keyword" 4 3 6; on "identifier" 5 7 8; on "keyword" 6 9 11; on "identifier" 7 12 13; on "statement_end" 8 14 16]);
   ("", SN "statement" (nn 9 16 26) [on "statement_begin" 10 16 18; on "keyword" 11 19 23; on "statement_end" 12 24 26]);
   ("", SN "statement" (nn 13 26 38) [on "statement_begin" 14 26 28; on "keyword" 15 29 35; on "statement_end" 16 36 38]);
   ("", SN "expression" (xn 17 38 45) [on "expression_begin" 18 38 40; on "identifier" 19 41 42; on "expression_end" 20 43 45])])%string.
Definition c115_tpl : tpl :=
  TBlock (HFor (nn 4 3 6) (wt 5 7 8 "i") [] [NId (wt 7 12 13 "l")]) (nn 3 0 2) (nn 8 14 16)
    (TBranch (wt 11 19 23 "else") [] (nn 10 16 18) (nn 12 24 26) TNil)
    (mkend (nn 15 29 35) [] (nn 14 26 28) (nn 16 36 38))
    (TExpr [NId (wt 19 41 42 "i")] TNil).
Definition c115_ps : list piece := [PChain (wt 5 7 8 "i") []; PChain (wt 7 12 13 "l") []; PExpr (xn 17 38 45); PChain (wt 19 41 42 "i") []].
Lemma c115_depicts : depicts c115_src c115_tree c115_tpl c115_ps [].
Proof.
  constructor.
  - unfold root_kind. cbn. intuition discriminate.
  - unfold told_apart. vm_compute. repeat constructor; cbn; intuition discriminate.
  - vm_compute. repeat constructor; discriminate.
  - vm_compute. repeat constructor; discriminate.
  - cbn. repeat split; try discriminate; repeat constructor; try discriminate.
  - apply told_of. vm_compute. reflexivity.
  - split; [repeat (apply Forall_cons; [piece_okay|]); apply Forall_nil|exists (mkpt 0 1); split; [right; cbn; lia|]; vm_compute; intuition discriminate].
  - repeat constructor.
  - exact (spoken_of c115_src (preorder c115_tree)).
  - constructor.
  - cbn [c115_tree s_children map snd].
    refine (LdStmt c115_src (nn 2 0 16) (nn 3 0 2) [on "keyword" 4 3 6; on "identifier" 5 7 8; on "keyword" 6 9 11; on "identifier" 7 12 13] (nn 8 14 16) "" "" _ None [] _ _ _);
      [now apply innerb_ok|apply LkNone; vm_compute; repeat constructor; intuition discriminate|].
    refine (LdStmt c115_src (nn 9 16 26) (nn 10 16 18) [on "keyword" 11 19 23] (nn 12 24 26) "" "" _ None [] _ _ _);
      [now apply innerb_ok|apply LkNone; vm_compute; repeat constructor; intuition discriminate|].
    refine (LdStmt c115_src (nn 13 26 38) (nn 14 26 28) [on "keyword" 15 29 35] (nn 16 36 38) "" "" _ None [] _ _ _);
      [now apply innerb_ok|apply LkNone; vm_compute; repeat constructor; intuition discriminate|].
    apply LdOther; [now apply innerb_ok|constructor].
Qed.
Lemma c115_placed : well_placed c115_tree.
Proof.
  split; [|split].
  - repeat (apply Forall_cons; [split; [before|split; [repeat (apply FOP_cons; [repeat (apply Forall_cons; [before|]); apply Forall_nil|]); apply FOP_nil|
      repeat (apply Forall_cons; [split; before|]); apply Forall_nil]]|]); apply Forall_nil.
  - repeat (apply Forall_cons; [aside ltac:(split; [reflexivity|before])|]); apply Forall_nil.
  - repeat (apply Forall_cons; [repeat split; vm_compute; reflexivity|]); apply Forall_nil.
Qed.
Definition c115_run : option (errors * res (option goto_response) * res (option doc)) :=
  match did_open (fs_with []) Debug a_html (ascii_text c115_src) false (server (always c115_tree) "t" []) with
  | Ok (s, Some [(_, e)]) =>
      Some (e, goto_definition (fs_with []) c114_url Debug a_html (mkpos 0 41) s, do_hover Debug a_html (mkpos 0 41) s)
  | _ => None
  end.
Example C115_example :
  file_ext a_html = Some Template /\ scalars (ascii_text c115_src) /\ ls_ignore (server (always c115_tree) "t" []) = false /\
  encode (ascii_text c115_src) = c115_src /\ on_characters (ascii_text c115_src) c115_tree /\
  depicts c115_src c115_tree c115_tpl c115_ps [] /\ well_placed c115_tree /\ plain_ends c115_tpl /\
  In (wt 19 41 42 "i", []) (chains c115_ps) /\ cursor_on c115_tree (mkpt 0 41) (nn 19 41 42) /\
  map (fun d => (dc_name d, col (dc_until d))) (tallied (mkpt 0 45) c115_tpl) = [("i"%string, 45)] /\
  map (fun d => (dc_name d, col (dc_until d))) (introduced (mkpt 0 45) c115_tpl) = [("i"%string, 26)] /\
  c115_run = Some ([(Undefined, use_id (wt 7 12 13 "l", []))], Ok (Some (GScalar (mkloc a_html (lsp_range (mkpt 0 7) (mkpt 0 8))))),
                   Ok (Some (DocKind (kind_text ForLoopKey)))).
Proof.
  split; [reflexivity|]. split; [repeat constructor|]. split; [reflexivity|]. split; [reflexivity|]. split; [whole|]. split; [exact c115_depicts|].
  split; [exact c115_placed|]. split; [cbn; repeat split; repeat constructor|]. split; [right; right; now left|].
  split; [split; [split; before|repeat (apply Forall_cons; [aside ltac:(vm_compute; discriminate)|]); apply Forall_nil]|].
  split; [reflexivity|]. split; [reflexivity|]. vm_compute. reflexivity.
Qed.
