(** * PropQueries4: properties C117 and C118 (template references, filters and
    tests under the cursor, from syntax trees). *)
From Verif Require Import Base RString Utf8 Rope Types Captures.
From Verif Require Import MDefinition MObjects MTemplates MSearchErrors MLspFiles MLspTask MChannels MQueries.
From Verif Require Import SpecText SpecFiles SpecScope SpecScope2 SpecObjects SpecObjects2 SpecLint SpecNav SpecQueries SpecQueries2 SpecQueries4 SpecChannels SpecServer SpecClient SpecQueries5 SpecQueries6.
From Verif Require Import PQueries7 PQueries10 PQueries11 PQueries12 PNav3 PropObjects PropLint PropQueries PropQueries2 PropQueries3 PropFiles PropChannels.

(** ** C117: references under the cursor *)
(** After a template was opened, for a reference with a proper name and the cursor
    between its quotes: if the reference is reported, goto leads nowhere; if it
    stands for a file, it is not reported and goto leads there. *)
Theorem C117_open :
  forall parse edit F url b uri t tr tp ps sts (s : lsp_files (ts_with parse edit)),
    file_ext uri = Some Template -> scalars t -> ls_ignore s = false ->
    parse PJinja (encode t) (sget uri (ls_tt s)) = Some tr ->
    on_characters t tr -> depicts (encode t) tr tp ps sts -> well_placed tr -> plain_ends tp ->
    exists s' e, did_open F b uri t false s = Ok (s', Some [(uri, e)]) /\
      forall i r ps1 ps2 pos, In i sts -> In r (refs i) -> proper_name (snd r) -> ps = ps1 ++ ps2 ->
        in_quotes (point_of pos) r -> between (point_of pos) ps1 ps2 ->
        (In (TemplateNotFound, ref_id r) e -> named_vars uri s' ->
           goto_definition F url b uri pos s' = Ok (Some (GArray []))) /\
        (forall u, stands_for F url (cf_templates (ls_config s)) (snd r) u ->
           ~ In (TemplateNotFound, ref_id r) e /\
           goto_definition F url b uri pos s' = Ok (Some (GScalar (mkloc u range0)))).
Proof. exact @ref_open. Qed.
Print Assumptions C117_open.
Theorem C117_save :
  forall parse edit F url b uri t tr tp ps sts (s : lsp_files (ts_with parse edit)),
    file_ext uri = Some Template -> scalars t -> ls_ignore s = false ->
    sget uri (ls_docs s) = Some t -> sget uri (ls_tt s) = Some tr ->
    on_characters t tr -> depicts (encode t) tr tp ps sts -> well_placed tr -> plain_ends tp ->
    exists s' e, did_save F b uri s = Ok (s', Some [(uri, e)]) /\
      forall i r ps1 ps2 pos, In i sts -> In r (refs i) -> proper_name (snd r) -> ps = ps1 ++ ps2 ->
        in_quotes (point_of pos) r -> between (point_of pos) ps1 ps2 ->
        (In (TemplateNotFound, ref_id r) e -> named_vars uri s' ->
           goto_definition F url b uri pos s' = Ok (Some (GArray []))) /\
        (forall u, stands_for F url (cf_templates (ls_config s)) (snd r) u ->
           ~ In (TemplateNotFound, ref_id r) e /\
           goto_definition F url b uri pos s' = Ok (Some (GScalar (mkloc u range0)))).
Proof. exact @ref_save. Qed.
Print Assumptions C117_save.
(** In every execution, goto on a reference of the text in the editor ([a] are the
    messages before the request). *)
Theorem C117_session :
  forall parse edit url b, parse_total (ts_with parse edit) ->
  forall l (y : sys (ts_with parse edit)) sy a F c rid, exec url b (sys0 (ts_with parse edit)) l = Some y -> y_task y = TIdle sy ->
  forall uri t tr tp ps1 ps2 sts i r pos,
    file_ext uri = Some Template -> editor_text uri (map fst a) t -> conveys parse t tr tp (ps1 ++ ps2) sts ->
    y_taken y = a ++ (MGoto rid uri pos, F) :: c ->
    In i sts -> In r (refs i) -> proper_name (snd r) -> in_quotes (point_of pos) r -> between (point_of pos) ps1 ps2 ->
    exists s x, replay url b (task0 (ts_with parse edit)) a = Ok (s, x) /\
      let dir := cf_templates (ls_config (tk_data s)) in
      (forall u, stands_for F url dir (snd r) u -> In (rid, RGoto (GScalar (mkloc u range0))) (y_replies y)) /\
      ((forall u, ~ stands_for F url dir (snd r) u) -> named_vars uri (tk_data s) -> In (rid, RGoto (GArray [])) (y_replies y)).
Proof. exact @asked_reference. Qed.
Print Assumptions C117_session.
(** Completion between the quotes offers the known templates whose URIs contain
    what is typed. *)
Theorem C117_completion :
  forall parse edit (s : lsp_files (ts_with parse edit)) uri t tr tp ps1 ps2 sts,
    displayed s uri t tr tp (ps1 ++ ps2) sts ->
    forall i r pos, In i sts -> In r (refs i) -> in_quotes (point_of pos) r -> between (point_of pos) ps1 ps2 ->
    forall b ctx typed rest, let d := strip_dots (cf_templates (ls_config s)) in
    ctx = Some TkInvoked \/ ctx = Some TkTriggerCharacter -> outside ps1 (point_of pos) ->
    plain_line r -> snd r = (typed ++ rest)%string -> col (point_of pos) = col (n_start (fst r)) + 1 + slen typed ->
    exists n, quoted_prefix typed (snd r) n /\
      ((forall u, In u (map fst (ls_tt s)) -> sought n u -> exists label, lies_below d u label) ->
       exists us items, do_completion b uri pos ctx s = Ok (Some (map RItem items)) /\
         (forall u, In u us <-> In u (map fst (ls_tt s)) /\ sought n u) /\ (NoDup (map fst (ls_tt s)) -> NoDup us) /\
         Forall2 (template_for d (ls_vscode s) (lsp_range (n_start (fst r)) (n_end (fst r)))) us items).
Proof. exact @offer_ref. Qed.
Print Assumptions C117_completion.
Theorem C117_completion_session :
  forall parse edit url b, parse_total (ts_with parse edit) ->
  forall l (y : sys (ts_with parse edit)) sy a F c rid, exec url b (sys0 (ts_with parse edit)) l = Some y -> y_task y = TIdle sy ->
  forall uri t tr tp ps1 ps2 sts i r pos ctx typed rest,
    file_ext uri = Some Template -> editor_text uri (map fst a) t -> conveys parse t tr tp (ps1 ++ ps2) sts ->
    y_taken y = a ++ (MCompletion rid uri pos ctx, F) :: c ->
    In i sts -> In r (refs i) -> in_quotes (point_of pos) r -> between (point_of pos) ps1 ps2 ->
    ctx = Some TkInvoked \/ ctx = Some TkTriggerCharacter -> outside ps1 (point_of pos) ->
    plain_line r -> snd r = (typed ++ rest)%string -> col (point_of pos) = col (n_start (fst r)) + 1 + slen typed ->
    exists s x n, replay url b (task0 (ts_with parse edit)) a = Ok (s, x) /\ quoted_prefix typed (snd r) n /\
      let d := strip_dots (cf_templates (ls_config (tk_data s))) in
      ((forall u, In u (map fst (ls_tt (tk_data s))) -> sought n u -> exists label, lies_below d u label) ->
       exists us items, In (rid, RCompletion (map RItem items)) (y_replies y) /\
         (forall u, In u us <-> In u (map fst (ls_tt (tk_data s))) /\ sought n u) /\
         (NoDup (map fst (ls_tt (tk_data s))) -> NoDup us) /\
         Forall2 (template_for d (ls_vscode (tk_data s)) (lsp_range (n_start (fst r)) (n_end (fst r)))) us items).
Proof. exact @asked_offer. Qed.
Print Assumptions C117_completion_session.

(** [{{ x |upper }}{% include ["b.html", "c.html"] %}], where only [c.html] exists. *)
Definition c117_src : string := "{{ x |upper }}{% include [""b.html"", ""c.html""] %}".
Definition c117_tree : stree :=
 (SN "source_file" (nn 1 0 48)
  [("", SN "expression" (xn 2 0 14) [on "expression_begin" 3 0 2; on "identifier" 4 3 4; on "operator" 5 5 6; on "identifier" 6 6 11; on "expression_end" 7 12 14]);
   ("", SN "statement" (nn 8 14 48) [on "statement_begin" 9 14 16; on "keyword" 10 17 24; on "operator" 11 25 26; on "string" 12 26 34; on "string" 13 36 44; on "operator" 14 44 45; on "statement_end" 15 46 48])])%string.
Definition c117_tpl : tpl := TExpr [NId (wt 4 3 4 "x"); NId (wt 6 6 11 "upper")] (TOther [] (nn 9 14 16) (nn 15 46 48) TNil).
Definition c117_ps1 : list piece := [PExpr (xn 2 0 14); PChain (wt 4 3 4 "x") []; PFilter (wt 5 5 6 "|") (wt 6 6 11 "upper"); POp (wt 11 25 26 "[")].
Definition c117_ps2 : list piece := [POp (wt 14 44 45 "]")].
Definition c117_b : sref := (nn 12 26 34, "b.html"%string).
Definition c117_c : sref := (nn 13 36 44, "c.html"%string).
Definition c117_sts : list istmt := [SInclude (nn 8 14 48) (nn 10 17 24) [c117_b; c117_c]].
Lemma c117_depicts : depicts c117_src c117_tree c117_tpl (c117_ps1 ++ c117_ps2) c117_sts.
Proof.
  constructor.
  - unfold root_kind. cbn. intuition discriminate.
  - unfold told_apart. vm_compute. repeat constructor; cbn; intuition discriminate.
  - vm_compute. repeat constructor; discriminate.
  - vm_compute. repeat constructor; discriminate.
  - cbn. repeat split; try discriminate; repeat constructor; try discriminate.
  - apply told_of. vm_compute. reflexivity.
  - split; [repeat (apply Forall_cons; [piece_okay|]); apply Forall_nil|exists (mkpt 0 1); split; [right; cbn; lia|]; vm_compute; intuition discriminate].
  - repeat constructor.
  - exact (spoken_of c117_src (preorder c117_tree)).
  - constructor; [split; [discriminate|constructor; [quoted_ref|constructor; [quoted_ref|constructor]]]|constructor].
  - cbn [c117_tree s_children map snd]. apply LdOther; [now apply innerb_ok|].
    refine (LdStmt c117_src (nn 8 14 48) (nn 9 14 16) [on "keyword" 10 17 24; on "operator" 11 25 26; on "string" 12 26 34; on "string" 13 36 44; on "operator" 14 44 45] (nn 15 46 48) "" "" _ (Some _) [] _ _ _);
      [now apply innerb_ok| |constructor].
    refine (LkInclude c117_src _ [] "" (nn 10 17 24) [] [on "operator" 11 25 26; on "string" 12 26 34; on "string" 13 36 44; on "operator" 14 44 45] [c117_b; c117_c] _ _ _ _); [constructor|constructor|reflexivity|reflexivity].
Qed.
Lemma c117_placed : well_placed c117_tree.
Proof. placed_tree. Qed.
Lemma c117_conveys : conveys (fun _ _ _ => Some c117_tree) (ascii_text c117_src) c117_tree c117_tpl (c117_ps1 ++ c117_ps2) c117_sts.
Proof. constructor; [repeat constructor|intros old; reflexivity|whole|exact c117_depicts|exact c117_placed|cbn; repeat split; repeat constructor]. Qed.
Definition c117_server : lsp_files (always c117_tree) := server (always c117_tree) "views" [].
Definition c117_fs : fs := fs_with ["views/c.html"%string].
Definition c117_url (n : string) : string := ("file:///views/" ++ n)%string.
Definition c117_asks : list msg :=
  [MGoto 5 (c117_url "a.html") (mkpos 0 30); MGoto 6 (c117_url "a.html") (mkpos 0 40); MHover 7 (c117_url "a.html") (mkpos 0 8);
   MCompletion 8 (c117_url "a.html") (mkpos 0 29) (Some TkInvoked)].
Definition c117_open := script (T := always c117_tree) any_url Debug c117_fs true (sys0 (always c117_tree))
  [MDidChangeConfiguration (Some (cfg_dir "views")); MDidOpen (c117_url "b1.html") (ascii_text c117_src); MDidOpen (c117_url "a.html") (ascii_text c117_src)].
Definition c117_asked := script (T := always c117_tree) any_url Debug c117_fs false (snd c117_open) c117_asks.
Definition c117_run : option (errors * res (option goto_response) * res (option goto_response)) :=
  match did_open c117_fs Debug a_html (ascii_text c117_src) false c117_server with
  | Ok (s, Some [(_, e)]) =>
      Some (e, goto_definition c117_fs c114_url Debug a_html (mkpos 0 30) s, goto_definition c117_fs c114_url Debug a_html (mkpos 0 40) s)
  | _ => None
  end.
Definition c117_told : list msg :=
  [MDidChangeConfiguration (Some (cfg_dir "views")); MInitialized; MCodeActions []; MDidOpen (c117_url "b1.html") (ascii_text c117_src);
   MCodeActions [(c117_url "b1.html", [ref_id c117_b])]; MDidOpen (c117_url "a.html") (ascii_text c117_src)].
Lemma c117_taken : map fst (y_taken (snd c117_asked)) = (c117_told ++ [MCodeActions [(c117_url "a.html", [ref_id c117_b])]]) ++ c117_asks.
Proof. vm_compute. reflexivity. Qed.
(** [b.html] is reported and goto leads nowhere; [c.html] is not and goto leads
    there. With the cursor behind [b.] the known template whose URI has a [b] in it
    is offered. *)
Example C117_example :
  file_ext a_html = Some Template /\ scalars (ascii_text c117_src) /\ on_characters (ascii_text c117_src) c117_tree /\
  depicts c117_src c117_tree c117_tpl (c117_ps1 ++ c117_ps2) c117_sts /\ well_placed c117_tree /\ plain_ends c117_tpl /\
  Forall (fun r => In r (flat_map refs c117_sts) /\ proper_name (snd r) /\ plain_line r) [c117_b; c117_c] /\
  in_quotes (mkpt 0 30) c117_b /\ in_quotes (mkpt 0 40) c117_c /\
  Forall (fun c => between (mkpt 0 c) c117_ps1 c117_ps2 /\ outside c117_ps1 (mkpt 0 c)) [29; 30; 40] /\
  (forall u, ~ stands_for c117_fs any_url "views" "b.html" u) /\ stands_for c117_fs any_url "views" "c.html" "file://views/c.html" /\
  c117_run = Some ([(Undefined, use_id (wt 4 3 4 "x", [])); (TemplateNotFound, ref_id c117_b)], Ok (Some (GArray [])),
                   Ok (Some (GScalar (mkloc "file://views/c.html" range0)))) /\
  exec any_url Debug (sys0 (always c117_tree)) (fst c117_open ++ fst c117_asked) = Some (snd c117_asked) /\
  map fst (y_taken (snd c117_asked)) = (c117_told ++ [MCodeActions [(c117_url "a.html", [ref_id c117_b])]]) ++ c117_asks /\
  editor_text (c117_url "a.html") (c117_told ++ [MCodeActions [(c117_url "a.html", [ref_id c117_b])]]) (ascii_text c117_src) /\
  quoted_prefix "b." "b.html" "b" /\ sought "b" (c117_url "b1.html") /\ ~ sought "b" (c117_url "a.html") /\
  lies_below "views" (c117_url "b1.html") "b1.html" /\
  map (fun r => match snd r with RCompletion l => (fst r, map (fun i => match i with RItem c => ci_label c | RDoc n _ => n | RSnippet n _ _ => n end) l) | _ => (fst r, []) end) (y_replies (snd c117_asked)) =
    [(5, []); (6, []); (7, []); (8, ["b1.html"%string])].
Proof.
  split; [reflexivity|]. split; [repeat constructor|]. split; [whole|]. split; [exact c117_depicts|]. split; [exact c117_placed|].
  split; [cbn; repeat split; repeat constructor|].
  split.
  { repeat (apply Forall_cons; [split; [first [now left|right; now left]|split; [unfold proper_name; vm_compute; intuition discriminate|split; [repeat constructor|reflexivity]]]|]); apply Forall_nil. }
  split; [split; before|]. split; [split; before|].
  split.
  { repeat (apply Forall_cons; [split; [split; [before|split; [repeat (apply Forall_cons; [before|]); apply Forall_nil|before]]
                                      |intros n [H|[H|[H|[H|[]]]]]; try discriminate H; injection H as <-; before]|]); apply Forall_nil. }
  split; [intros u (p & H & _); vm_compute in H; discriminate|].
  split; [exists "views/c.html"%string; split; reflexivity|].
  split; [vm_compute; reflexivity|]. split; [ran|]. split; [exact c117_taken|].
  split; [apply et_other; [exact (et_open (c117_url "a.html") [_; _; _; _; _] _)|exact I]|].
  split; [right; exists "."%char; split; [reflexivity|discriminate]|].
  split; [apply contains_iff; vm_compute; reflexivity|].
  split; [intros H; apply contains_iff in H; vm_compute in H; discriminate|].
  split; [|vm_compute; reflexivity].
  split; [discriminate|]. exists "file:///"%string. split; [reflexivity|]. intros a z H.
  do 8 (destruct a as [|? a]; [discriminate H|]; injection H as <- H). destruct a as [|? a]; [reflexivity|].
  exfalso. repeat (injection H as <- H; destruct a as [|? a]; [discriminate H|]). discriminate H.
Qed.

(** ** C118: filters and tests under the cursor *)
(** Hover over the name of a filter or of a test gives its documentation, or
    nothing if it is not a known one. *)
Theorem C118_hover :
  forall parse edit (s : lsp_files (ts_with parse edit)) uri t tr tp ps sts p name pos b,
    displayed s uri t tr tp ps sts -> In p ps -> documents p name -> cursor_on tr (point_of pos) (fst name) ->
    do_hover b uri pos s = Ok (if str_mem (snd name) (known_docs p) then Some (doc_of p (snd name)) else None).
Proof. exact @hover_doc. Qed.
Print Assumptions C118_hover.
Theorem C118_session :
  forall parse edit url b, parse_total (ts_with parse edit) ->
  forall l (y : sys (ts_with parse edit)) sy a F c rid, exec url b (sys0 (ts_with parse edit)) l = Some y -> y_task y = TIdle sy ->
  forall uri t tr tp ps sts p name pos,
    file_ext uri = Some Template -> editor_text uri (map fst a) t -> conveys parse t tr tp ps sts ->
    y_taken y = a ++ (MHover rid uri pos, F) :: c ->
    In p ps -> documents p name -> cursor_on tr (point_of pos) (fst name) ->
    In (rid, if str_mem (snd name) (known_docs p) then RHover (doc_of p (snd name)) else RNull) (y_replies y).
Proof. exact @asked_doc. Qed.
Print Assumptions C118_session.
(** In the session of [C117_example]. *)
Example C118_example :
  exec any_url Debug (sys0 (always c117_tree)) (fst c117_open ++ fst c117_asked) = Some (snd c117_asked) /\
  map fst (y_taken (snd c117_asked)) = (c117_told ++ [MCodeActions [(c117_url "a.html", [ref_id c117_b])]]) ++ c117_asks /\
  conveys (fun _ _ _ => Some c117_tree) (ascii_text c117_src) c117_tree c117_tpl (c117_ps1 ++ c117_ps2) c117_sts /\
  In (PFilter (wt 5 5 6 "|") (wt 6 6 11 "upper")) (c117_ps1 ++ c117_ps2) /\
  documents (PFilter (wt 5 5 6 "|") (wt 6 6 11 "upper")) (wt 6 6 11 "upper") /\
  cursor_on c117_tree (mkpt 0 8) (nn 6 6 11) /\
  str_mem "upper" filter_names = true /\ str_mem "upper" test_names = true /\
  In (7, RHover (DocFilter "upper")) (y_replies (snd c117_asked)).
Proof.
  split; [ran|]. split; [exact c117_taken|]. split; [exact c117_conveys|]. split; [right; right; now left|]. split; [reflexivity|].
  split; [split; [split; before|repeat (apply Forall_cons; [aside ltac:(vm_compute; discriminate)|]); apply Forall_nil]|].
  split; [vm_compute; reflexivity|]. split; [vm_compute; reflexivity|]. vm_compute. right; right; now left.
Qed.
