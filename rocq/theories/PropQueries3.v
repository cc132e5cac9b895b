(** * PropQueries3: property C116 (answers in a session are taken from the text
    at the last refresh). *)
From Verif Require Import Base RString Utf8 Rope Types Captures.
From Verif Require Import MDefinition MObjects MTemplates MSearchErrors MLspFiles MLspTask MChannels MQueries.
From Verif Require Import SpecText SpecFiles SpecScope SpecScope2 SpecObjects SpecObjects2 SpecLint SpecNav SpecQueries SpecQueries2 SpecQueries4 SpecChannels SpecServer SpecClient SpecQueries5.
From Verif Require Import PQueries7 PQueries10 PQueries11 PropObjects PropLint PropQueries PropQueries2 PropFiles PropChannels.

(** ** C116: answers are taken from the text in the editor *)
(** What is true: the syntax tree is that of the text in the editor, the
    definitions are those of the text at the last refresh. *)
Theorem C116_held :
  forall parse edit url b l (y : sys (ts_with parse edit)) s uri t0 tr0 tp0 ps0 sts0 t tr tp ps sts,
    parse_total (ts_with parse edit) -> exec url b (sys0 (ts_with parse edit)) l = Some y -> state_of y s ->
    file_ext uri = Some Template -> last_read uri (map fst (y_taken y)) t0 t ->
    conveys parse t0 tr0 tp0 ps0 sts0 -> conveys parse t tr tp ps sts ->
    displayed (tk_data s) uri t tr tp ps sts /\ knows (tk_data s) uri (defines tr0 tp0).
Proof. exact reach_held. Qed.
Print Assumptions C116_held.
(** The answers to requests, for every execution: [a] are the messages processed
    before the request. *)
Theorem C116_goto :
  forall parse edit url b, parse_total (ts_with parse edit) ->
  forall l (y : sys (ts_with parse edit)) sy a F c rid, exec url b (sys0 (ts_with parse edit)) l = Some y -> y_task y = TIdle sy ->
  forall uri t0 tr0 tp0 ps0 sts0 t tr tp ps sts,
    file_ext uri = Some Template -> last_read uri (map fst a) t0 t ->
    conveys parse t0 tr0 tp0 ps0 sts0 -> conveys parse t tr tp ps sts ->
    forall h fs pos, y_taken y = a ++ (MGoto rid uri pos, F) :: c ->
      In (h, fs) (chains ps) -> cursor_on tr (point_of pos) (fst h) ->
      (exists d, In d (defines tr0 tp0) /\ goto_sees (point_of pos) (snd h) d) ->
      exists d, latest (goto_sees (point_of pos) (snd h)) (defines tr0 tp0) d /\
        In (rid, RGoto (GScalar (mkloc uri (lsp_range (dc_start d) (dc_end d))))) (y_replies y).
Proof. exact asked_goto. Qed.
Print Assumptions C116_goto.
Theorem C116_goto_elsewhere :
  forall parse edit url b, parse_total (ts_with parse edit) ->
  forall l (y : sys (ts_with parse edit)) sy a F c rid, exec url b (sys0 (ts_with parse edit)) l = Some y -> y_task y = TIdle sy ->
  forall uri t0 tr0 tp0 ps0 sts0 t tr tp ps sts,
    file_ext uri = Some Template -> last_read uri (map fst a) t0 t ->
    conveys parse t0 tr0 tp0 ps0 sts0 -> conveys parse t tr tp ps sts ->
    forall h fs pos, y_taken y = a ++ (MGoto rid uri pos, F) :: c ->
      In (h, fs) (chains ps) -> cursor_on tr (point_of pos) (fst h) -> no_string_at tr (point_of pos) ->
      (forall d, In d (defines tr0 tp0) -> ~ goto_sees (point_of pos) (snd h) d) ->
      exists s x, replay url b (task0 (ts_with parse edit)) a = Ok (s, x) /\
        let here := filter (fun fv => heads (snd h) (id_name (snd fv))) (other_vars uri (ls_vars (tk_data s))) in
        (Forall (fun fv => small_id (snd fv)) (other_vars uri (ls_vars (tk_data s))) ->
         Forall (fun fv => url (target_name fv) <> None) here ->
         exists locs, Forall2 (found url) here locs /\ In (rid, RGoto (GArray locs)) (y_replies y)).
Proof. exact asked_goto_else. Qed.
Print Assumptions C116_goto_elsewhere.
Theorem C116_hover :
  forall parse edit url b, parse_total (ts_with parse edit) ->
  forall l (y : sys (ts_with parse edit)) sy a F c rid, exec url b (sys0 (ts_with parse edit)) l = Some y -> y_task y = TIdle sy ->
  forall uri t0 tr0 tp0 ps0 sts0 t tr tp ps sts,
    file_ext uri = Some Template -> last_read uri (map fst a) t0 t ->
    conveys parse t0 tr0 tp0 ps0 sts0 -> conveys parse t tr tp ps sts ->
    forall h fs1 fs2 pos, y_taken y = a ++ (MHover rid uri pos, F) :: c ->
      In (h, fs1 ++ fs2) (chains ps) -> cursor_on tr (point_of pos) (fst (segment h fs1)) ->
      exists s x r, replay url b (task0 (ts_with parse edit)) a = Ok (s, x) /\
        hover_tells (tk_data s) uri (defines tr0 tp0) (snd h) (n_start (fst h)) r /\
        In (rid, match r with Some d => RHover d | None => RNull end) (y_replies y).
Proof. exact asked_hover. Qed.
Print Assumptions C116_hover.
Theorem C116_completion :
  forall parse edit url b, parse_total (ts_with parse edit) ->
  forall l (y : sys (ts_with parse edit)) sy a F c rid, exec url b (sys0 (ts_with parse edit)) l = Some y -> y_task y = TIdle sy ->
  forall uri t0 tr0 tp0 ps0 sts0 t tr tp ps sts,
    file_ext uri = Some Template -> last_read uri (map fst a) t0 t ->
    conveys parse t0 tr0 tp0 ps0 sts0 -> conveys parse t tr tp ps sts ->
    forall pos ctx ps1 ps2, y_taken y = a ++ (MCompletion rid uri pos ctx, F) :: c -> ps = ps1 ++ ps2 ->
      ctx = Some TkInvoked \/ ctx = Some TkTriggerCharacter -> between (point_of pos) ps1 ps2 -> SpecObjects.inside ps1 (point_of pos) ->
      exists s x items, replay url b (task0 (ts_with parse edit)) a = Ok (s, x) /\
        variables_offered (tk_data s) uri (defines tr0 tp0) (point_of pos) EmptyString range0 items /\
        In (rid, RCompletion (map RItem items)) (y_replies y).
Proof. exact asked_complete. Qed.
Print Assumptions C116_completion.
Theorem C116_symbols :
  forall parse edit url b, parse_total (ts_with parse edit) ->
  forall l (y : sys (ts_with parse edit)) sy a F c rid, exec url b (sys0 (ts_with parse edit)) l = Some y -> y_task y = TIdle sy ->
  forall uri t0 tr0 tp0 ps0 sts0 t tr tp ps sts,
    file_ext uri = Some Template -> last_read uri (map fst a) t0 t ->
    conveys parse t0 tr0 tp0 ps0 sts0 -> conveys parse t tr tp ps sts ->
    y_taken y = a ++ (MDocumentSymbol rid uri, F) :: c ->
    In (rid, RSymbols (map (fun d => mksym (dc_name d) (lsp_kind (dc_kind d))
          (lsp_range (dc_start d) (dc_end d)) (lsp_range (dc_start d) (dc_end d))) (defines tr0 tp0))) (y_replies y).
Proof. exact asked_symbols. Qed.
Print Assumptions C116_symbols.
(** If the document was not edited since the last refresh, both texts are one. *)
Theorem C116_just_read : forall uri ms t, just_read uri ms t -> last_read uri ms t t.
Proof. exact just_last. Qed.
Print Assumptions C116_just_read.
(** So it is when the server has come to rest, if only one document is edited. *)
Theorem C116_at_rest :
  forall parse edit url b l (y : sys (ts_with parse edit)) s uri t tr tp ps sts,
    parse_total (ts_with parse edit) -> exec url b (sys0 (ts_with parse edit)) l = Some y -> at_rest y -> state_of y s ->
    ls_chan (tk_data s) = true -> file_ext uri = Some Template ->
    editor_text uri (map fst (y_taken y)) t -> conveys parse t tr tp ps sts ->
    (forall u cs, In (MDidChange u cs) (map fst (y_taken y)) -> u = uri) ->
    just_read uri (map fst (y_taken y)) t /\ shown (tk_data s) uri t tr tp ps sts.
Proof. exact rest_shown. Qed.
Print Assumptions C116_at_rest.

(** ** The full statement is false *)
(** [{% for i in l %}{{ i }}{% endfor %}] is opened; [ab] is typed in front of it
    and goto is asked on [i] before the timer has fired. *)
Definition c116_src0 : string := "{% for i in l %}{{ i }}{% endfor %}".
Definition c116_src : string := "ab{% for i in l %}{{ i }}{% endfor %}".
Definition c116_tree0 : stree :=
 (SN "source_file" (nn 1 0 35)
  [("", SN "statement" (nn 2 0 16) [on "statement_begin" 3 0 2; on "keyword" 4 3 6; on "identifier" 5 7 8; on "keyword" 6 9 11; on "identifier" 7 12 13; on "statement_end" 8 14 16]);
   ("", SN "expression" (xn 9 16 23) [on "expression_begin" 10 16 18; on "identifier" 11 19 20; on "expression_end" 12 21 23]);
   ("", SN "statement" (nn 13 23 35) [on "statement_begin" 14 23 25; on "keyword" 15 26 32; on "statement_end" 16 33 35])])%string.
Definition c116_tree : stree :=
 (SN "source_file" (nn 1 0 37)
  [("", SN "statement" (nn 2 2 18) [on "statement_begin" 3 2 4; on "keyword" 4 5 8; on "identifier" 5 9 10; on "keyword" 6 11 13; on "identifier" 7 14 15; on "statement_end" 8 16 18]);
   ("", SN "expression" (xn 9 18 25) [on "expression_begin" 10 18 20; on "identifier" 11 21 22; on "expression_end" 12 23 25]);
   ("", SN "statement" (nn 13 25 37) [on "statement_begin" 14 25 27; on "keyword" 15 28 34; on "statement_end" 16 35 37])])%string.
Definition c116_parse (l : plang) (c : string) (old : option stree) : option stree :=
  Some (if String.eqb c c116_src then c116_tree else c116_tree0).
Definition c116_ts : ts := ts_with c116_parse (fun t _ => t).
Definition c116_tpl0 : tpl :=
  TBlock (HFor (nn 4 3 6) (wt 5 7 8 "i") [] [NId (wt 7 12 13 "l")]) (nn 3 0 2) (nn 8 14 16)
    (TExpr [NId (wt 11 19 20 "i")] TNil) (mkend (nn 15 26 32) [] (nn 14 23 25) (nn 16 33 35)) TNil.
Definition c116_tpl : tpl :=
  TBlock (HFor (nn 4 5 8) (wt 5 9 10 "i") [] [NId (wt 7 14 15 "l")]) (nn 3 2 4) (nn 8 16 18)
    (TExpr [NId (wt 11 21 22 "i")] TNil) (mkend (nn 15 28 34) [] (nn 14 25 27) (nn 16 35 37)) TNil.
Definition c116_ps0 : list piece := [PChain (wt 5 7 8 "i") []; PChain (wt 7 12 13 "l") []; PExpr (xn 9 16 23); PChain (wt 11 19 20 "i") []].
Definition c116_ps : list piece := [PChain (wt 5 9 10 "i") []; PChain (wt 7 14 15 "l") []; PExpr (xn 9 18 25); PChain (wt 11 21 22 "i") []].
Ltac c116_depicts src tr s1 s2 l1 l2 :=
  constructor;
  [unfold root_kind; cbn; intuition discriminate
  |unfold told_apart; vm_compute; repeat constructor; cbn; intuition discriminate
  |vm_compute; repeat constructor; discriminate
  |vm_compute; repeat constructor; discriminate
  |cbn; repeat split; try discriminate; repeat constructor; try discriminate
  |apply told_of; vm_compute; reflexivity
  |split; [repeat (apply Forall_cons; [piece_okay|]); apply Forall_nil|exists (mkpt 0 1); split; [right; cbn; lia|]; vm_compute; intuition discriminate]
  |repeat constructor
  |exact (spoken_of src (preorder tr))
  |constructor
  |cbn [tr s_children map snd];
   refine (LdStmt src _ _ l1 _ "" "" _ None [] _ _ _); [now apply innerb_ok|apply LkNone; vm_compute; repeat constructor; intuition discriminate|];
   apply LdOther; [now apply innerb_ok|];
   refine (LdStmt src _ _ l2 _ "" "" _ None [] _ _ _); [now apply innerb_ok|apply LkNone; vm_compute; repeat constructor; intuition discriminate|constructor]].
Ltac placed_tree :=
  split; [|split];
  [repeat (apply Forall_cons; [split; [before|split; [repeat (apply FOP_cons; [repeat (apply Forall_cons; [before|]); apply Forall_nil|]); apply FOP_nil|
      repeat (apply Forall_cons; [split; before|]); apply Forall_nil]]|]); apply Forall_nil
  |repeat (apply Forall_cons; [aside ltac:(split; [reflexivity|before])|]); apply Forall_nil
  |repeat (apply Forall_cons; [repeat split; vm_compute; reflexivity|]); apply Forall_nil].
Lemma c116_conveys0 : conveys c116_parse (ascii_text c116_src0) c116_tree0 c116_tpl0 c116_ps0 [].
Proof.
  constructor; [repeat constructor|intros old; reflexivity|whole| |placed_tree|cbn; repeat split; repeat constructor].
  change (encode (ascii_text c116_src0)) with c116_src0.
  c116_depicts c116_src0 c116_tree0 0 0 [on "keyword" 4 3 6; on "identifier" 5 7 8; on "keyword" 6 9 11; on "identifier" 7 12 13] [on "keyword" 15 26 32].
Qed.
Lemma c116_conveys : conveys c116_parse (ascii_text c116_src) c116_tree c116_tpl c116_ps [].
Proof.
  constructor; [repeat constructor|intros old; reflexivity|whole| |placed_tree|cbn; repeat split; repeat constructor].
  change (encode (ascii_text c116_src)) with c116_src.
  c116_depicts c116_src c116_tree 0 0 [on "keyword" 4 5 8; on "identifier" 5 9 10; on "keyword" 6 11 13; on "identifier" 7 14 15] [on "keyword" 15 28 34].
Qed.
Definition c116_edit : list change := [mkchange (Some (mkrange (mkpos 0 0) (mkpos 0 0))) (ascii_text "ab")].
Definition c116_open := script (T := c116_ts) any_url Debug fs_empty true (sys0 c116_ts) [MDidChangeConfiguration (Some cfg_rust); MDidOpen a_html (ascii_text c116_src0)].
Definition c116_asked := script (T := c116_ts) any_url Debug fs_empty false (snd c116_open)
  [MDidChange a_html c116_edit; MGoto 7 a_html (mkpos 0 21); MDocumentSymbol 8 a_html].
Definition c116_rest := settle (T := c116_ts) any_url Debug fs_empty true 60 (snd c116_asked).
Definition c116_again := script (T := c116_ts) any_url Debug fs_empty false (snd c116_rest) [MGoto 9 a_html (mkpos 0 21)].
Definition c116_l1 : list action := fst c116_open ++ fst c116_asked.
Definition c116_l2 : list action := c116_l1 ++ fst c116_rest.
Definition c116_l3 : list action := c116_l2 ++ fst c116_again.
Lemma c116_edited : easy_changes (ascii_text c116_src0) c116_edit (ascii_text c116_src).
Proof.
  apply easy_cons with (t1 := ascii_text c116_src); [|apply easy_nil]. exists 0%nat, 0%nat.
  assert (Hi : index_of (ascii_text c116_src0) (mkpos 0 0) 0) by (exists (ascii_text c116_src0), [], 0%nat; repeat split; cbn; lia).
  split; [exact Hi|]. split; [exact Hi|]. split; [lia|]. split; [reflexivity|]. split; [intros c []|].
  split; split; repeat constructor.
Qed.
Definition c116_before : list msg :=
  [MDidChangeConfiguration (Some cfg_rust); MInitialized; MCodeActions []; MDidOpen a_html (ascii_text c116_src0); MCodeActions [(a_html, [])]].
Lemma c116_text0 : editor_text a_html c116_before (ascii_text c116_src0).
Proof. apply (et_other a_html [_; _; _; _] _ (MCodeActions [(a_html, [])])); [exact (et_open a_html [_; _; _] _)|exact I]. Qed.
Lemma c116_text : editor_text a_html (c116_before ++ [MDidChange a_html c116_edit]) (ascii_text c116_src).
Proof. eapply et_change; [exact c116_text0|exact c116_edited]. Qed.
Lemma c116_cursor : cursor_on c116_tree (mkpt 0 21) (nn 11 21 22).
Proof. split; [split; before|repeat (apply Forall_cons; [aside ltac:(vm_compute; discriminate)|]); apply Forall_nil]. Qed.
Lemma c116_taken : map fst (firstn 6 (y_taken (snd c116_asked))) = c116_before ++ [MDidChange a_html c116_edit].
Proof. vm_compute. reflexivity. Qed.
Lemma c116_taken2 : map fst (y_taken (snd c116_rest)) =
  ((((c116_before ++ [MDidChange a_html c116_edit]) ++ [MGoto 7 a_html (mkpos 0 21)]) ++ [MDocumentSymbol 8 a_html]) ++ [MDidSave a_html]) ++ [MCodeActions [(a_html, [])]].
Proof. vm_compute. reflexivity. Qed.
Definition c116_state : task_state c116_ts := idle_state (snd c116_asked).
Definition c116_state2 : task_state c116_ts := idle_state (snd c116_rest).
Theorem C116_edited_refuted :
  exists parse edit url b l (y : sys (ts_with parse edit)) sy a F c rid uri pos t tr tp ps sts h fs g,
    parse_total (ts_with parse edit) /\ exec url b (sys0 (ts_with parse edit)) l = Some y /\ y_task y = TIdle sy /\
    y_taken y = a ++ (MGoto rid uri pos, F) :: c /\ NoDup (map fst (y_replies y)) /\
    file_ext uri = Some Template /\ editor_text uri (map fst a) t /\ conveys parse t tr tp ps sts /\
    In (h, fs) (chains ps) /\ cursor_on tr (point_of pos) (fst h) /\
    (exists d, In d (defines tr tp) /\ goto_sees (point_of pos) (snd h) d) /\
    In (rid, RGoto g) (y_replies y) /\
    forall d, In d (defines tr tp) -> g <> GScalar (mkloc uri (lsp_range (dc_start d) (dc_end d))).
Proof.
  exists c116_parse, (fun t _ => t), any_url, Debug, c116_l1, (snd c116_asked), c116_state.
  exists (firstn 6 (y_taken (snd c116_asked))), fs_empty, (skipn 7 (y_taken (snd c116_asked))), 7, a_html, (mkpos 0 21).
  exists (ascii_text c116_src), c116_tree, c116_tpl, c116_ps, [], (wt 11 21 22 "i"), [].
  exists (GScalar (mkloc a_html (lsp_range (mkpt 0 7) (mkpt 0 8)))).
  split; [intros l c old; discriminate|]. split; [ran|]. split; [ran|]. split; [vm_compute; reflexivity|].
  split; [vm_compute; repeat constructor; cbn; intuition discriminate|]. split; [reflexivity|].
  split; [rewrite c116_taken; exact c116_text|]. split; [exact c116_conveys|]. split; [right; right; now left|]. split; [exact c116_cursor|].
  split; [exists (mkdecl "i" ForLoopKey (mkpt 0 9) (mkpt 0 10) (mkpt 0 25)); split; [vm_compute; now left|split; [reflexivity|split; before]]|].
  split; [vm_compute; now left|]. intros d [<-|[]]. vm_compute. discriminate.
Qed.
Print Assumptions C116_edited_refuted.
(** The hypotheses of the theorems, in the same session: before the timer fires
    the answer is where [i] was when the document was opened; afterwards it is
    where [i] is. *)
Example C116_example :
  exec any_url Debug (sys0 c116_ts) c116_l1 = Some (snd c116_asked) /\
  exec any_url Debug (sys0 c116_ts) c116_l2 = Some (snd c116_rest) /\ at_rest (snd c116_rest) /\
  exec any_url Debug (sys0 c116_ts) c116_l3 = Some (snd c116_again) /\
  last_read a_html (c116_before ++ [MDidChange a_html c116_edit]) (ascii_text c116_src0) (ascii_text c116_src) /\
  map fst (firstn 6 (y_taken (snd c116_asked))) = c116_before ++ [MDidChange a_html c116_edit] /\
  conveys c116_parse (ascii_text c116_src0) c116_tree0 c116_tpl0 c116_ps0 [] /\
  conveys c116_parse (ascii_text c116_src) c116_tree c116_tpl c116_ps [] /\
  goto_sees (mkpt 0 21) "i" (mkdecl "i" ForLoopKey (mkpt 0 7) (mkpt 0 8) (mkpt 0 23)) /\
  defines c116_tree0 c116_tpl0 = [mkdecl "i" ForLoopKey (mkpt 0 7) (mkpt 0 8) (mkpt 0 23)] /\
  defines c116_tree c116_tpl = [mkdecl "i" ForLoopKey (mkpt 0 9) (mkpt 0 10) (mkpt 0 25)] /\
  (exists s, state_of (snd c116_rest) s /\ ls_chan (tk_data s) = true) /\
  editor_text a_html (map fst (y_taken (snd c116_rest))) (ascii_text c116_src) /\
  (forall u cs, In (MDidChange u cs) (map fst (y_taken (snd c116_rest))) -> u = a_html) /\
  map (fun r => match snd r with RGoto (GScalar l) => Some (loc_range l) | _ => None end) (y_replies (snd c116_again)) =
    [Some (lsp_range (mkpt 0 7) (mkpt 0 8)); None; Some (lsp_range (mkpt 0 9) (mkpt 0 10))].
Proof.
  do 2 (split; [ran|]). split; [split; [exists c116_state2; ran|conj; vm_compute; reflexivity]|]. split; [ran|].
  split.
  { exists [MDidChangeConfiguration (Some cfg_rust); MInitialized; MCodeActions []], (MDidOpen a_html (ascii_text c116_src0)), [MCodeActions [(a_html, [])]; MDidChange a_html c116_edit].
    split; [reflexivity|]. split; [reflexivity|]. split; [exact (et_open a_html [_; _; _] _)|]. split; [repeat constructor|exact c116_text]. }
  split; [exact c116_taken|]. split; [exact c116_conveys0|]. split; [exact c116_conveys|]. split; [split; [reflexivity|split; before]|].
  do 2 (split; [vm_compute; reflexivity|]).
  split; [exists c116_state2; split; [left; ran|vm_compute; reflexivity]|].
  split.
  { rewrite c116_taken2. do 4 (apply et_other; [|exact I]). exact c116_text. }
  split; [|vm_compute; reflexivity]. intros u cs H. rewrite c116_taken2 in H. cbn [c116_before app In] in H. repeat (destruct H as [H|H]; [try discriminate H; inversion H; reflexivity|]). destruct H.
Qed.
