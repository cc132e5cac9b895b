(** * PropCode3: property C126 (from templates to the code that hands them names). *)
From Verif Require Import Base RString Utf8 Rope Types Captures.
From Verif Require Import MDefinition MObjects MTemplates MSearchErrors MLspFiles MLspTask MChannels MQueries.
From Verif Require Import SpecText SpecFiles SpecScope SpecScope2 SpecBackend SpecObjects SpecObjects2 SpecLint SpecNav SpecConfig SpecQueries SpecQueries2 SpecQueries4 SpecChannels SpecServer SpecClient SpecQueries5 SpecQueries6 SpecScreen SpecCode.
From Verif Require Import PQueries7 PClient PNav3 PCode4 PropObjects PropLint PropQueries PropQueries2 PropQueries3 PropFiles PropChannels PropQueries4 PropCode.

(** ** C126: names handed to templates by code *)
(** The template [uri] was last read with the text [t0] and shows [t] now, the code
    [u] was last read with the text [c0].  Hovering over a name the template does
    not define itself and the code supplies tells that it comes from the backend. *)
Theorem C126_hover :
  forall parse edit url b, parse_total (ts_with parse edit) ->
  forall l (y : sys (ts_with parse edit)) sy a F z rid, exec url b (sys0 (ts_with parse edit)) l = Some y -> y_task y = TIdle sy ->
  forall uri t0 tr0 tp0 ps0 sts0 t tr tp ps sts,
    file_ext uri = Some Template -> last_read uri (map fst a) t0 t ->
    conveys parse t0 tr0 tp0 ps0 sts0 -> conveys parse t tr tp ps sts ->
  forall u c0 c, file_ext u = Some Backend -> last_read u (map fst a) c0 c ->
  forall h fs pos, y_taken y = a ++ (MHover rid uri pos, F) :: z ->
    In (h, fs) (chains ps) -> cursor_on tr (point_of pos) (fst h) -> has_dot (snd h) = false ->
    (forall d, In d (defines tr0 tp0) -> ~ hover_sees (n_start (fst h)) (snd h) d) ->
    exists s x, replay url b (task0 (ts_with parse edit)) a = Ok (s, x) /\
      forall n, supplies parse (SpecConfig.lang_of (ls_config (tk_data s))) c0 n (snd h) ->
        In (rid, RHover (DocKind "Backend variable")) (y_replies y).
Proof. exact code_hover. Qed.
Print Assumptions C126_hover.
(** Goto on it leads, among other places, to where it stands in the code. *)
Theorem C126_goto :
  forall parse edit url b, parse_total (ts_with parse edit) ->
  forall l (y : sys (ts_with parse edit)) sy a F z rid, exec url b (sys0 (ts_with parse edit)) l = Some y -> y_task y = TIdle sy ->
  forall uri t0 tr0 tp0 ps0 sts0 t tr tp ps sts,
    file_ext uri = Some Template -> last_read uri (map fst a) t0 t ->
    conveys parse t0 tr0 tp0 ps0 sts0 -> conveys parse t tr tp ps sts ->
  forall u c0 c, file_ext u = Some Backend -> last_read u (map fst a) c0 c ->
  forall h fs pos, y_taken y = a ++ (MGoto rid uri pos, F) :: z ->
    In (h, fs) (chains ps) -> cursor_on tr (point_of pos) (fst h) -> no_string_at tr (point_of pos) -> has_dot (snd h) = false ->
    (forall d, In d (defines tr0 tp0) -> ~ goto_sees (point_of pos) (snd h) d) ->
    exists s x, replay url b (task0 (ts_with parse edit)) a = Ok (s, x) /\
      let others := other_vars uri (ls_vars (tk_data s)) in
      forall n v, supplies parse (SpecConfig.lang_of (ls_config (tk_data s))) c0 n (snd h) -> n_end n <> pt0 -> url u = Some v ->
        Forall (fun fv => small_id (snd fv)) others ->
        Forall (fun fv => url (target_name fv) <> None) (filter (fun fv => heads (snd h) (id_name (snd fv))) others) ->
        exists locs, In (rid, RGoto (GArray locs)) (y_replies y) /\ In (mkloc v (lsp_range (n_start n) (n_end n))) locs.
Proof. exact code_goto_from. Qed.
Print Assumptions C126_goto.
(** Completion in an expression offers every name some code supplies. *)
Theorem C126_completion :
  forall parse edit url b, parse_total (ts_with parse edit) ->
  forall l (y : sys (ts_with parse edit)) sy a F z rid, exec url b (sys0 (ts_with parse edit)) l = Some y -> y_task y = TIdle sy ->
  forall uri t0 tr0 tp0 ps0 sts0 t tr tp ps sts,
    file_ext uri = Some Template -> last_read uri (map fst a) t0 t ->
    conveys parse t0 tr0 tp0 ps0 sts0 -> conveys parse t tr tp ps sts ->
  forall u c0 c, file_ext u = Some Backend -> last_read u (map fst a) c0 c ->
  forall pos ctx ps1 ps2, y_taken y = a ++ (MCompletion rid uri pos ctx, F) :: z -> ps = ps1 ++ ps2 ->
    ctx = Some TkInvoked \/ ctx = Some TkTriggerCharacter -> between (point_of pos) ps1 ps2 -> SpecObjects.inside ps1 (point_of pos) ->
    exists s x items, replay url b (task0 (ts_with parse edit)) a = Ok (s, x) /\ In (rid, RCompletion (map RItem items)) (y_replies y) /\
      forall n name, supplies parse (SpecConfig.lang_of (ls_config (tk_data s))) c0 n name ->
        exists i, In i items /\ ci_label i = name /\ ci_detail i = Some "Backend variable"%string.
Proof. exact code_complete. Qed.
Print Assumptions C126_completion.
(** A template is read after the code.  The only thing on the screen about a name
    that the template does not define and the code supplies is the hint that it is
    defined somewhere else. *)
Theorem C126_hint :
  forall parse edit url b, parse_total (ts_with parse edit) ->
  forall l (y : sys (ts_with parse edit)) s uri v t tr tp ps sts u c0 c n h fs pre m F post,
    exec url b (sys0 (ts_with parse edit)) l = Some y -> at_rest y -> state_of y s ->
    file_ext uri = Some Template -> just_read uri (map fst (y_taken y)) t -> conveys parse t tr tp ps sts -> ls_ignore (tk_data s) = false ->
    url uri = Some v -> (forall w, url w = Some v -> w = uri) ->
    y_taken y = pre ++ (m, F) :: post -> refreshes uri m -> Forall (elsewhere uri) (map fst post) ->
    file_ext u = Some Backend -> last_read u (map fst pre) c0 c -> supplies parse (SpecConfig.lang_of (ls_config (tk_data s))) c0 n (snd h) ->
    In (h, fs) (chains ps) -> (forall d, In d (defines tr tp) -> ~ means (snd h) d) ->
    exists e, last_published v (y_published y) = Some (publish_of e) /\ forall k, In (k, use_id (h, fs)) e <-> k = DefinedSomewhere.
Proof. exact code_hint. Qed.
Print Assumptions C126_hint.

(** [jinja.add_global("g", x)] and a template [{{ g }}]. *)
Definition c126_code : string := "jinja.add_global(""g"", x)".
Definition c126_callee : stree := SN "field_expression" (nn 3 0 16) [lf "value" "identifier" 4 0 5; lf "field" "field_identifier" 5 6 16]%string.
Definition c126_args : stree := SN "arguments" (nn 6 16 24) [lf "" "string_literal" 7 17 20; lf "" "identifier" 8 22 23]%string.
Definition c126_call : stree := SN "call_expression" (nn 2 0 24) [("function", c126_callee); ("arguments", c126_args)]%string.
Definition c126_rust : stree := SN "source_file" (nn 1 0 24) [("", c126_call)]%string.
Definition c126_src : string := "{{ g }}".
Definition c126_tree : stree :=
  (SN "source_file" (nn 1 0 7)
    [("", SN "expression" (xn 2 0 7) [on "expression_begin" 3 0 2; on "identifier" 4 3 4; on "expression_end" 5 5 7])])%string.
Definition c126_parse (lang : plang) (_ : string) (_ : option stree) : option stree :=
  Some match lang with PJinja => c126_tree | _ => c126_rust end.
Definition c126_tpl : tpl := TExpr [NId (wt 4 3 4 "g")] TNil.
Definition c126_ps : list piece := [PExpr (xn 2 0 7); PChain (wt 4 3 4 "g") []].
Lemma c126_conveys : conveys c126_parse (ascii_text c126_src) c126_tree c126_tpl c126_ps [].
Proof.
  constructor; [repeat constructor|intros old; reflexivity|whole| |placed_tree|cbn; repeat split; repeat constructor].
  change (encode (ascii_text c126_src)) with c126_src.
  constructor.
  - unfold root_kind. cbn. intuition discriminate.
  - unfold told_apart. vm_compute. repeat constructor; cbn; intuition discriminate.
  - vm_compute. repeat constructor; discriminate.
  - vm_compute. repeat constructor; discriminate.
  - cbn. repeat split; try discriminate; repeat constructor; try discriminate.
  - apply told_of. vm_compute. reflexivity.
  - split; [repeat (apply Forall_cons; [piece_okay|]); apply Forall_nil|exists (mkpt 0 1); split; [right; cbn; lia|]; vm_compute; intuition discriminate].
  - repeat constructor.
  - exact (spoken_of c126_src (preorder c126_tree)).
  - constructor.
  - cbn [c126_tree s_children map snd]. apply LdOther; [now apply innerb_ok|constructor].
Qed.
Lemma c126_supplies : supplies c126_parse PRust (ascii_text c126_code) (nn 7 17 20) "g".
Proof.
  exists c126_rust. split.
  - constructor.
    + repeat constructor.
    + intros old. reflexivity.
    + whole.
    + unfold told_apart. vm_compute. repeat constructor; cbn; intuition discriminate.
    + vm_compute. repeat constructor; discriminate.
    + repeat (apply Forall_cons; [split; [before|split; [repeat (apply FOP_cons; [repeat (apply Forall_cons; [before|]); apply Forall_nil|]); apply FOP_nil|
        repeat (apply Forall_cons; [split; before|]); apply Forall_nil]]|]); apply Forall_nil.
    + repeat (apply Forall_cons; [intros H; first [discriminate H|before]|]); apply Forall_nil.
    + repeat (apply Forall_cons; [repeat split; vm_compute; reflexivity|]); apply Forall_nil.
  - refine (RvAdd (encode (ascii_text c126_code)) c126_rust c126_call "function" c126_callee "arguments" c126_args "value" (snd (lf "value" "identifier" 4 0 5)) "field"
      (snd (lf "field" "field_identifier" 5 6 16)) "" (snd (lf "" "string_literal" 7 17 20)) _ _ _ _ _ _ _ _ _ _ _).
    + right. now left.
    + exists [], [], []. reflexivity.
    + reflexivity.
    + exists [], [], []. reflexivity.
    + reflexivity.
    + reflexivity.
    + reflexivity.
    + exists ""%string, "add_global"%string, ""%string. split; [now left|reflexivity].
    + reflexivity.
    + now left.
    + reflexivity.
Qed.
Notation c126_ts := (ts_with c126_parse (fun t _ => t)).
Definition c126_a : string := c117_url "a.html".
Definition c126_open := script (T := c126_ts) any_url Debug c117_fs true (sys0 c126_ts)
  [MDidChangeConfiguration (Some (cfg_dir "views")); MDidOpen c124_main (ascii_text c126_code); MDidOpen c126_a (ascii_text c126_src)].
Definition c126_asks : list msg :=
  [MHover 5 c126_a (mkpos 0 3); MGoto 6 c126_a (mkpos 0 3); MCompletion 7 c126_a (mkpos 0 5) (Some TkInvoked)].
Definition c126_asked := script (T := c126_ts) any_url Debug c117_fs false (snd c126_open) c126_asks.
Definition c126_before : list msg :=
  [MDidChangeConfiguration (Some (cfg_dir "views")); MInitialized; MCodeActions []; MDidOpen c124_main (ascii_text c126_code); MCodeActions [(c124_main, [])]].
Definition c126_told : list msg := c126_before ++ [MDidOpen c126_a (ascii_text c126_src); MCodeActions [(c126_a, [])]].
Definition c126_y := snd c126_open.
Definition c126_s : task_state c126_ts := idle_state c126_y.
Lemma c126_taken : y_taken c126_y = map (fun m => (m, c117_fs)) c126_told /\
  y_taken (snd c126_asked) = map (fun m => (m, c117_fs)) (c126_told ++ c126_asks).
Proof. split; vm_compute; reflexivity. Qed.
Lemma c126_rest : at_rest c126_y /\ state_of c126_y c126_s /\ ls_ignore (tk_data c126_s) = false /\
  SpecConfig.lang_of (ls_config (tk_data c126_s)) = PRust.
Proof.
  assert (E : y_task c126_y = TIdle c126_s) by (ran).
  split; [split; [exists c126_s; exact E|conj; vm_compute; reflexivity]|]. split; [left; exact E|].
  conj; vm_compute; reflexivity.
Qed.
Definition c126_sy : task_state c126_ts := idle_state (snd c126_asked).
Lemma c126_idle : y_task (snd c126_asked) = TIdle c126_sy.
Proof. ran. Qed.
Lemma c126_runs : exec any_url Debug (sys0 c126_ts) (fst c126_open) = Some c126_y /\
  exec any_url Debug (sys0 c126_ts) (fst c126_open ++ fst c126_asked) = Some (snd c126_asked).
Proof. split; [ran|ran]. Qed.
Lemma c126_others : other_vars c126_a (ls_vars (tk_data c126_s)) = [(c124_main, at_node BackendVariable (nn 7 17 20) "g")].
Proof. vm_compute. reflexivity. Qed.
Lemma c126_read_code ms : Forall (fun m => unrefreshed c124_main m /\ untouched c124_main m) ms ->
  last_read c124_main (firstn 3 c126_before ++ MDidOpen c124_main (ascii_text c126_code) :: ms) (ascii_text c126_code) (ascii_text c126_code).
Proof.
  intros H. exists (firstn 3 c126_before), (MDidOpen c124_main (ascii_text c126_code)), ms.
  split; [reflexivity|]. split; [reflexivity|]. split; [apply et_open|].
  split; [eapply Forall_impl; [|exact H]; intros m (A & _); exact A|].
  change (firstn 3 c126_before ++ MDidOpen c124_main (ascii_text c126_code) :: ms) with (firstn 3 c126_before ++ [MDidOpen c124_main (ascii_text c126_code)] ++ ms).
  rewrite app_assoc. induction ms as [|m ms IH] using rev_ind; [rewrite app_nil_r; apply et_open|].
  apply Forall_app in H. destruct H as (Ha & Hb). rewrite app_assoc. apply et_other; [now apply IH|]. inversion Hb as [|? ? (_ & K)]. exact K.
Qed.
Lemma c126_read : just_read c126_a c126_told (ascii_text c126_src).
Proof.
  exists c126_before, (MDidOpen c126_a (ascii_text c126_src)), [MCodeActions [(c126_a, [])]].
  split; [reflexivity|]. split; [reflexivity|]. split; [apply et_open|]. constructor; [exact I|constructor].
Qed.
Example C126_example :
  exec any_url Debug (sys0 c126_ts) (fst c126_open ++ fst c126_asked) = Some (snd c126_asked) /\
  (exists sy, y_task (snd c126_asked) = TIdle sy) /\
  y_taken (snd c126_asked) = map (fun m => (m, c117_fs)) (c126_told ++ c126_asks) /\
  file_ext c126_a = Some Template /\ file_ext c124_main = Some Backend /\
  conveys c126_parse (ascii_text c126_src) c126_tree c126_tpl c126_ps [] /\
  supplies c126_parse PRust (ascii_text c126_code) (nn 7 17 20) "g" /\
  last_read c126_a c126_told (ascii_text c126_src) (ascii_text c126_src) /\
  last_read c124_main c126_told (ascii_text c126_code) (ascii_text c126_code) /\
  last_read c124_main c126_before (ascii_text c126_code) (ascii_text c126_code) /\
  In (wt 4 3 4 "g", []) (chains c126_ps) /\ cursor_on c126_tree (mkpt 0 3) (nn 4 3 4) /\ no_string_at c126_tree (mkpt 0 3) /\
  defines c126_tree c126_tpl = [] /\
  between (mkpt 0 5) c126_ps [] /\ SpecObjects.inside c126_ps (mkpt 0 5) /\
  exec any_url Debug (sys0 c126_ts) (fst c126_open) = Some c126_y /\
  at_rest c126_y /\ state_of c126_y c126_s /\ ls_ignore (tk_data c126_s) = false /\ SpecConfig.lang_of (ls_config (tk_data c126_s)) = PRust /\
  Forall (fun fv => small_id (snd fv)) (other_vars c126_a (ls_vars (tk_data c126_s))) /\
  y_taken c126_y = map (fun m => (m, c117_fs)) c126_told /\ just_read c126_a c126_told (ascii_text c126_src) /\
  last_published c126_a (y_published c126_y) = Some (publish_of [(DefinedSomewhere, use_id (wt 4 3 4 "g", []))]) /\
  map (fun r => match snd r with
                | RCompletion l => (fst r, Some (map (fun i => match i with RItem c => (ci_label c, ci_detail c) | RDoc n _ => (n, None) | RSnippet n _ _ => (n, None) end) l))
                | _ => (fst r, None) end) (skipn 2 (y_replies (snd c126_asked))) = [(7, Some [("g", Some "Backend variable")])]%string /\
  firstn 2 (y_replies (snd c126_asked)) =
    [(5, RHover (DocKind "Backend variable")); (6, RGoto (GArray [mkloc c124_main (lsp_range (mkpt 0 17) (mkpt 0 20))]))]%string.
Proof.
  split; [exact (proj2 c126_runs)|]. split; [exists c126_sy; exact c126_idle|]. split; [exact (proj2 c126_taken)|].
  split; [reflexivity|]. split; [reflexivity|]. split; [exact c126_conveys|]. split; [exact c126_supplies|].
  split. { exists c126_before, (MDidOpen c126_a (ascii_text c126_src)), [MCodeActions [(c126_a, [])]].
    split; [reflexivity|]. split; [reflexivity|]. split; [apply et_open|]. split; [constructor; [exact I|constructor]|].
    apply (et_other c126_a (c126_before ++ [MDidOpen c126_a (ascii_text c126_src)])); [apply et_open|exact I]. }
  split. { apply (c126_read_code [_; _; _]). repeat (apply Forall_cons; [split; try exact I; discriminate|]); apply Forall_nil. }
  split. { apply (c126_read_code [_]). repeat (apply Forall_cons; [split; exact I|]); apply Forall_nil. }
  split; [now left|].
  split; [split; [split; before|repeat (apply Forall_cons; [cbn; intros H; repeat destruct H as [H|H]; try discriminate; destruct H|]); apply Forall_nil]|].
  split; [repeat (apply Forall_cons; [discriminate|]); apply Forall_nil|]. split; [reflexivity|].
  split; [split; [before|split; [repeat (apply Forall_cons; [before|]); apply Forall_nil|exact I]]|].
  split; [exists [], (xn 2 0 7), [PChain (wt 4 3 4 "g") []]; split; [reflexivity|split; [repeat constructor|before]]|].
  split; [exact (proj1 c126_runs)|]. destruct c126_rest as (H1 & H2 & H3 & H4). repeat (split; [assumption|]).
  split. { rewrite c126_others. apply Forall_cons; [repeat split; vm_compute; reflexivity|apply Forall_nil]. }
  split; [exact (proj1 c126_taken)|]. split; [exact c126_read|]. split; [vm_compute; reflexivity|]. split; vm_compute; reflexivity.
Qed.
