(** * PropClient: the server as an editor sees it (C86 to C91). *)
From Coq Require Import ZArith.
From Verif Require Import Base RString Utf8 Rope Types Captures.
From Verif Require Import MDefinition MObjects MTemplates MSearchErrors MLspFiles MLspTask MChannels MBackend MNode.
From Verif Require Import SpecText SpecFiles SpecScope SpecScope2 SpecObjects SpecLint SpecConfig SpecChannels SpecServer SpecClient.
From Verif Require Import PLint PLint2 PChannels PClient PClient2 PropFiles PropObjects PropLint PropConfig PropServer.

(** ** C42: every request of the client reaches the server task, once *)
Theorem C42_forwarded : forall es, request_ids (forwarded es) = flat_map awaits es.
Proof. exact requests_forwarded. Qed.
Print Assumptions C42_forwarded.
Example C42_forwarded_example :
  flat_map awaits [LInitialize 1 None None; LInitialized; LHover 2 a_html (mkpos 0 0); LCommand "warn"; LGoto 3 a_html (mkpos 0 0); LShutdown] = [1; 2; 3].
Proof. reflexivity. Qed.

(** ** C86: open documents are known with the text of the editor *)
(** In every state the running server can be in. *)
Theorem C86_text_partial :
  forall T url b l (y : sys T) s uri t,
    exec url b (sys0 T) l = Some y -> state_of y s ->
    file_ext uri <> None -> editor_text uri (map fst (y_taken y)) t ->
    sget uri (ls_docs (tk_data s)) = Some t.
Proof. exact @reachable_text. Qed.
Print Assumptions C86_text_partial.
(** Under capabilities that ask for open and change notifications, the messages
    do carry the text of the editor. *)
Theorem C86_told_partial :
  forall c uri us t,
    ca_open_close c = Some true -> ca_change c = Some SyncIncremental ->
    in_editor easy_changes uri us t -> editor_text uri (delivered c us) t.
Proof. exact told. Qed.
Print Assumptions C86_told_partial.
(** The capabilities the server announces do not ask for them: whatever an
    obedient editor has open, the server knows files indexed from the disk only. *)
Theorem C86_only_indexed :
  forall T url b l (y : sys T) s us,
    parse_total T -> exec url b (sys0 T) l = Some y -> state_of y s ->
    (forall u t F, In (MDidOpen u t, F) (y_taken y) -> In (MDidOpen u t) (delivered server_caps us)) ->
    forall u t, sget u (ls_docs (tk_data s)) = Some t ->
      exists F c t' k, In (MInitialized, F) (y_taken y) /\ on_disk F (entry F c) u t' k.
Proof. exact conforming_known. Qed.
Print Assumptions C86_only_indexed.
Definition same_disk (F : fs) (ms : list msg) : list (msg * fs) := map (fun m => (m, F)) ms.
Definition c86_edit : change := mkchange (Some (mkrange (mkpos 0 1) (mkpos 0 1))) [120].
Definition c86_us : list user_action := [UOpen a_html [97]; UEdit a_html [c86_edit]; USave a_html]%string.
Lemma c86_shows2 : in_editor easy_changes a_html [UOpen a_html [97]; UEdit a_html [c86_edit]] [97; 120].
Proof.
  eapply (ie_edit _ _ [UOpen a_html [97]]); [apply (ie_open _ _ [])|].
  apply easy_cons with (t1 := [97; 120]); [|apply easy_nil]. exists 1%nat, 1%nat.
  assert (Hi : index_of [97] (mkpos 0 1) 1) by (exists [97], [], 1%nat; repeat split; cbn; lia).
  split; [exact Hi|]. split; [exact Hi|]. split; [lia|]. split; [reflexivity|]. split; [intros c []|].
  split; split; repeat constructor.
Qed.
Lemma c86_shows : in_editor easy_changes a_html c86_us [97; 120].
Proof. exact (ie_save _ _ _ _ c86_shows2). Qed.
(** The user opens, edits and saves a new template; the server has no text for
    it, although it was told of the edit and of the saving. *)
Theorem C86_obedient_editor_refuted :
  exists T F url b us uri t (s : task_state T) tr,
    parse_total T /\ file_ext uri = Some Template /\ in_editor easy_changes uri us t /\
    replay url b (task0 T) (same_disk F (MInitialize 0 None None :: MInitialized :: delivered server_caps us)) = Ok (s, tr) /\
    sget uri (ls_docs (tk_data s)) = None /\ In (MDidSave uri) (map fst tr).
Proof.
  exists ts_echo, c85_fs, any_url, Debug, c86_us, a_html, [97; 120]. do 2 eexists.
  split; [intros l c old; discriminate|]. split; [reflexivity|]. split; [exact c86_shows|].
  split; [vm_compute; reflexivity|]. split; [reflexivity|]. cbn. auto 10.
Qed.
Print Assumptions C86_obedient_editor_refuted.
Definition asking : capabilities :=
  mkcaps (Some true) (Some SyncIncremental) (Some true) (Some true) [] true false true true true [].
Example C86_example :
  delivered server_caps c86_us = [MDidChange a_html [c86_edit]; MDidSave a_html] /\
  delivered asking c86_us = [MDidOpen a_html [97]; MDidChange a_html [c86_edit]; MDidSave a_html] /\
  in_editor easy_changes a_html c86_us [97; 120] /\
  exists y s, exec any_url Debug (sys0 ts_echo)
      [AClient (MDidOpen a_html [97]); ATake c85_fs; AEffect; AEffect; ADiagTake;
       AClient (MDidChange a_html [c86_edit]); AClient (MDidSave a_html); ATake c85_fs; AEffect] = Some y /\
    state_of y s /\ editor_text a_html (map fst (y_taken y)) [97; 120] /\
    sget a_html (ls_docs (tk_data s)) = Some [97; 120].
Proof.
  split; [reflexivity|]. split; [reflexivity|]. split; [exact c86_shows|].
  eexists. eexists. split; [vm_compute; reflexivity|]. split; [right; eexists; reflexivity|]. split; [|vm_compute; reflexivity].
  exact (C86_told_partial asking a_html _ [97; 120] eq_refl eq_refl c86_shows2).
Qed.

(** ** C87: closing a document without saving *)
(** Closing never reaches the server task. *)
Theorem C87_close_ignored :
  forall c us us' uri, delivered c (us ++ UClose uri :: us') = delivered c (us ++ us').
Proof. exact close_ignored. Qed.
Print Assumptions C87_close_ignored.
(** So the server keeps working with the text the user threw away. *)
Theorem C87_discarded_text_refuted :
  exists T F url b uri disk us (s : task_state T) tr t,
    parse_total T /\ on_disk F (entry F c40_cfg) uri disk Template /\ us = [UOpen uri disk; UEdit uri [c86_edit]; UClose uri] /\
    replay url b (task0 T)
      (same_disk F (MInitialize 0 None (Some (Some c40_cfg)) :: MInitialized :: delivered asking us)) = Ok (s, tr) /\
    sget uri (ls_docs (tk_data s)) = Some t /\ t <> disk.
Proof.
  exists ts_echo, c41_F, any_url, Debug, "file:///w/t/a.html"%string, [97], [UOpen "file:///w/t/a.html" [97]; UEdit "file:///w/t/a.html" [c86_edit]; UClose "file:///w/t/a.html"]%string.
  do 2 eexists. exists [97; 120]. split; [intros l c old; discriminate|]. split.
  { exists "t/a.html"%string, "/w/t/a.html"%string. split; [exists "t"%string; split; [now left|now left]|].
    split; [apply PConfig.file_ext_spec; reflexivity|]. repeat split. }
  split; [reflexivity|]. split; [vm_compute; reflexivity|]. split; [reflexivity|discriminate].
Qed.
Print Assumptions C87_discarded_text_refuted.
(** If the text on disk is that of the editor when it is closed, it is right. *)
Theorem C87_saved_text_partial :
  forall T url b F uri c us t (s : task_state T) tr s0,
    file_ext uri <> None -> ca_open_close c = Some true -> ca_change c = Some SyncIncremental ->
    in_editor easy_changes uri us t ->
    replay url b s0 (same_disk F (delivered c (us ++ [UClose uri]))) = Ok (s, tr) ->
    sget uri (ls_docs (tk_data s)) = Some t.
Proof.
  intros T url b F uri c us t s tr s0 Hx Ho Hc He Hr. rewrite C87_close_ignored, app_nil_r in Hr.
  refine (replay_text url b uri Hx _ _ (C86_told_partial c uri us t Ho Hc He) _ _ _ _ _ Hr).
  unfold same_disk. rewrite map_map. apply map_id.
Qed.
Print Assumptions C87_saved_text_partial.
Example C87_example :
  exists s tr, replay any_url Debug (task0 ts_echo) (same_disk c85_fs (delivered asking (c86_us ++ [UClose a_html]))) = Ok (s, tr) /\
    sget a_html (ls_docs (tk_data s)) = Some [97; 120] /\ in_editor easy_changes a_html c86_us [97; 120].
Proof. do 2 eexists. split; [vm_compute; reflexivity|]. split; [reflexivity|exact c86_shows]. Qed.

(** ** C88: the commands of the offered actions *)
Theorem C88_offered_commands_announced :
  forall T F url b (s s' : task_state T) es rid uri pos l title cmd,
    step F url b s (MCodeAction rid uri pos) = Ok (s', es) -> In (EReply rid (RCodeActions l)) es ->
    In (CaCommand title cmd) l -> In cmd (ca_commands server_caps).
Proof. exact offered_known. Qed.
Print Assumptions C88_offered_commands_announced.
(** Once the server is at rest the workspace was indexed once for every time
    the client asked, once for every reset, once for every new configuration,
    and no more. *)
Theorem C88_reindexed_exactly :
  forall T url b l (y : sys T),
    exec url b (sys0 T) l = Some y -> at_rest y ->
    (forall F, ~ In (MDidChangeConfiguration None, F) (y_taken y)) ->
    total asks_index (map fst (y_taken y)) =
      (total asks_index (client_msgs l) + total asks_reset (map fst (y_taken y)))%nat.
Proof. exact @reindex_count. Qed.
Print Assumptions C88_reindexed_exactly.
Theorem C88_other_commands :
  forall T F url b (s : task_state T) cmd, cmd <> "reset_variables"%string ->
    exists s' es, step F url b s (MExecuteCommand cmd) = Ok (s', es) /\ no_effect s s' es.
Proof.
  intros T F url b s cmd H. exists s, []. split; [|split; reflexivity]. cbn [step].
  now rewrite (proj2 (String.eqb_neq _ _) H).
Qed.
Print Assumptions C88_other_commands.
(** One of the two commands offered on an expression does nothing. *)
Theorem C88_warn_refuted :
  exists T F url b ms (s s' : task_state T) tr rid l title cmd es,
    parse_total T /\ replay url b (task0 T) (same_disk F ms) = Ok (s, tr) /\
    (exists e, In (e, [EReply rid (RCodeActions l)]) tr) /\ In (CaCommand title cmd) l /\
    In cmd (ca_commands server_caps) /\
    step F url b s (MExecuteCommand cmd) = Ok (s', es) /\ no_effect s s' es.
Proof.
  exists c85_ts, c85_fs, any_url, Debug,
    [MDidOpen a_html [123; 123; 32; 117; 115; 101; 114; 32; 125; 125]; MCodeActions [(a_html, [])]; MCodeAction 3 a_html (mkpos 0 4)].
  do 3 eexists. exists 3. exists [CaCommand "Reset variables" "reset_variables"; CaCommand "Warn about unused" "warn"]%string.
  exists "Warn about unused"%string, "warn"%string, [].
  split; [intros l c old; discriminate|]. split; [vm_compute; reflexivity|].
  split; [eexists; right; right; left; reflexivity|]. split; [cbn; auto|]. split; [cbn; auto|]. split; [reflexivity|split; reflexivity].
Qed.
Print Assumptions C88_warn_refuted.
Definition c88_run : list action :=
  [AClient MInitialized; ATake c41_F; AEffect; AEffect; AEffect; AEffect; AEffect;
   AClient (MExecuteCommand "reset_variables"); ATake c41_F; AEffect; AEffect;
   ATake c41_F; AEffect; AEffect; AEffect; AEffect; AEffect].
Example C88_example :
  exists y, exec any_url Debug (sys0 ts_echo) c88_run = Some y /\ at_rest y /\
    (forall F, ~ In (MDidChangeConfiguration None, F) (y_taken y)) /\
    map fst (y_taken y) = [MInitialized; MExecuteCommand "reset_variables"; MInitialized] /\
    total asks_index (client_msgs c88_run) = 1%nat.
Proof.
  eexists. split; [vm_compute; reflexivity|]. split; [repeat split; eexists; reflexivity|].
  split; [intros F [H|[H|[H|[]]]]; discriminate|]. split; reflexivity.
Qed.

(** ** C89: a copy of the state *)
Theorem C89_clone_partial :
  forall T url b F (s : task_state T) m,
    ls_parser (tk_data s) = PRust -> ls_query (tk_data s) = PRust ->
    same_answer (step F url b (cloned s) m) (step F url b s m).
Proof. intros T url b. exact (step_clone url b). Qed.
Print Assumptions C89_clone_partial.
(** A copy made while Python is the backend language reads Python as Rust. *)
Definition c89_ts : ts :=
  mkts plang (fun l _ _ => Some l) (fun t _ => t) (fun _ _ _ => []) (fun _ => pt0).
Theorem C89_python_clone_refuted :
  exists T url b F (s : task_state T) m,
    parse_total T /\ ls_parser (tk_data s) = PPython /\ ls_query (tk_data s) = PPython /\
    ~ same_answer (step F url b (cloned s) m) (step F url b s m).
Proof.
  exists c89_ts, any_url, Debug, c85_fs, (mktask (mkcfg "t" [] "python" true None) (update_backend "python" (ls_default c89_ts)) 0),
    (MDidOpen "file:///a.py" []).
  split; [intros l c old; discriminate|]. split; [reflexivity|]. split; [reflexivity|].
  vm_compute. intros ((_ & _ & H) & _). discriminate.
Qed.
Print Assumptions C89_python_clone_refuted.
Example C89_example :
  exists s : task_state c89_ts, ls_parser (tk_data s) = PRust /\ ls_query (tk_data s) = PRust /\ ls_task (tk_data s) = Some 4 /\
    match step c85_fs any_url Debug s (MDidChange a_html [c86_edit]), step c85_fs any_url Debug (cloned s) (MDidChange a_html [c86_edit]) with
    | Ok (_, es), Ok (_, es') => es = [EAbort 4; ETimer 7 TimerEdit true a_html] /\ es' = [ETimer 7 TimerEdit true a_html]
    | _, _ => False
    end.
Proof.
  exists (mktask config0 (mkls [(a_html, PJinja : tree c89_ts)] [] [(a_html, [97])] PRust PRust config0 (Some 4) true [] [] false false) 7).
  repeat split.
Qed.

(** ** C90: basic counts the uses of variables *)
Theorem C90_basic_counts :
  forall T b src tr ps,
    t_parse T PJinja src None = Some tr -> pieces_ok src ps ->
    concat (t_captures T QObjects tr src) = cap_pieces ps ->
    N.of_nat (length (flat_map uses ps)) < 2147483648 ->
    basic T b src = Ok (Some (Z.of_nat (length (flat_map uses ps)))).
Proof. exact basic_counts. Qed.
Print Assumptions C90_basic_counts.
Example C90_example :
  pieces_ok c64_src c64_ps /\ basic c64_ts Debug c64_src = Ok (Some 5%Z).
Proof. split; [exact (pd_pieces _ _ _ _ _ _ c64_parsed)|vm_compute; reflexivity]. Qed.

(** ** C91: the diagnostics on the screen *)
(** The server is at rest; [u] was refreshed last, by saving it or by the timer
    after an edit, and nothing was linted and [u] not edited since.  Then the
    screen shows exactly the diagnostics of the text in the editor, against the
    names the server knows now. *)
Theorem C91_shown_partial :
  forall T url b l (y : sys T) s u v t tr tp ps sts pre F post,
    exec url b (sys0 T) l = Some y -> at_rest y -> state_of y s ->
    y_taken y = pre ++ (MDidSave u, F) :: post ->
    editor_text u (map fst pre) t -> Forall (still u) (map fst post) ->
    url u = Some v -> file_ext u = Some Template -> scalars t ->
    ls_ignore (tk_data s) = false -> sget u (ls_tt (tk_data s)) = Some tr ->
    parsed T tr (encode t) tp ps sts -> plain_ends tp ->
    exists e1,
      last_published v (y_published y) =
        Some (publish_of (e1 ++ missing_reports F (cf_templates (ls_config (tk_data s))) sts)) /\
      reported (tallied (t_root_end T tr) tp) (SpecLint.indexed (ls_vars (tk_data s))) (chains ps) e1.
Proof. exact @shown_after_save. Qed.
Print Assumptions C91_shown_partial.
Definition c91_run : list action :=
  [AClient (MDidOpen a_html c64_text); ATake (fs_with []); AEffect; AEffect; ADiagTake; ADiagPublish; ADiagPublish; ADiagSend;
   ATake (fs_with []); AEffect;
   AClient (MDidSave a_html); AClient (MHover 1 a_html (mkpos 0 1)); ATake (fs_with []); AEffect; AEffect;
   ADiagTake; ADiagPublish; ADiagPublish; ADiagSend; ATake (fs_with []); AEffect; AEffect; ATake (fs_with []); AEffect].
Definition c91_acts : smap (list identifier) := [(a_html, [ref_id (nd 11 19, "b.html"%string)])].
Example C91_example :
  exists y s pre F post e,
    exec any_url Debug (sys0 c64_ts) c91_run = Some y /\ at_rest y /\ state_of y s /\
    y_taken y = pre ++ (MDidSave a_html, F) :: post /\ editor_text a_html (map fst pre) c64_text /\
    Forall (still a_html) (map fst post) /\ ls_ignore (tk_data s) = false /\
    sget a_html (ls_tt (tk_data s)) = Some (tt : tree c64_ts) /\ parsed c64_ts tt (encode c64_text) c64_tpl c64_ps c64_sts /\
    straight c64_tpl /\ length e = 4%nat /\ last_published a_html (y_published y) = Some e.
Proof.
  eexists. eexists. exists [(MDidOpen a_html c64_text, fs_with []); (MCodeActions c91_acts, fs_with [])], (fs_with []), [(MHover 1 a_html (mkpos 0 1), fs_with []); (MCodeActions c91_acts, fs_with [])]. eexists.
  split; [vm_compute; reflexivity|]. split; [repeat split; eexists; reflexivity|]. split; [left; reflexivity|].
  split; [vm_compute; reflexivity|]. split.
  { cbn [map fst]. apply (et_other a_html [MDidOpen a_html c64_text]); [apply (et_open a_html [])|exact I]. }
  split; [repeat constructor; intros []|]. split; [reflexivity|]. split; [reflexivity|]. split; [exact c64_parsed|].
  split; [cbn; repeat split; repeat constructor|]. split; [|vm_compute; reflexivity]. vm_compute. reflexivity.
Qed.
(** Diagnostics are not refreshed when another document changes: [a] uses a
    variable nobody defines, then [b], which defines it, is opened.  The server
    is at rest, the screen still says "undefined", and saving [a] without any
    change would show something else. *)
Definition c91_ts : ts :=
  mkts string (fun _ c _ => Some c) (fun t _ => t)
    (fun q _ c => match q with
       | QObjects => if String.eqb c "{{ x }}" then [cap_pieces [PExpr (ex 0 7); PChain (tk 3 4 "x") []]] else []
       | QDefinitions => if String.eqb c "{% set x = 1 %}" then [captures_of (TSet (nd 3 6) (tk 7 8 "x") [NEq (nd 9 10)] (nd 0 2) (nd 13 15) TNil)] else []
       | _ => [] end)
    (fun _ => mkpt 0 15).
Definition c91_run2 : list action :=
  [AClient (MDidOpen a_html (ascii_text "{{ x }}")); ATake c85_fs; AEffect; AEffect; ADiagTake; ADiagPublish; ADiagPublish; ADiagSend;
   ATake c85_fs; AEffect;
   AClient (MDidOpen b_html (ascii_text "{% set x = 1 %}")); ATake c85_fs; AEffect; AEffect; ADiagTake; ADiagPublish; ADiagPublish; ADiagSend;
   ATake c85_fs; AEffect].
Theorem C91_stale_refuted :
  exists T F url b l (y : sys T) s u v ds d' e,
    parse_total T /\ exec url b (sys0 T) l = Some y /\ at_rest y /\ state_of y s /\ url u = Some v /\
    last_published v (y_published y) = Some ds /\
    did_save F b u (tk_data s) = Ok (d', Some [(u, e)]) /\ publish_of e <> ds.
Proof.
  exists c91_ts, c85_fs, any_url, Debug, c91_run2. do 2 eexists. exists a_html, a_html. do 3 eexists.
  split; [intros l c old; discriminate|]. split; [vm_compute; reflexivity|]. split; [repeat split; eexists; reflexivity|].
  split; [left; reflexivity|]. split; [reflexivity|]. split; [vm_compute; reflexivity|]. split; [vm_compute; reflexivity|].
  vm_compute. discriminate.
Qed.
Print Assumptions C91_stale_refuted.
(** Exactly when the screen is right: [u] was refreshed last by [MDidSave u];
    since then other documents were opened, edited and saved in any way.  What
    is shown for [u] is what refreshing it now would show, if and only if every
    name [u] uses without declaring it is known to the server now exactly when
    it was known then, and the same templates are missing. *)
Theorem C91_current_iff :
  forall T url b l (y : sys T) s u v t tr tp ps sts pre F post F',
    exec url b (sys0 T) l = Some y -> at_rest y -> state_of y s ->
    y_taken y = pre ++ (MDidSave u, F) :: post ->
    editor_text u (map fst pre) t -> Forall (elsewhere u) (map fst post) ->
    url u = Some v -> (forall u', url u' = Some v -> u' = u) -> file_ext u = Some Template -> scalars t ->
    ls_ignore (tk_data s) = false -> sget u (ls_tt (tk_data s)) = Some tr ->
    parsed T tr (encode t) tp ps sts -> plain_ends tp ->
    exists shown s1 tr1 d es,
      last_published v (y_published y) = Some shown /\
      replay url b (task0 T) (pre ++ [(MDidSave u, F)]) = Ok (s1, tr1) /\
      did_save F' b u (tk_data s) = Ok (d, Some [(u, es)]) /\
      (shown = publish_of es <->
        (forall h fs, In (h, fs) (chains ps) ->
           (forall d0, In d0 (tallied (t_root_end T tr) tp) -> ~ means (snd h) d0) ->
           (SpecLint.indexed (ls_vars (tk_data s1)) (snd h) <-> SpecLint.indexed (ls_vars d) (snd h))) /\
        publish_of (missing_reports F (cf_templates (ls_config (tk_data s))) sts) =
        publish_of (missing_reports F' (cf_templates (ls_config (tk_data s))) sts)).
Proof. exact @shown_current. Qed.
Print Assumptions C91_current_iff.
Definition c91_run3 : list action :=
  [AClient (MDidOpen a_html (ascii_text "{{ x }}")); ATake c85_fs; AEffect; AEffect; ADiagTake; ADiagPublish; ADiagPublish; ADiagSend;
   ATake c85_fs; AEffect;
   AClient (MDidSave a_html); ATake c85_fs; AEffect; AEffect; ADiagTake; ADiagPublish; ADiagPublish; ADiagSend; ATake c85_fs; AEffect;
   AClient (MDidOpen b_html (ascii_text "{% set x = 1 %}")); ATake c85_fs; AEffect; AEffect; ADiagTake; ADiagPublish; ADiagPublish; ADiagSend;
   ATake c85_fs; AEffect].
Example C91_current_example :
  exists y s pre F post d es shown,
    exec any_url Debug (sys0 c91_ts) c91_run3 = Some y /\ at_rest y /\ state_of y s /\
    y_taken y = pre ++ (MDidSave a_html, F) :: post /\ editor_text a_html (map fst pre) (ascii_text "{{ x }}") /\
    Forall (elsewhere a_html) (map fst post) /\ (forall u', any_url u' = Some a_html -> u' = a_html) /\
    ls_ignore (tk_data s) = false /\ sget a_html (ls_tt (tk_data s)) = Some ("{{ x }}"%string : tree c91_ts) /\
    parsed c91_ts "{{ x }}"%string "{{ x }}" TNil [PExpr (ex 0 7); PChain (tk 3 4 "x") []] [] /\ straight TNil /\
    last_published a_html (y_published y) = Some shown /\ did_save c85_fs Debug a_html (tk_data s) = Ok (d, Some [(a_html, es)]) /\
    map dg_message shown = ["Undefined variable"]%string /\ map dg_message (publish_of es) = ["Variable is defined in other file."]%string.
Proof.
  do 2 eexists. eexists [_; _], _, [_; _; _]. do 3 eexists.
  split; [vm_compute; reflexivity|]. split; [repeat split; eexists; reflexivity|]. split; [left; reflexivity|].
  split; [vm_compute; reflexivity|].
  split; [cbn [map fst]; apply (et_other a_html [MDidOpen a_html _]); [apply (et_open a_html [])|exact I]|].
  split; [repeat constructor; discriminate|]. split; [intros u' H; now inversion H|].
  split; [reflexivity|]. split; [reflexivity|]. split.
  { constructor; try reflexivity; try pieces_okay; try exact I; try (cbn; repeat constructor; discriminate).
    - unfold distinct_nodes; cbn; repeat constructor; intros [].
  }
  split; [exact I|]. split; [vm_compute; reflexivity|]. split; [vm_compute; reflexivity|]. split; reflexivity.
Qed.
