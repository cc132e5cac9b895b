(** * PropScreen: what is on the screen of a session, and the quick fixes (C121, C122). *)
From Verif Require Import Base RString Utf8 Rope Types Captures MTemplates MDefinition MObjects MLspFiles MSearchErrors MLspTask MChannels MQueries.
From Verif Require Import SpecText SpecFiles SpecScope SpecScope2 SpecObjects SpecLint SpecNav SpecQueries SpecQueries2 SpecQueries4 SpecChannels SpecServer SpecClient SpecQueries5 SpecScreen.
From Verif Require Import PQueries7 PClient PScreen PropObjects PropLint PropFiles PropChannels PropQueries PropQueries2 PropQueries3 PropQueries4.

(** ** C121: the diagnostics on the screen are those of the text in the editor *)
(** The server is at rest and the template was read after its last edit.  The
    screen shows one report for every use without a visible definition and one for
    every reference to a missing template, as written in the editor, in this order
    and nothing else; against the names the server knew and the files there were
    when the template was last read. *)
Theorem C121_screen :
  forall parse edit url b, parse_total (ts_with parse edit) ->
  forall l (y : sys (ts_with parse edit)) s uri v t tr tp ps sts,
    exec url b (sys0 (ts_with parse edit)) l = Some y -> at_rest y -> state_of y s ->
    file_ext uri = Some Template -> just_read uri (map fst (y_taken y)) t -> conveys parse t tr tp ps sts ->
    ls_ignore (tk_data s) = false -> url uri = Some v -> (forall u, url u = Some v -> u = uri) ->
    exists F s1 e1, last_reading url b y uri F s1 /\
      last_published v (y_published y) =
        Some (publish_of (e1 ++ missing_reports F (cf_templates (ls_config (tk_data s))) sts)) /\
      reported (defines tr tp) (SpecLint.indexed (ls_vars (tk_data s1))) (chains ps) e1.
Proof. exact screen. Qed.
Print Assumptions C121_screen.
(** When one document is edited, the user needs only wait. *)
Theorem C121_screen_at_rest :
  forall parse edit url b, parse_total (ts_with parse edit) ->
  forall l (y : sys (ts_with parse edit)) s uri v t tr tp ps sts,
    exec url b (sys0 (ts_with parse edit)) l = Some y -> at_rest y -> state_of y s -> ls_chan (tk_data s) = true ->
    file_ext uri = Some Template -> editor_text uri (map fst (y_taken y)) t -> conveys parse t tr tp ps sts ->
    (forall u cs, In (MDidChange u cs) (map fst (y_taken y)) -> u = uri) ->
    ls_ignore (tk_data s) = false -> url uri = Some v -> (forall u, url u = Some v -> u = uri) ->
    exists F s1 e1, last_reading url b y uri F s1 /\
      last_published v (y_published y) =
        Some (publish_of (e1 ++ missing_reports F (cf_templates (ls_config (tk_data s))) sts)) /\
      reported (defines tr tp) (SpecLint.indexed (ls_vars (tk_data s1))) (chains ps) e1.
Proof. exact screen_at_rest. Qed.
Print Assumptions C121_screen_at_rest.
(** The session of [C117_example], before anything is asked. *)
Definition c121_y := snd c117_open.
Definition c121_a : string := c117_url "a.html".
Definition c121_told : list msg := c117_told ++ [MCodeActions [(c121_a, [ref_id c117_b])]].
Lemma c121_taken : y_taken c121_y = map (fun m => (m, c117_fs)) c121_told.
Proof. vm_compute. reflexivity. Qed.
Lemma c121_run : exec any_url Debug (sys0 (always c117_tree)) (fst c117_open) = Some c121_y.
Proof. ran. Qed.
Definition c121_s : task_state (always c117_tree) := idle_state c121_y.
Lemma c121_rest : at_rest c121_y /\ state_of c121_y c121_s /\ ls_chan (tk_data c121_s) = true /\ ls_ignore (tk_data c121_s) = false /\
  cf_templates (ls_config (tk_data c121_s)) = "views"%string.
Proof.
  split; [split; [exists c121_s; ran|conj; vm_compute; reflexivity]|]. split; [left; ran|].
  conj; vm_compute; reflexivity.
Qed.
Lemma c121_read : just_read c121_a (map fst (y_taken c121_y)) (ascii_text c117_src).
Proof.
  assert (E : map fst (y_taken c121_y) = c121_told) by (rewrite c121_taken, map_map, map_id; reflexivity). rewrite E.
  exists (firstn 5 c117_told), (MDidOpen c121_a (ascii_text c117_src)), [MCodeActions [(c121_a, [ref_id c117_b])]].
  split; [reflexivity|]. split; [reflexivity|]. split; [apply et_open|]. constructor; [exact I|constructor].
Qed.
Example C121_example :
  exec any_url Debug (sys0 (always c117_tree)) (fst c117_open) = Some c121_y /\
  at_rest c121_y /\ state_of c121_y c121_s /\ ls_chan (tk_data c121_s) = true /\ ls_ignore (tk_data c121_s) = false /\
  file_ext c121_a = Some Template /\ any_url c121_a = Some c121_a /\ (forall u, any_url u = Some c121_a -> u = c121_a) /\
  just_read c121_a (map fst (y_taken c121_y)) (ascii_text c117_src) /\
  conveys (fun _ _ _ => Some c117_tree) (ascii_text c117_src) c117_tree c117_tpl (c117_ps1 ++ c117_ps2) c117_sts /\
  (forall u cs, ~ In (MDidChange u cs) (map fst (y_taken c121_y))) /\
  last_published c121_a (y_published c121_y) =
    Some (publish_of [(Undefined, use_id (wt 4 3 4 "x", [])); (TemplateNotFound, ref_id c117_b)]).
Proof.
  split; [exact c121_run|]. destruct c121_rest as (H1 & H2 & H3 & H4 & _). split; [exact H1|]. split; [exact H2|]. split; [exact H3|]. split; [exact H4|].
  split; [reflexivity|]. split; [reflexivity|]. split; [intros u H; unfold any_url in H; congruence|]. split; [exact c121_read|]. split; [exact c117_conveys|].
  split; [|vm_compute; reflexivity]. intros u cs. rewrite c121_taken, map_map, map_id. intros H. repeat (destruct H as [H|H]; [discriminate H|]). destruct H.
Qed.

(** ** C122: quick fixes *)
(** On a missing template its creation is proposed, below the directory of the
    templates; in the white space of an expression (and nowhere else) the two
    commands. *)
Theorem C122_fixes :
  forall parse edit url b, parse_total (ts_with parse edit) ->
  forall l (y : sys (ts_with parse edit)) s uri t tr tp ps sts,
    exec url b (sys0 (ts_with parse edit)) l = Some y -> at_rest y -> state_of y s ->
    file_ext uri = Some Template -> just_read uri (map fst (y_taken y)) t -> conveys parse t tr tp ps sts ->
    ls_ignore (tk_data s) = false ->
    forall y2 rid pos F', asked_next url b y y2 (MCodeAction rid uri pos) F' ->
    let dir := cf_templates (ls_config (tk_data s)) in
    exists F s1, last_reading url b y uri F s1 /\
      (forall r p, unfound F dir sts r -> touches (point_of pos) r -> f_canon F' dir = CanonOk p ->
       exists r' u, unfound F dir sts r' /\ touches (point_of pos) r' /\
         url ("file:///" ++ lookup_path p (snd r'))%string = Some u /\
         In (rid, RCodeActions [CaCreateFile u]) (y_replies y2)) /\
      ((forall r, unfound F dir sts r -> ~ touches (point_of pos) r) ->
       forall ps1 ps2, ps = ps1 ++ ps2 -> between (point_of pos) ps1 ps2 ->
         (SpecObjects.inside ps1 (point_of pos) ->
          In (rid, RCodeActions [CaCommand "Reset variables" "reset_variables"; CaCommand "Warn about unused" "warn"]%string) (y_replies y2)) /\
         (outside ps1 (point_of pos) -> In (rid, RNull) (y_replies y2))).
Proof. exact fix_create. Qed.
Print Assumptions C122_fixes.
(** Wherever else the cursor is, no file is proposed. *)
Theorem C122_only_on_missing :
  forall parse edit url b, parse_total (ts_with parse edit) ->
  forall l (y : sys (ts_with parse edit)) s uri t tr tp ps sts,
    exec url b (sys0 (ts_with parse edit)) l = Some y -> at_rest y -> state_of y s ->
    file_ext uri = Some Template -> just_read uri (map fst (y_taken y)) t -> conveys parse t tr tp ps sts ->
    ls_ignore (tk_data s) = false ->
    forall y2 rid pos F', asked_next url b y y2 (MCodeAction rid uri pos) F' ->
    exists F s1, last_reading url b y uri F s1 /\
      ((forall r, unfound F (cf_templates (ls_config (tk_data s))) sts r -> ~ touches (point_of pos) r) ->
       exists a, In (rid, a) (y_replies y2) /\
         (a = RNull \/
          a = RCodeActions [CaCommand "Reset variables" "reset_variables"; CaCommand "Warn about unused" "warn"]%string)).
Proof. exact fix_only. Qed.
Print Assumptions C122_only_on_missing.
Definition c122_fs : fs := fs_with ["views"%string; "views/c.html"%string].
Definition c122_ask (c : N) := script (T := always c117_tree) any_url Debug c122_fs false c121_y [MCodeAction 9 c121_a (mkpos 0 c)].
Lemma c122_asked c y2 : exec any_url Debug (sys0 (always c117_tree)) (fst c117_open ++ fst (c122_ask c)) = Some (snd (c122_ask c)) ->
  (exists s, y_task (snd (c122_ask c)) = TIdle s) -> y2 = snd (c122_ask c) ->
  y_taken y2 = y_taken c121_y ++ [(MCodeAction 9 c121_a (mkpos 0 c), c122_fs)] ->
  asked_next any_url Debug c121_y y2 (MCodeAction 9 c121_a (mkpos 0 c)) c122_fs.
Proof. intros H1 (s & H2) -> H3. exists (fst c117_open ++ fst (c122_ask c)), s, []. auto. Qed.
Definition c122_task (c : N) : task_state (always c117_tree) := idle_state (snd (c122_ask c)).
Definition c122_said (c : N) : Prop :=
  exec any_url Debug (sys0 (always c117_tree)) (fst c117_open ++ fst (c122_ask c)) = Some (snd (c122_ask c)) /\
  y_task (snd (c122_ask c)) = TIdle (c122_task c) /\
  y_taken (snd (c122_ask c)) = y_taken c121_y ++ [(MCodeAction 9 c121_a (mkpos 0 c), c122_fs)].
Lemma c122_said_all : Forall c122_said [30; 40; 12; 20].
Proof. repeat (apply Forall_cons; [split; [|split]; ran|]); apply Forall_nil. Qed.
(** The cursor in [b.html], in [c.html] (which exists), in the white space in front
    of the closing bracket of the expression, and behind the expression. *)
Example C122_example :
  Forall (fun c => asked_next any_url Debug c121_y (snd (c122_ask c)) (MCodeAction 9 c121_a (mkpos 0 c)) c122_fs) [30; 40; 12; 20] /\
  unfound c117_fs "views" c117_sts c117_b /\ ~ unfound c117_fs "views" c117_sts c117_c /\
  touches (mkpt 0 30) c117_b /\ Forall (fun c => ~ touches (mkpt 0 c) c117_b) [40; 12; 20] /\
  Forall (fun c => between (mkpt 0 c) (firstn 3 c117_ps1) (skipn 3 c117_ps1 ++ c117_ps2)) [12; 20] /\
  SpecObjects.inside (firstn 3 c117_ps1) (mkpt 0 12) /\ outside (firstn 3 c117_ps1) (mkpt 0 20) /\
  f_canon c122_fs "views" = CanonOk "views"%string /\
  map (fun c => y_replies (snd (c122_ask c))) [30; 40; 12; 20] =
    [[(9, RCodeActions [CaCreateFile "file:///views/b.html"])]; [(9, RNull)];
     [(9, RCodeActions [CaCommand "Reset variables" "reset_variables"; CaCommand "Warn about unused" "warn"])]; [(9, RNull)]]%string.
Proof.
  split.
  { eapply Forall_impl; [|exact c122_said_all]. intros c (H1 & H2 & H3). apply c122_asked; eauto. }
  split; [split; [now left|vm_compute; reflexivity]|]. split; [intros (_ & H); vm_compute in H; discriminate|].
  split; [split; before|]. split; [repeat (apply Forall_cons; [intros (H1 & H2); vm_compute in H1, H2; intuition discriminate|]); apply Forall_nil|].
  split. { repeat (apply Forall_cons; [split; [before|split; [repeat (apply Forall_cons; [before|]); apply Forall_nil|before]]|]); apply Forall_nil. }
  split; [exists [], (xn 2 0 14), [PChain (wt 4 3 4 "x") []; PFilter (wt 5 5 6 "|") (wt 6 6 11 "upper")]; split; [reflexivity|split; [repeat constructor|before]]|].
  split; [intros n [H|[H|[H|[]]]]; try discriminate H; injection H as <-; before|].
  split; [reflexivity|]. vm_compute. reflexivity.
Qed.
