(** * PropCode2: property C125 (what is on the screen about Rust and Python code). *)
From Verif Require Import Base RString Utf8 Rope Types Captures.
From Verif Require Import MDefinition MObjects MTemplates MSearchErrors MLspFiles MLspTask MChannels MQueries.
From Verif Require Import SpecText SpecFiles SpecBackend SpecObjects SpecLint SpecNav SpecConfig SpecQueries SpecQueries2 SpecQueries4 SpecChannels SpecServer SpecClient SpecQueries5 SpecQueries6 SpecScreen SpecCode.
From Verif Require Import PQueries7 PClient PNav3 PCode PCode2 PCode3 PropObjects PropLint PropQueries PropQueries2 PropQueries3 PropFiles PropChannels PropQueries4 PropCode.

(** ** C125: the templates code loads *)
(** The server is at rest and the code was read after its last edit.  The screen
    shows a report for every string that loads a template which was not there when
    the code was read, and nothing else. *)
Theorem C125_screen :
  forall parse edit url b, parse_total (ts_with parse edit) ->
  forall l (y : sys (ts_with parse edit)) s uri v t tr,
    exec url b (sys0 (ts_with parse edit)) l = Some y -> at_rest y -> state_of y s ->
    file_ext uri = Some Backend -> just_read uri (map fst (y_taken y)) t ->
    let lang := SpecConfig.lang_of (ls_config (tk_data s)) in
    let dir := cf_templates (ls_config (tk_data s)) in
    code_conveys parse lang t tr -> url uri = Some v -> (forall u, url u = Some v -> u = uri) ->
    exists F s1 e, last_reading url b y uri F s1 /\ last_published v (y_published y) = Some (publish_of e) /\
      forall k i, In (k, i) e <-> k = TemplateNotFound /\ exists r, unloaded F dir lang (encode t) tr r /\ i = ref_id r.
Proof. exact screen_code. Qed.
Print Assumptions C125_screen.
(** When one document is edited, the user needs only wait. *)
Theorem C125_screen_at_rest :
  forall parse edit url b, parse_total (ts_with parse edit) ->
  forall l (y : sys (ts_with parse edit)) s uri v t tr,
    exec url b (sys0 (ts_with parse edit)) l = Some y -> at_rest y -> state_of y s -> ls_chan (tk_data s) = true ->
    file_ext uri = Some Backend -> editor_text uri (map fst (y_taken y)) t ->
    let lang := SpecConfig.lang_of (ls_config (tk_data s)) in
    let dir := cf_templates (ls_config (tk_data s)) in
    code_conveys parse lang t tr -> (forall u cs, In (MDidChange u cs) (map fst (y_taken y)) -> u = uri) ->
    url uri = Some v -> (forall u, url u = Some v -> u = uri) ->
    exists F s1 e, last_reading url b y uri F s1 /\ last_published v (y_published y) = Some (publish_of e) /\
      forall k i, In (k, i) e <-> k = TemplateNotFound /\ exists r, unloaded F dir lang (encode t) tr r /\ i = ref_id r.
Proof. exact screen_code_at_rest. Qed.
Print Assumptions C125_screen_at_rest.
(** On such a string the creation of the template is proposed, below the directory
    of the templates; elsewhere nothing is. *)
Theorem C125_fixes :
  forall parse edit url b, parse_total (ts_with parse edit) ->
  forall l (y : sys (ts_with parse edit)) s uri t tr,
    exec url b (sys0 (ts_with parse edit)) l = Some y -> at_rest y -> state_of y s ->
    file_ext uri = Some Backend -> just_read uri (map fst (y_taken y)) t ->
    let lang := SpecConfig.lang_of (ls_config (tk_data s)) in
    let dir := cf_templates (ls_config (tk_data s)) in
    code_conveys parse lang t tr ->
    forall y2 rid pos F', asked_next url b y y2 (MCodeAction rid uri pos) F' ->
    exists F s1, last_reading url b y uri F s1 /\
      (forall r p, unloaded F dir lang (encode t) tr r -> touches (point_of pos) r -> f_canon F' dir = CanonOk p ->
       exists r' u, unloaded F dir lang (encode t) tr r' /\ touches (point_of pos) r' /\
         url ("file:///" ++ lookup_path p (snd r'))%string = Some u /\
         In (rid, RCodeActions [CaCreateFile u]) (y_replies y2)) /\
      ((forall r, unloaded F dir lang (encode t) tr r -> ~ touches (point_of pos) r) -> In (rid, RNull) (y_replies y2)).
Proof. exact fix_code. Qed.
Print Assumptions C125_fixes.

(** The session of [C124_example], before anything is asked: [b.html] and [d.html]
    are missing, [c.html] is not. *)
Definition c125_y := snd c124_open.
Lemma c125_taken : y_taken c125_y = map (fun m => (m, c117_fs)) (c124_told ++ [c124_passed]).
Proof. vm_compute. reflexivity. Qed.
Lemma c125_run : exec any_url Debug (sys0 (always c124_tree)) (fst c124_open) = Some c125_y.
Proof. ran. Qed.
Definition c125_s : task_state (always c124_tree) := idle_state c125_y.
Lemma c125_rest : at_rest c125_y /\ state_of c125_y c125_s /\ ls_chan (tk_data c125_s) = true /\
  cf_templates (ls_config (tk_data c125_s)) = "views"%string /\ SpecConfig.lang_of (ls_config (tk_data c125_s)) = PRust.
Proof.
  assert (E : y_task c125_y = TIdle c125_s) by (ran).
  split; [split; [exists c125_s; exact E|conj; vm_compute; reflexivity]|]. split; [left; exact E|].
  conj; vm_compute; reflexivity.
Qed.
Lemma c125_read : just_read c124_main (map fst (y_taken c125_y)) (ascii_text c124_src).
Proof.
  rewrite c125_taken, map_map, map_id.
  exists (firstn 5 c124_told), (MDidOpen c124_main (ascii_text c124_src)), [c124_passed].
  split; [reflexivity|]. split; [reflexivity|]. split; [apply et_open|]. constructor; [exact I|constructor].
Qed.
Lemma c125_unloaded r : unloaded c117_fs "views" PRust c124_src c124_tree r ->
  r = loaded_ref c124_src (nn 5 13 21) \/ r = loaded_ref c124_src (nn 12 58 66).
Proof.
  intros (ar & n & Hn & -> & Hf). apply c124_loading in Hn. destruct Hn as [(-> & ->)|[(-> & ->)| ->]]; [now left|vm_compute in Hf; discriminate|now right].
Qed.
Definition c125_fs : fs := fs_with ["views"%string; "views/c.html"%string].
Definition c125_ask (c : N) := script (T := always c124_tree) any_url Debug c125_fs false c125_y [MCodeAction 9 c124_main (mkpos 0 c)].
Lemma c125_asked c y2 : exec any_url Debug (sys0 (always c124_tree)) (fst c124_open ++ fst (c125_ask c)) = Some (snd (c125_ask c)) ->
  (exists s, y_task (snd (c125_ask c)) = TIdle s) -> y2 = snd (c125_ask c) ->
  y_taken y2 = y_taken c125_y ++ [(MCodeAction 9 c124_main (mkpos 0 c), c125_fs)] ->
  asked_next any_url Debug c125_y y2 (MCodeAction 9 c124_main (mkpos 0 c)) c125_fs.
Proof. intros H1 (s & H2) -> H3. exists (fst c124_open ++ fst (c125_ask c)), s, []. auto. Qed.
Definition c125_task (c : N) : task_state (always c124_tree) := idle_state (snd (c125_ask c)).
Definition c125_said (c : N) : Prop :=
  exec any_url Debug (sys0 (always c124_tree)) (fst c124_open ++ fst (c125_ask c)) = Some (snd (c125_ask c)) /\
  y_task (snd (c125_ask c)) = TIdle (c125_task c) /\
  y_taken (snd (c125_ask c)) = y_taken c125_y ++ [(MCodeAction 9 c124_main (mkpos 0 c), c125_fs)].
Lemma c125_said_all : Forall c125_said [15; 40; 28].
Proof. repeat (apply Forall_cons; [split; [|split]; ran|]); apply Forall_nil. Qed.
Lemma c125_asked_all : Forall (fun c => asked_next any_url Debug c125_y (snd (c125_ask c)) (MCodeAction 9 c124_main (mkpos 0 c)) c125_fs) [15; 40; 28].
Proof. eapply Forall_impl; [|exact c125_said_all]. intros c (H1 & H2 & H3). apply c125_asked; eauto. Qed.
(** The cursor in [b.html], in [c.html], and in no string. *)
Example C125_example :
  exec any_url Debug (sys0 (always c124_tree)) (fst c124_open) = Some c125_y /\
  at_rest c125_y /\ state_of c125_y c125_s /\ ls_chan (tk_data c125_s) = true /\
  cf_templates (ls_config (tk_data c125_s)) = "views"%string /\ SpecConfig.lang_of (ls_config (tk_data c125_s)) = PRust /\
  file_ext c124_main = Some Backend /\ any_url c124_main = Some c124_main /\ (forall u, any_url u = Some c124_main -> u = c124_main) /\
  just_read c124_main (map fst (y_taken c125_y)) (ascii_text c124_src) /\
  code_conveys (fun _ _ _ => Some c124_tree) PRust (ascii_text c124_src) c124_tree /\
  (forall u cs, ~ In (MDidChange u cs) (map fst (y_taken c125_y))) /\
  unloaded c117_fs "views" PRust c124_src c124_tree (loaded_ref c124_src (nn 5 13 21)) /\
  last_published c124_main (y_published c125_y) =
    Some (publish_of [(TemplateNotFound, ref_id (loaded_ref c124_src (nn 5 13 21))); (TemplateNotFound, ref_id (loaded_ref c124_src (nn 12 58 66)))]) /\
  Forall (fun c => asked_next any_url Debug c125_y (snd (c125_ask c)) (MCodeAction 9 c124_main (mkpos 0 c)) c125_fs) [15; 40; 28] /\
  touches (mkpt 0 15) (loaded_ref c124_src (nn 5 13 21)) /\
  Forall (fun c => forall r, unloaded c117_fs "views" PRust c124_src c124_tree r -> ~ touches (mkpt 0 c) r) [40; 28] /\
  f_canon c125_fs "views" = CanonOk "views"%string /\
  map (fun c => y_replies (snd (c125_ask c))) [15; 40; 28] = [[(9, RCodeActions [CaCreateFile "file:///views/b.html"])]; [(9, RNull)]; [(9, RNull)]]%string.
Proof.
  split; [exact c125_run|]. destruct c125_rest as (H1 & H2 & H3 & H4 & H5). repeat (split; [assumption|]).
  split; [reflexivity|]. split; [reflexivity|]. split; [intros u H; unfold any_url in H; congruence|]. split; [exact c125_read|]. split; [exact c124_conveys|].
  split. { intros u cs. rewrite c125_taken, map_map, map_id. intros H. repeat (destruct H as [H|H]; [discriminate H|]). destruct H. }
  split. { exists c124_first_args, (nn 5 13 21). split; [exact (proj1 c124_loads)|]. split; [reflexivity|vm_compute; reflexivity]. }
  split; [vm_compute; reflexivity|].
  split; [exact c125_asked_all|].
  split; [split; before|].
  split. { repeat (apply Forall_cons; [intros r Hr (A & B); apply c125_unloaded in Hr; destruct Hr as [-> | ->]; vm_compute in A, B; intuition discriminate|]); apply Forall_nil. }
  split; [reflexivity|]. vm_compute. reflexivity.
Qed.
