(** * PropIndex6: code is checked against the settings of the last indexing (C136). *)
From Verif Require Import Base RString Utf8 Rope Types Captures MTemplates MDefinition MObjects MLspFiles MSearchErrors MLspTask MChannels MQueries.
From Verif Require Import SpecText SpecFiles SpecBackend SpecObjects SpecLint SpecNav SpecConfig SpecQueries SpecQueries2 SpecQueries4 SpecChannels SpecServer SpecClient SpecQueries5 SpecQueries6 SpecScreen SpecCode SpecSettings SpecIndex SpecIndex2.
From Verif Require Import PConfig PQueries7 PClient PNav3 PIndex6 PropObjects PropLint PropQueries PropQueries2 PropQueries3 PropFiles PropChannels PropQueries4 PropCode PropCode2.

(** ** C136: the settings code is checked with *)
(** The workspace was last indexed with the settings [c].  The screen shows of code
    that was just read exactly the strings that load a template which is missing
    below the directory of [c], by the query for the language of [c]. *)
Theorem C136_screen :
  forall parse edit url b, parse_total (ts_with parse edit) ->
  forall l (y : sys (ts_with parse edit)) uri v t tr F c, exec url b (sys0 (ts_with parse edit)) l = Some y -> at_rest y ->
    set_up (ts_with parse edit) url b (y_taken y) F c -> usable F c ->
    file_ext uri = Some Backend -> just_read uri (map fst (y_taken y)) t -> code_conveys parse (SpecConfig.lang_of c) t tr -> url uri = Some v -> (forall u, url u = Some v -> u = uri) ->
    exists F1 s1 e, last_reading url b y uri F1 s1 /\ last_published v (y_published y) = Some (publish_of e) /\
      forall k i, In (k, i) e <-> k = TemplateNotFound /\ exists r, unloaded F1 (cf_templates c) (SpecConfig.lang_of c) (encode t) tr r /\ i = ref_id r.
Proof. exact code_set_up. Qed.
Print Assumptions C136_screen.
(** When only this file is edited, the user needs only wait. *)
Theorem C136_screen_at_rest :
  forall parse edit url b, parse_total (ts_with parse edit) ->
  forall l (y : sys (ts_with parse edit)) uri v t tr F c, exec url b (sys0 (ts_with parse edit)) l = Some y -> at_rest y ->
    set_up (ts_with parse edit) url b (y_taken y) F c -> usable F c ->
    file_ext uri = Some Backend -> editor_text uri (map fst (y_taken y)) t -> (forall u cs, In (MDidChange u cs) (map fst (y_taken y)) -> u = uri) ->
    code_conveys parse (SpecConfig.lang_of c) t tr -> url uri = Some v -> (forall u, url u = Some v -> u = uri) ->
    exists F1 s1 e, last_reading url b y uri F1 s1 /\ last_published v (y_published y) = Some (publish_of e) /\
      forall k i, In (k, i) e <-> k = TemplateNotFound /\ exists r, unloaded F1 (cf_templates c) (SpecConfig.lang_of c) (encode t) tr r /\ i = ref_id r.
Proof. exact code_set_up_rest. Qed.
Print Assumptions C136_screen_at_rest.
(** The fix that is proposed creates the template below the directory of [c]. *)
Theorem C136_fixes :
  forall parse edit url b, parse_total (ts_with parse edit) ->
  forall l (y : sys (ts_with parse edit)) uri t tr F c, exec url b (sys0 (ts_with parse edit)) l = Some y -> at_rest y ->
    set_up (ts_with parse edit) url b (y_taken y) F c -> usable F c ->
    file_ext uri = Some Backend -> just_read uri (map fst (y_taken y)) t -> code_conveys parse (SpecConfig.lang_of c) t tr ->
    forall y2 rid pos F', asked_next url b y y2 (MCodeAction rid uri pos) F' ->
    exists F1 s1, last_reading url b y uri F1 s1 /\
      (forall r p, unloaded F1 (cf_templates c) (SpecConfig.lang_of c) (encode t) tr r -> touches (point_of pos) r -> f_canon F' (cf_templates c) = CanonOk p ->
       exists r' u, unloaded F1 (cf_templates c) (SpecConfig.lang_of c) (encode t) tr r' /\ touches (point_of pos) r' /\
         url ("file:///" ++ lookup_path p (snd r'))%string = Some u /\ In (rid, RCodeActions [CaCreateFile u]) (y_replies y2)) /\
      ((forall r, unloaded F1 (cf_templates c) (SpecConfig.lang_of c) (encode t) tr r -> ~ touches (point_of pos) r) -> In (rid, RNull) (y_replies y2)).
Proof. exact code_set_up_fix. Qed.
Print Assumptions C136_fixes.

(** The session of [C125_example]: [b.html] and [d.html] are missing below [views]. *)
Example C136_example :
  exec any_url Debug (sys0 (always c124_tree)) (fst c124_open) = Some c125_y /\ at_rest c125_y /\
  set_up (always c124_tree) any_url Debug (y_taken c125_y) c117_fs (cfg_dir "views") /\ usable c117_fs (cfg_dir "views") /\
  file_ext c124_main = Some Backend /\ just_read c124_main (map fst (y_taken c125_y)) (ascii_text c124_src) /\
  editor_text c124_main (map fst (y_taken c125_y)) (ascii_text c124_src) /\ (forall u cs, In (MDidChange u cs) (map fst (y_taken c125_y)) -> u = c124_main) /\
  code_conveys (fun _ _ _ => Some c124_tree) (SpecConfig.lang_of (cfg_dir "views")) (ascii_text c124_src) c124_tree /\
  any_url c124_main = Some c124_main /\ (forall u, any_url u = Some c124_main -> u = c124_main) /\
  last_published c124_main (y_published c125_y) =
    Some (publish_of [(TemplateNotFound, ref_id (loaded_ref c124_src (nn 5 13 21))); (TemplateNotFound, ref_id (loaded_ref c124_src (nn 12 58 66)))]) /\
  Forall (fun c => asked_next any_url Debug c125_y (snd (c125_ask c)) (MCodeAction 9 c124_main (mkpos 0 c)) c125_fs) [15; 40; 28] /\
  map (fun c => y_replies (snd (c125_ask c))) [15; 40; 28] = [[(9, RCodeActions [CaCreateFile "file:///views/b.html"])]; [(9, RNull)]; [(9, RNull)]]%string.
Proof.
  split; [exact c125_run|]. split; [exact (proj1 c125_rest)|].
  split. { rewrite c125_taken. exists [(MDidChangeConfiguration (Some (cfg_dir "views")), c117_fs)], (map (fun m => (m, c117_fs)) (skipn 2 (c124_told ++ [c124_passed]))),
      (mktask (cfg_dir "views") (ls_default (always c124_tree)) 0), [(MDidChangeConfiguration (Some (cfg_dir "views")), [ESelf MInitialized])].
    split; [reflexivity|]. split; [cbn; intuition discriminate|]. split; reflexivity. }
  split. { split; [now left|]. intros (d & [-> |[]] & H). cbn in H. intuition discriminate. }
  split; [reflexivity|]. split; [exact c125_read|]. rewrite c125_taken, map_map, map_id.
  split. { apply (et_other _ [_; _; _; _; _; _]); [apply (et_open _ [_; _; _; _; _])|exact I]. }
  split. { intros u cs H. repeat (destruct H as [H|H]; [discriminate H|]). destruct H. }
  split; [exact c124_conveys|]. split; [reflexivity|]. split; [intros u H; unfold any_url in H; congruence|].
  split; [vm_compute; reflexivity|]. split; [exact c125_asked_all|]. vm_compute. reflexivity.
Qed.
