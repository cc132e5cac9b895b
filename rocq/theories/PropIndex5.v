(** * PropIndex5: the screen when undefined names are hidden (C135). *)
From Verif Require Import Base RString Utf8 Rope Types Captures MTemplates MDefinition MObjects MLspFiles MSearchErrors MLspTask MChannels MQueries.
From Verif Require Import SpecText SpecFiles SpecScope SpecScope2 SpecObjects SpecLint SpecNav SpecConfig SpecChannels SpecServer SpecClient SpecQueries SpecQueries2 SpecQueries4 SpecQueries5 SpecQueries6 SpecScreen SpecCode SpecSettings SpecIndex SpecIndex2.
From Verif Require Import PConfig PQueries7 PIndex5 PropText PropObjects PropLint PropFiles PropChannels PropQueries PropQueries2 PropQueries3 PropQueries4 PropScreen.

(** ** C135: hide_undefined on the screen *)
(** The workspace was last indexed with [hide_undefined].  Of a template that was just
    read, exactly the references to templates that were not on the disk are shown,
    whatever names it uses and whatever the other files say. *)
Theorem C135_screen :
  forall parse edit url b, parse_total (ts_with parse edit) ->
  forall l (y : sys (ts_with parse edit)) uri v t tr tp ps sts F c, exec url b (sys0 (ts_with parse edit)) l = Some y -> at_rest y ->
    set_up (ts_with parse edit) url b (y_taken y) F c -> usable F c -> cf_hide c = Some true ->
    file_ext uri = Some Template -> just_read uri (map fst (y_taken y)) t -> conveys parse t tr tp ps sts -> url uri = Some v -> (forall u, url u = Some v -> u = uri) ->
    exists F1 s1, last_reading url b y uri F1 s1 /\ last_published v (y_published y) = Some (publish_of (missing_reports F1 (cf_templates c) sts)).
Proof. exact hidden_shown. Qed.
Print Assumptions C135_screen.
(** When only this template is edited, the user needs only wait. *)
Theorem C135_screen_at_rest :
  forall parse edit url b, parse_total (ts_with parse edit) ->
  forall l (y : sys (ts_with parse edit)) uri v t tr tp ps sts F c, exec url b (sys0 (ts_with parse edit)) l = Some y -> at_rest y ->
    set_up (ts_with parse edit) url b (y_taken y) F c -> usable F c -> cf_hide c = Some true ->
    file_ext uri = Some Template -> editor_text uri (map fst (y_taken y)) t -> (forall u cs, In (MDidChange u cs) (map fst (y_taken y)) -> u = uri) ->
    conveys parse t tr tp ps sts -> url uri = Some v -> (forall u, url u = Some v -> u = uri) ->
    exists F1 s1, last_reading url b y uri F1 s1 /\ last_published v (y_published y) = Some (publish_of (missing_reports F1 (cf_templates c) sts)).
Proof. exact hidden_rest. Qed.
Print Assumptions C135_screen_at_rest.

(** The template of C121 has an undefined name and a missing template. *)
Definition c135_cfg : config := mkcfg "views" [] "rust" true (Some true).
Definition c135_run := script (T := always c117_tree) any_url Debug c117_fs true (sys0 (always c117_tree))
  [MDidChangeConfiguration (Some c135_cfg); MDidOpen c121_a (ascii_text c117_src)].
Definition c135_told : list msg :=
  [MDidChangeConfiguration (Some c135_cfg); MInitialized; MCodeActions []; MDidOpen c121_a (ascii_text c117_src); MCodeActions [(c121_a, [ref_id c117_b])]].
Lemma c135_taken : y_taken (snd c135_run) = map (fun m => (m, c117_fs)) c135_told.
Proof. vm_compute. reflexivity. Qed.
Example C135_example :
  exec any_url Debug (sys0 (always c117_tree)) (fst c135_run) = Some (snd c135_run) /\ at_rest (snd c135_run) /\
  set_up (always c117_tree) any_url Debug (y_taken (snd c135_run)) c117_fs c135_cfg /\ usable c117_fs c135_cfg /\ cf_hide c135_cfg = Some true /\
  file_ext c121_a = Some Template /\ just_read c121_a (map fst (y_taken (snd c135_run))) (ascii_text c117_src) /\
  editor_text c121_a (map fst (y_taken (snd c135_run))) (ascii_text c117_src) /\ (forall u cs, In (MDidChange u cs) (map fst (y_taken (snd c135_run))) -> u = c121_a) /\
  conveys (fun _ _ _ => Some c117_tree) (ascii_text c117_src) c117_tree c117_tpl (c117_ps1 ++ c117_ps2) c117_sts /\
  any_url c121_a = Some c121_a /\ (forall u, any_url u = Some c121_a -> u = c121_a) /\
  last_published c121_a (y_published (snd c135_run)) = Some (publish_of [(TemplateNotFound, ref_id c117_b)]).
Proof.
  split; [ran|]. split; [split; [exists (idle_state (snd c135_run)); ran|conj; vm_compute; reflexivity]|].
  split. { rewrite c135_taken. exists [(MDidChangeConfiguration (Some c135_cfg), c117_fs)], (map (fun m => (m, c117_fs)) (skipn 2 c135_told)),
      (mktask c135_cfg (ls_default (always c117_tree)) 0), [(MDidChangeConfiguration (Some c135_cfg), [ESelf MInitialized])].
    split; [reflexivity|]. split; [cbn; intuition discriminate|]. split; reflexivity. }
  split. { split; [now left|]. intros (d & [-> |[]] & H). cbn in H. intuition discriminate. }
  split; [reflexivity|]. split; [reflexivity|]. rewrite c135_taken, map_map, map_id.
  split. { exists (firstn 3 c135_told), (MDidOpen c121_a (ascii_text c117_src)), (skipn 4 c135_told). split; [reflexivity|]. split; [reflexivity|]. split; [apply et_open|]. constructor; [exact I|constructor]. }
  split. { apply (et_other _ [_; _; _; _]); [apply (et_open _ [_; _; _])|exact I]. }
  split. { intros u cs H. repeat (destruct H as [H|H]; [discriminate H|]). destruct H. }
  split; [exact c117_conveys|]. split; [reflexivity|]. split; [intros u H; unfold any_url in H; congruence|]. vm_compute. reflexivity.
Qed.
