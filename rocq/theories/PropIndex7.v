(** * PropIndex7: the quick fixes of templates with the settings of the last indexing (C137). *)
From Verif Require Import Base RString Utf8 Rope Types Captures MTemplates MDefinition MObjects MLspFiles MSearchErrors MLspTask MChannels MQueries.
From Verif Require Import SpecText SpecFiles SpecScope SpecScope2 SpecObjects SpecObjects2 SpecLint SpecNav SpecConfig SpecChannels SpecServer SpecClient SpecQueries SpecQueries2 SpecQueries4 SpecQueries5 SpecQueries6 SpecScreen SpecCode SpecSettings SpecIndex SpecIndex2.
From Verif Require Import PConfig PNav3 PQueries7 PIndex7 PropText PropObjects PropLint PropFiles PropChannels PropQueries PropQueries2 PropQueries3 PropQueries4 PropScreen PropIndex5.

(** ** C137: quick fixes, with [hide_undefined] or without *)
(** The workspace was last indexed with the settings [c]; a template was just read.
    On a reference to a missing template its creation is proposed, below the
    directory of [c]. *)
Theorem C137_fixes :
  forall parse edit url b, parse_total (ts_with parse edit) ->
  forall l (y : sys (ts_with parse edit)) uri t tr tp ps sts F c, exec url b (sys0 (ts_with parse edit)) l = Some y -> at_rest y ->
    set_up (ts_with parse edit) url b (y_taken y) F c -> usable F c ->
    file_ext uri = Some Template -> just_read uri (map fst (y_taken y)) t -> conveys parse t tr tp ps sts ->
    forall y2 rid pos F', asked_next url b y y2 (MCodeAction rid uri pos) F' ->
    exists F1 s1, last_reading url b y uri F1 s1 /\
      (forall r p, unfound F1 (cf_templates c) sts r -> touches (point_of pos) r -> f_canon F' (cf_templates c) = CanonOk p ->
       exists r' u, unfound F1 (cf_templates c) sts r' /\ touches (point_of pos) r' /\ url ("file:///" ++ lookup_path p (snd r'))%string = Some u /\
         In (rid, RCodeActions [CaCreateFile u]) (y_replies y2)) /\
      ((forall r, unfound F1 (cf_templates c) sts r -> ~ touches (point_of pos) r) ->
       forall ps1 ps2, ps = ps1 ++ ps2 -> between (point_of pos) ps1 ps2 ->
         (SpecObjects.inside ps1 (point_of pos) ->
          In (rid, RCodeActions [CaCommand "Reset variables" "reset_variables"; CaCommand "Warn about unused" "warn"]%string) (y_replies y2)) /\
         (outside ps1 (point_of pos) -> In (rid, RNull) (y_replies y2))).
Proof. exact fixes_set_up. Qed.
Print Assumptions C137_fixes.
(** Wherever else the cursor is, no file is proposed. *)
Theorem C137_only_on_missing :
  forall parse edit url b, parse_total (ts_with parse edit) ->
  forall l (y : sys (ts_with parse edit)) uri t tr tp ps sts F c, exec url b (sys0 (ts_with parse edit)) l = Some y -> at_rest y ->
    set_up (ts_with parse edit) url b (y_taken y) F c -> usable F c ->
    file_ext uri = Some Template -> just_read uri (map fst (y_taken y)) t -> conveys parse t tr tp ps sts ->
    forall y2 rid pos F', asked_next url b y y2 (MCodeAction rid uri pos) F' ->
    exists F1 s1, last_reading url b y uri F1 s1 /\
      ((forall r, unfound F1 (cf_templates c) sts r -> ~ touches (point_of pos) r) ->
       exists a, In (rid, a) (y_replies y2) /\
         (a = RNull \/ a = RCodeActions [CaCommand "Reset variables" "reset_variables"; CaCommand "Warn about unused" "warn"]%string)).
Proof. exact only_set_up. Qed.
Print Assumptions C137_only_on_missing.

(** The session of [C135_example], where undefined names are hidden.  The cursor is
    in [b.html], in [c.html] (which exists), in the white space in front of the
    closing bracket of the expression, and behind the expression. *)
Definition c137_ask (c : N) := script (T := always c117_tree) any_url Debug c122_fs false (snd c135_run) [MCodeAction 9 c121_a (mkpos 0 c)].
Definition c137_said (c : N) : Prop :=
  exec any_url Debug (sys0 (always c117_tree)) (fst c135_run ++ fst (c137_ask c)) = Some (snd (c137_ask c)) /\
  y_task (snd (c137_ask c)) = TIdle (idle_state (snd (c137_ask c))) /\
  y_taken (snd (c137_ask c)) = y_taken (snd c135_run) ++ [(MCodeAction 9 c121_a (mkpos 0 c), c122_fs)].
Lemma c137_said_all : Forall c137_said [30; 40; 12; 20].
Proof. repeat (apply Forall_cons; [split; [|split]; ran|]); apply Forall_nil. Qed.
Example C137_example :
  set_up (always c117_tree) any_url Debug (y_taken (snd c135_run)) c117_fs c135_cfg /\ usable c117_fs c135_cfg /\ cf_hide c135_cfg = Some true /\
  just_read c121_a (map fst (y_taken (snd c135_run))) (ascii_text c117_src) /\
  conveys (fun _ _ _ => Some c117_tree) (ascii_text c117_src) c117_tree c117_tpl (c117_ps1 ++ c117_ps2) c117_sts /\
  Forall (fun c => asked_next any_url Debug (snd c135_run) (snd (c137_ask c)) (MCodeAction 9 c121_a (mkpos 0 c)) c122_fs) [30; 40; 12; 20] /\
  unfound c117_fs "views" c117_sts c117_b /\ touches (mkpt 0 30) c117_b /\ f_canon c122_fs "views" = CanonOk "views"%string /\
  Forall (fun c => forall r, unfound c117_fs "views" c117_sts r -> ~ touches (mkpt 0 c) r) [40; 12; 20] /\
  map (fun c => y_replies (snd (c137_ask c))) [30; 40; 12; 20] =
    [[(9, RCodeActions [CaCreateFile "file:///views/b.html"])]; [(9, RNull)];
     [(9, RCodeActions [CaCommand "Reset variables" "reset_variables"; CaCommand "Warn about unused" "warn"])]; [(9, RNull)]]%string.
Proof.
  destruct C135_example as (_ & _ & A1 & A2 & A3 & _ & A4 & _ & _ & A5 & _).
  split; [exact A1|]. split; [exact A2|]. split; [exact A3|]. split; [exact A4|]. split; [exact A5|].
  split. { eapply Forall_impl; [|exact c137_said_all]. intros c (H1 & H2 & H3). exists (fst c135_run ++ fst (c137_ask c)), (idle_state (snd (c137_ask c))), []. auto. }
  split; [split; [now left|vm_compute; reflexivity]|]. split; [split; before|]. split; [reflexivity|].
  split. { repeat (apply Forall_cons; [intros r ([<-|[<-|[]]] & Hm) (H1 & H2); vm_compute in Hm, H1, H2; try discriminate Hm; intuition discriminate|]); apply Forall_nil. }
  vm_compute. reflexivity.
Qed.
