(** * PropIndex8: references are looked up with the settings of the last indexing (C138). *)
From Verif Require Import Base RString Utf8 Rope Types Captures MTemplates MDefinition MObjects MLspFiles MSearchErrors MLspTask MChannels MQueries.
From Verif Require Import SpecText SpecFiles SpecBackend SpecObjects SpecLint SpecNav SpecConfig SpecQueries SpecQueries2 SpecQueries4 SpecChannels SpecServer SpecClient SpecQueries5 SpecQueries6 SpecScreen SpecCode SpecSettings SpecIndex SpecIndex2.
From Verif Require Import PConfig PQueries7 PClient PNav3 PIndex8 PropObjects PropLint PropQueries PropQueries2 PropQueries3 PropFiles PropChannels PropQueries4 PropCode PropCode2.

(** ** C138: where references lead *)
(** The workspace was last indexed with the settings [c] before goto was asked for.
    A reference of a template leads to the file it names below the directory of [c]. *)
Theorem C138_template :
  forall parse edit url b, parse_total (ts_with parse edit) ->
  forall l (y : sys (ts_with parse edit)) sy a F rest rid F0 c, exec url b (sys0 (ts_with parse edit)) l = Some y -> y_task y = TIdle sy ->
  forall uri t tr tp ps1 ps2 sts i r pos,
    file_ext uri = Some Template -> editor_text uri (map fst a) t -> conveys parse t tr tp (ps1 ++ ps2) sts ->
    y_taken y = a ++ (MGoto rid uri pos, F) :: rest -> set_up (ts_with parse edit) url b a F0 c -> usable F0 c ->
    In i sts -> In r (refs i) -> proper_name (snd r) -> in_quotes (point_of pos) r -> between (point_of pos) ps1 ps2 ->
    forall u, stands_for F url (cf_templates c) (snd r) u -> In (rid, RGoto (GScalar (mkloc u range0))) (y_replies y).
Proof. exact led_template. Qed.
Print Assumptions C138_template.
(** So does a string with which code loads a template; if there is no such file, or
    the cursor is elsewhere in the code, goto leads nowhere. *)
Theorem C138_code :
  forall parse edit url b, parse_total (ts_with parse edit) ->
  forall l (y : sys (ts_with parse edit)) sy a F rest rid F0 c, exec url b (sys0 (ts_with parse edit)) l = Some y -> y_task y = TIdle sy ->
  forall uri t pos tr, file_ext uri = Some Backend -> editor_text uri (map fst a) t -> y_taken y = a ++ (MGoto rid uri pos, F) :: rest ->
    set_up (ts_with parse edit) url b a F0 c -> usable F0 c ->
    let lang := SpecConfig.lang_of c in
    let src := encode t in
    let cur := point_of pos in
    code_conveys parse lang t tr ->
      (forall ar n, loading lang src tr ar n -> touches cur (loaded_ref src n) -> first_in_line lang src tr cur n ->
         let name := snd (loaded_ref src n) in proper_name name ->
         (forall u, stands_for F url (cf_templates c) name u -> In (rid, RGoto (GScalar (mkloc u range0))) (y_replies y)) /\
         ((forall u, ~ stands_for F url (cf_templates c) name u) -> In (rid, RNull) (y_replies y))) /\
      ((forall ar n, loading lang src tr ar n -> ~ touches cur (loaded_ref src n)) -> In (rid, RNull) (y_replies y)).
Proof. exact led_code. Qed.
Print Assumptions C138_code.

(** The sessions of [C117_example] and [C124_example]. *)
Lemma c138_set_up T rest : set_up T any_url Debug (map (fun m => (m, c117_fs)) (MDidChangeConfiguration (Some (cfg_dir "views")) :: MInitialized :: rest)) c117_fs (cfg_dir "views") \/ In MInitialized rest.
Proof.
  destruct (existsb (fun m => match m with MInitialized => true | _ => false end) rest) eqn:E.
  - right. apply existsb_exists in E. destruct E as (m & Hm & E). destruct m; try discriminate. exact Hm.
  - left. exists [(MDidChangeConfiguration (Some (cfg_dir "views")), c117_fs)], (map (fun m => (m, c117_fs)) rest),
      (mktask (cfg_dir "views") (ls_default T) 0), [(MDidChangeConfiguration (Some (cfg_dir "views")), [ESelf MInitialized])].
    split; [reflexivity|]. split; [|split; reflexivity]. rewrite map_map, map_id. intros H.
    assert (existsb (fun m => match m with MInitialized => true | _ => false end) rest = true) by (apply existsb_exists; exists MInitialized; auto). congruence.
Qed.
Definition c138_before : list msg := c117_told ++ [MCodeActions [(c117_url "a.html", [ref_id c117_b])]; MGoto 5 (c117_url "a.html") (mkpos 0 30)].
Definition c138_code_before : list msg := (c124_told ++ [c124_passed]) ++ [MGoto 5 c124_main (mkpos 0 15)].
Lemma c138_taken : y_taken (snd c117_asked) = map (fun m => (m, c117_fs)) c138_before ++ (MGoto 6 (c117_url "a.html") (mkpos 0 40), c117_fs) :: map (fun m => (m, c117_fs)) (skipn 2 c117_asks).
Proof. vm_compute. reflexivity. Qed.
Lemma c138_code_taken : y_taken (snd c124_asked) = map (fun m => (m, c117_fs)) c138_code_before ++ (MGoto 6 c124_main (mkpos 0 40), c117_fs) :: map (fun m => (m, c117_fs)) (skipn 2 c124_asks).
Proof. vm_compute. reflexivity. Qed.
Example C138_example :
  set_up (always c117_tree) any_url Debug (map (fun m => (m, c117_fs)) c138_before) c117_fs (cfg_dir "views") /\
  set_up (always c124_tree) any_url Debug (map (fun m => (m, c117_fs)) c138_code_before) c117_fs (cfg_dir "views") /\ usable c117_fs (cfg_dir "views") /\
  exec any_url Debug (sys0 (always c117_tree)) (fst c117_open ++ fst c117_asked) = Some (snd c117_asked) /\
  exec any_url Debug (sys0 (always c124_tree)) (fst c124_open ++ fst c124_asked) = Some (snd c124_asked) /\
  editor_text (c117_url "a.html") c138_before (ascii_text c117_src) /\ editor_text c124_main c138_code_before (ascii_text c124_src) /\
  (exists i, In i c117_sts /\ In c117_c (refs i)) /\ proper_name (snd c117_c) /\ in_quotes (mkpt 0 40) c117_c /\ between (mkpt 0 40) c117_ps1 c117_ps2 /\
  stands_for c117_fs any_url "views" (snd c117_c) "file://views/c.html" /\
  stands_for c117_fs any_url "views" (snd (loaded_ref c124_src (nn 13 36 44))) "file://views/c.html" /\
  In (6, RGoto (GScalar (mkloc "file://views/c.html" range0))) (y_replies (snd c117_asked)) /\
  In (6, RGoto (GScalar (mkloc "file://views/c.html" range0))) (y_replies (snd c124_asked)).
Proof.
  split. { destruct (c138_set_up (always c117_tree) (skipn 2 c138_before)) as [H|H]; [exact H|]. exfalso. cbn in H. intuition discriminate. }
  split. { destruct (c138_set_up (always c124_tree) (skipn 2 c138_code_before)) as [H|H]; [exact H|]. exfalso. cbn in H. intuition discriminate. }
  split. { split; [now left|]. intros (d & [-> |[]] & H). cbn in H. intuition discriminate. }
  split; [ran|]. split; [ran|].
  split. { apply (et_other _ [_; _; _; _; _; _; _]); [apply (et_other _ [_; _; _; _; _; _]); [apply (et_open _ [_; _; _; _; _])|exact I]|exact I]. }
  split. { apply (et_other _ [_; _; _; _; _; _; _]); [apply (et_other _ [_; _; _; _; _; _]); [apply (et_open _ [_; _; _; _; _])|exact I]|exact I]. }
  split; [eexists; split; [now left|right; now left]|]. split; [unfold proper_name; vm_compute; intuition discriminate|].
  split; [split; before|]. split; [split; [before|split; [repeat (apply Forall_cons; [before|]); apply Forall_nil|before]]|].
  split; [exists "views/c.html"%string; split; reflexivity|]. split; [exists "views/c.html"%string; split; reflexivity|].
  split; vm_compute; intuition.
Qed.
