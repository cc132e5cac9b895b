(** * PropIndex3: a template that is edited after the workspace was indexed (C132). *)
From Verif Require Import Base RString Utf8 Rope Types Captures MTemplates MDefinition MObjects MLspFiles MSearchErrors MLspTask MChannels MQueries.
From Verif Require Import SpecText SpecFiles SpecScope SpecScope2 SpecObjects SpecLint SpecNav SpecConfig SpecChannels SpecServer SpecClient SpecQueries SpecQueries2 SpecQueries4 SpecQueries5 SpecQueries6 SpecScreen SpecCode SpecSettings SpecIndex.
From Verif Require Import PConfig PQueries7 PIndex PIndex2 PIndex3 PropText PropObjects PropLint PropFiles PropChannels PropQueries PropQueries2 PropQueries3 PropQueries4 PropCode PropCode3 PropIndex PropIndex2.

(** ** C132: edits are checked against the whole workspace *)
(** The workspace was indexed and no file but the template was read since.  When the
    template was just read, exactly its mistakes are on the screen: a name is reported
    as undefined, or as defined elsewhere, according to what it defines itself and what
    is written in the other files on the disk. *)
Theorem C132_screen :
  forall parse edit url b, parse_total (ts_with parse edit) ->
  forall l (y : sys (ts_with parse edit)) uri v t tr tp ps sts F c, exec url b (sys0 (ts_with parse edit)) l = Some y -> at_rest y ->
    indexed_but (ts_with parse edit) url b (y_taken y) uri F c -> usable F c -> sound_workspace parse F c -> cf_hide c <> Some true ->
    file_ext uri = Some Template -> just_read uri (map fst (y_taken y)) t -> conveys parse t tr tp ps sts ->
    url uri = Some v -> (forall u, url u = Some v -> u = uri) ->
    exists F1 s1 e1, last_reading url b y uri F1 s1 /\
      last_published v (y_published y) = Some (publish_of (e1 ++ missing_reports F1 (cf_templates c) sts)) /\
      reported (defines tr tp) (at_hand parse F c uri (defines tr tp)) (chains ps) e1.
Proof. exact workspace_screen. Qed.
Print Assumptions C132_screen.
(** When only the template is edited, the user needs only wait. *)
Theorem C132_screen_at_rest :
  forall parse edit url b, parse_total (ts_with parse edit) ->
  forall l (y : sys (ts_with parse edit)) uri v t tr tp ps sts F c, exec url b (sys0 (ts_with parse edit)) l = Some y -> at_rest y ->
    indexed_but (ts_with parse edit) url b (y_taken y) uri F c -> usable F c -> sound_workspace parse F c -> cf_hide c <> Some true ->
    file_ext uri = Some Template -> editor_text uri (map fst (y_taken y)) t -> (forall u cs, In (MDidChange u cs) (map fst (y_taken y)) -> u = uri) ->
    conveys parse t tr tp ps sts -> url uri = Some v -> (forall u, url u = Some v -> u = uri) ->
    exists F1 s1 e1, last_reading url b y uri F1 s1 /\
      last_published v (y_published y) = Some (publish_of (e1 ++ missing_reports F1 (cf_templates c) sts)) /\
      reported (defines tr tp) (at_hand parse F c uri (defines tr tp)) (chains ps) e1.
Proof. exact workspace_rest. Qed.
Print Assumptions C132_screen_at_rest.

(** In the workspace of C130 the template is opened and [g] replaced by [h]. *)
Definition c132_src : string := "{{ h }}".
Definition c132_tpl : tpl := TExpr [NId (wt 4 3 4 "h")] TNil.
Definition c132_ps : list piece := [PExpr (xn 2 0 7); PChain (wt 4 3 4 "h") []].
Lemma c132_conveys : conveys c126_parse (ascii_text c132_src) c126_tree c132_tpl c132_ps [].
Proof.
  constructor; [repeat constructor|intros old; reflexivity|whole| |placed_tree|cbn; repeat split; repeat constructor].
  change (encode (ascii_text c132_src)) with c132_src.
  constructor.
  - unfold root_kind. cbn. intuition discriminate.
  - unfold told_apart. vm_compute. repeat constructor; cbn; intuition discriminate.
  - vm_compute. repeat constructor; discriminate.
  - vm_compute. repeat constructor; discriminate.
  - cbn. repeat split; try discriminate; repeat constructor; try discriminate.
  - apply told_of. vm_compute. reflexivity.
  - split; [repeat (apply Forall_cons; [piece_okay|]); apply Forall_nil|exists (mkpt 0 1); split; [right; cbn; lia|]; vm_compute; intuition discriminate].
  - repeat constructor.
  - exact (spoken_of c132_src (preorder c126_tree)).
  - constructor.
  - cbn [c126_tree s_children map snd]. apply LdOther; [now apply innerb_ok|constructor].
Qed.
Definition c132_edit : list change := [mkchange (Some (mkrange (mkpos 0 3) (mkpos 0 4))) [104]].
Definition c132_run := script (T := c126_ts) any_url Debug c130_fs true (snd c131_open) [MDidChange (file_uri c130_a) c132_edit].
Definition c132_told : list msg :=
  ((c131_told c126_src [(file_uri c130_a, [])] ++ [MDidChange (file_uri c130_a) c132_edit]) ++ [MDidSave (file_uri c130_a)]) ++ [MCodeActions [(file_uri c130_a, [])]].
Lemma c132_taken : y_taken (snd c132_run) = map (fun m => (m, c130_fs)) c132_told.
Proof. vm_compute. reflexivity. Qed.
Lemma c132_fst : map fst (y_taken (snd c132_run)) = c132_told.
Proof. vm_compute. reflexivity. Qed.
Lemma c132_edited : easy_changes (ascii_text c126_src) c132_edit (ascii_text c132_src).
Proof.
  apply easy_cons with (t1 := ascii_text c132_src); [|apply easy_nil]. exists 3%nat, 4%nat.
  assert (H3 : index_of (ascii_text c126_src) (mkpos 0 3) 3) by (exists (ascii_text c126_src), [], 3%nat; repeat split; cbn; lia).
  assert (H4 : index_of (ascii_text c126_src) (mkpos 0 4) 4) by (exists (ascii_text c126_src), [], 4%nat; repeat split; cbn; lia).
  split; [exact H3|]. split; [exact H4|]. split; [lia|]. split; [reflexivity|]. split; [intros c H; vm_compute in H; tauto|].
  split; split; repeat constructor.
Qed.
Lemma c132_before_save : editor_text (file_uri c130_a) (c131_told c126_src [(file_uri c130_a, [])] ++ [MDidChange (file_uri c130_a) c132_edit]) (ascii_text c132_src).
Proof.
  eapply et_change; [|exact c132_edited].
  apply (et_other _ (firstn 4 (c131_told c126_src [(file_uri c130_a, [])]))); [exact (et_open _ (firstn 3 (c131_told c126_src [(file_uri c130_a, [])])) _)|exact I].
Qed.
Example C132_example :
  exec any_url Debug (sys0 c126_ts) ((fst c130_run ++ fst c131_open) ++ fst c132_run) = Some (snd c132_run) /\ at_rest (snd c132_run) /\
  indexed_but c126_ts any_url Debug (y_taken (snd c132_run)) (file_uri c130_a) c130_fs c130_cfg /\
  usable c130_fs c130_cfg /\ sound_workspace c126_parse c130_fs c130_cfg /\ cf_hide c130_cfg <> Some true /\ file_ext (file_uri c130_a) = Some Template /\
  just_read (file_uri c130_a) (map fst (y_taken (snd c132_run))) (ascii_text c132_src) /\
  editor_text (file_uri c130_a) (map fst (y_taken (snd c132_run))) (ascii_text c132_src) /\
  (forall u cs, In (MDidChange u cs) (map fst (y_taken (snd c132_run))) -> u = file_uri c130_a) /\
  conveys c126_parse (ascii_text c132_src) c126_tree c132_tpl c132_ps [] /\
  ~ at_hand c126_parse c130_fs c130_cfg (file_uri c130_a) (defines c126_tree c132_tpl) "h" /\
  at_hand c126_parse c130_fs c130_cfg (file_uri c130_a) (defines c126_tree c132_tpl) "g" /\
  map snd (y_published (snd c132_run)) =
    [publish_of [(DefinedSomewhere, use_id (wt 4 3 4 "g", []))]; publish_of [(DefinedSomewhere, use_id (wt 4 3 4 "g", []))]; publish_of [(Undefined, use_id (wt 4 3 4 "h", []))]].
Proof.
  split; [ran|]. split; [split; [exists (idle_state (snd c132_run)); ran|conj; vm_compute; reflexivity]|].
  split.
  { rewrite c132_taken. exists [(MDidChangeConfiguration (Some c130_cfg), c130_fs)], (map (fun m => (m, c130_fs)) (skipn 2 c132_told)),
      (mktask c130_cfg (ls_default c126_ts) 0), [(MDidChangeConfiguration (Some c130_cfg), [ESelf MInitialized])].
    split; [reflexivity|]. split; [|split; reflexivity]. rewrite map_map. cbn [fst]. rewrite map_id.
    cbn [skipn c132_told c131_told app]. repeat (apply Forall_cons; [first [exact I|reflexivity]|]); apply Forall_nil. }
  split; [apply c130_usable|]. split; [exact c130_sound|]. split; [discriminate|]. split; [reflexivity|]. rewrite c132_fst.
  split. { eexists _, (MDidSave (file_uri c130_a)), [_]. split; [unfold c132_told; rewrite <- app_assoc; reflexivity|]. split; [reflexivity|].
    split; [apply et_other; [exact c132_before_save|exact I]|]. apply Forall_cons; [exact I|apply Forall_nil]. }
  split. { unfold c132_told. apply et_other; [apply et_other; [exact c132_before_save|exact I]|exact I]. }
  split. { intros u cs H. cbn in H. repeat (destruct H as [H|H]; [first [discriminate H|injection H as <- _; reflexivity]|]). destruct H. }
  split; [exact c132_conveys|].
  split. { intros [(d & [] & _)|(u & p & q & Hne & H)]. destruct (c131_written u _ p q Hne H) as (_ & E & _). discriminate E. }
  split. { right. exists (file_uri c130_main), (mkpt 0 17), (mkpt 0 20). split; [discriminate|].
    destruct c126_supplies as (tr & R & Hh). exact (WaHanded _ _ _ _ _ _ _ _ tr (nn 7 17 20) (c130_main_on _) R Hh eq_refl eq_refl). }
  vm_compute. reflexivity.
Qed.
