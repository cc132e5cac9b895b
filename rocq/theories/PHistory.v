(** * PHistory: the past of a template does not matter (C127). *)
From Verif Require Import Base RString Utf8 Rope Types Captures MTemplates MDefinition MObjects MLspFiles MSearchErrors MLspTask MChannels MQueries.
From Verif Require Import SpecText SpecFiles SpecLint SpecOrder SpecNav SpecQueries SpecChannels SpecServer SpecClient SpecQueries5 SpecScreen SpecHistory.
From Verif Require Import PUtf8 PText PText2 PFiles POrder PLint PChannels PChannels2 PChannels3 PChannels4 PChannels5 PServer PClient PClient2 PQueries11 PScreen PCode4.

Section History.
Context {T : ts} (url : url_parser) (b : build).
Hypothesis Hpt : parse_total T.
Implicit Types (s : task_state T) (y : sys T) (d : lsp_files T).

(** The definitions taken from a tree. *)
Definition taken_from (tr : tree T) (c : string) (vs : list identifier) : Prop :=
  exists sn, snippets_query (t_captures T QSnippets tr c) pt0 true = Ok sn /\
    if sn_error sn then vs = []
    else exists dq, definition_query (t_captures T QDefinitions tr c) (t_root_end T tr) pt0 c true = Ok dq /\ vs = def_identifiers dq.
Lemma taken_unique tr c vs vs' : taken_from tr c vs -> taken_from tr c vs' -> vs = vs'.
Proof.
  intros (sn & E & H) (sn' & E' & H'). rewrite E in E'. inversion E'; subst sn'. destruct (sn_error sn); [congruence|].
  destruct H as (dq & E1 & ->), H' as (dq' & E1' & ->). congruence.
Qed.
Lemma deleted_vars uri d : sget uri (ls_vars (delete_variables uri d)) = match sget uri (ls_vars d) with Some _ => Some [] | None => None end.
Proof. unfold delete_variables. destruct (sget uri (ls_vars d)) eqn:E; [cbn; apply sget_sinsert_same|exact E]. Qed.
Lemma added_vars uri c d d' tr vs : sget uri (ls_tt d) = Some tr -> (forall v, sget uri (ls_vars d) = Some v -> v = []) ->
  add_variables uri Template c d = Ok d' -> sget uri (ls_vars d') = Some vs -> taken_from tr c vs.
Proof.
  intros Ht Hv H Hd. unfold add_variables in H. cbn [trees_of] in H. rewrite Ht in H.
  destruct (snippets_query _ pt0 true) as [sn|] eqn:Es; cbn [bind] in H; [|discriminate]. exists sn. split; [exact Es|].
  destruct (sn_error sn); [inversion H; subst; now apply Hv|].
  destruct (definition_query _ _ _ _ _) as [dq|] eqn:Ed; cbn [bind] in H; [|discriminate]. injection H as <-. cbn [ls_vars set_actions set_vars] in Hd. rewrite sget_sinsert_same in Hd.
  exists dq. split; [reflexivity|congruence].
Qed.
Lemma held_tree uri t tr d : becomes T t tr -> has_tree uri t d -> sget uri (ls_tt d) = Some tr.
Proof. intros (Hs & Hb) (tr' & Ht & Hp). destruct (Hp Hs) as (old & Ho). rewrite Hb in Ho. congruence. Qed.

(** One reading of the template. *)
Lemma refresh_outcome F uri m t tr s s' es : file_ext uri = Some Template -> becomes T t tr -> refreshes uri m ->
  MLspTask.step F url b s m = Ok (s', es) -> sget uri (ls_docs (tk_data s')) = Some t -> has_tree uri t (tk_data s') ->
  (forall vs, sget uri (ls_vars (tk_data s')) = Some vs -> taken_from tr (encode t) vs) /\
  (analysed s' uri -> exists e, read_tree F b uri (tk_data s') = Ok (Some e) /\ handed es = [[(uri, e)]]).
Proof.
  intros Hx Hb Hm H Hd Ht. pose proof (held_tree _ _ _ _ Hb Ht) as Htr. pose proof (rope_content_encode _ (proj1 Hb)) as Hrc.
  assert (Hread : forall r, read_tree F b uri (tk_data s') = Ok r -> analysed s' uri -> exists e, r = Some e).
  { intros r Hr Han. unfold read_tree in Hr. rewrite Hd, Hx in Hr. cbn [trees_of] in Hr. rewrite Htr in Hr. unfold search_errors in Hr.
    destruct (objects_query b _ pt0 _ true) as [o|]; cbn [bind] in Hr; [|discriminate].
    unfold analysed in Han. destruct (sget uri (ls_vars (tk_data s'))) as [v|]; [|congruence].
    destruct (templates_query _ pt0 _ true) as [i|]; cbn [bind] in Hr; [|discriminate]. inversion Hr. eauto. }
  destruct m; cbn [refreshes] in Hm; try (now elim Hm); subst uri0; cbn [MLspTask.step] in H.
  - destruct (did_open F b uri t0 false (tk_data s)) as [(d & r)|] eqn:E; cbn [bind] in H; inversion H; subst. cbn [fst snd with_data tk_data] in *.
    assert (t0 = t). { pose proof (did_open_docs b F uri t0 _ _ _ ltac:(congruence) E). congruence. } subst t0.
    unfold did_open in E. rewrite Hx in E.
    set (d2 := add_tree uri Template (encode t) (set_docs (sinsert uri t (ls_docs (delete_variables uri (tk_data s)))) (delete_variables uri (tk_data s)))) in *.
    destruct (add_variables uri Template (encode t) d2) as [d3|] eqn:Ea; cbn [bind] in E; [|discriminate].
    assert (Ed : d3 = d) by (destruct (read_tree F b uri d3) as [[v|]|]; cbn [bind] in E; inversion E; reflexivity). subst d3.
    assert (Hv2 : ls_vars d2 = ls_vars (delete_variables uri (tk_data s))).
    { unfold d2, add_tree. destruct (parse _ _ _ _); reflexivity. }
    split.
    + intros vs Hvs. pose proof (add_variables_docs _ _ _ _ _ Ea) as (_ & A2 & _).
      refine (added_vars uri _ d2 d tr vs _ _ Ea Hvs); [now rewrite <- A2|].
      intros v. rewrite Hv2, deleted_vars. destruct (sget uri (ls_vars (tk_data s))); congruence.
    + intros Han. destruct (read_tree F b uri d) as [v|] eqn:Er; cbn [bind] in E; [|discriminate].
      destruct (Hread v eq_refl Han) as (e & ->). exists e. split; [reflexivity|]. inversion E; subst. reflexivity.
  - destruct (did_save F b uri (tk_data s)) as [(d & r)|] eqn:E; cbn [bind] in H; inversion H; subst. cbn [fst snd with_data tk_data] in *.
    pose proof (did_save_docs b F _ _ _ _ E) as Hdd. rewrite Hdd in Hd. pose proof (did_save_tt b F _ _ _ _ E) as Htt.
    unfold did_save in E. rewrite Hx, Hd in E.
    destruct (add_variables uri Template (rope_content t) (delete_variables uri (tk_data s))) as [d3|] eqn:Ea; cbn [bind] in E; [|discriminate].
    assert (Ed : d3 = d) by (destruct (read_tree F b uri d3) as [v|]; cbn [bind] in E; inversion E; reflexivity). subst d3. rewrite Hrc in Ea.
    split.
    + intros vs Hvs. pose proof (add_variables_docs _ _ _ _ _ Ea) as (_ & A2 & _).
      refine (added_vars uri _ _ d tr vs _ _ Ea Hvs); [now rewrite <- A2|].
      intros v. rewrite deleted_vars. destruct (sget uri (ls_vars (tk_data s))); congruence.
    + intros Han. destruct (read_tree F b uri d) as [v|] eqn:Er; cbn [bind] in E; [|discriminate].
      destruct (Hread v eq_refl Han) as (e & ->). exists e. split; [reflexivity|]. inversion E; subst. reflexivity.
Qed.

(** The last reading. *)
Lemma reading_past l y s uri t tr F s1 : exec url b (sys0 T) l = Some y -> state_of y s ->
  file_ext uri = Some Template -> becomes T t tr -> just_read uri (map fst (y_taken y)) t -> last_reading url b y uri F s1 ->
  sget uri (ls_docs (tk_data s1)) = Some t /\ sget uri (ls_tt (tk_data s1)) = Some tr /\
  (forall vs, sget uri (ls_vars (tk_data s1)) = Some vs -> taken_from tr (encode t) vs) /\
  (analysed s1 uri -> at_rest y -> forall v, url uri = Some v -> (forall u, url u = Some v -> u = uri) ->
    exists e, read_tree F b uri (tk_data s1) = Ok (Some e) /\ last_published v (y_published y) = Some (publish_of e)).
Proof.
  intros He Hs Hx Hb (pre0 & m0 & mid & El & Hm0 & Ht & Hmid) (pre & m & post & x & Ey & Hm & Hpost & R12).
  apply map_eq_app in El. destruct El as (pre1 & l2 & Ey1 & E1 & E2). destruct l2 as [|(m', F1) post1]; [discriminate|]. cbn in E2. injection E2 as -> E2. subst pre0 mid.
  rewrite Ey in Ey1. destruct (split_unique _ uri _ _ _ _ _ _ _ _ Ey1 Hm Hm0 Hpost Hmid) as (<- & <- & <- & <-).
  destruct (replay_snoc_inv _ _ _ _ _ _ _ _ R12) as (s0 & x0 & es & R1 & Es & Ex).
  assert (Em : map fst (pre ++ [(m, F)]) = map fst pre ++ [m]) by (rewrite map_app; reflexivity).
  pose proof (replay_text url b uri ltac:(congruence) _ _ Ht _ _ _ _ Em R12) as Hd.
  pose proof (replay_tree url b uri Hpt Hx _ _ Ht _ _ _ _ Em R12) as Htr.
  destruct (refresh_outcome F uri m t tr s0 s1 es Hx Hb Hm Es Hd Htr) as (Hv & Hr).
  split; [exact Hd|]. split; [exact (held_tree _ _ _ _ Hb Htr)|]. split; [exact Hv|].
  intros Han Hrest v Hu Hinj. destruct (Hr Han) as (e & Hre & Hh). exists e. split; [exact Hre|].
  assert (Ha : alive y) by (unfold alive; destruct Hs as [->|(es0 & ->)]; discriminate).
  assert (Hdd : y_diag y <> DDead) by (destruct Hrest as (_ & _ & _ & -> & _); discriminate).
  destruct (publication_order url b l y He Ha Hdd) as (s2 & tr0 & later & Hrp & Hpub & Hl). rewrite (Hl Hrest), app_nil_r in Hpub.
  replace (y_taken y) with ((pre ++ [(m, F)]) ++ post) in Hrp by (rewrite Ey, <- app_assoc; reflexivity).
  destruct (replay_split url b _ _ _ _ _ Hrp) as (s1' & trA & trB & R1' & R2 & ->). rewrite R12 in R1'. inversion R1'; subst s1' trA.
  destruct (replay_elsewhere url b uri post s1 s2 trB Hpost R2) as (_ & P2 & _).
  rewrite <- Hpub, Ex, flat_map_app, flat_map_app. cbn [flat_map snd]. rewrite Hh, app_nil_r.
  assert (E : flat_map (fun z => flat_map (published_of url) (handed (snd z))) trB = flat_map (published_of url) (flat_map (fun z => handed (snd z)) trB)).
  { clear. induction trB as [|z trB IH]; [reflexivity|]. cbn. rewrite flat_map_app. now f_equal. }
  rewrite E, (published_elsewhere url v uri _ Hinj P2). cbn. rewrite Hu. cbn. rewrite last_published_snoc, String.eqb_refl. reflexivity.
Qed.
Lemma reading_config l y s uri F s1 : exec url b (sys0 T) l = Some y -> state_of y s -> last_reading url b y uri F s1 ->
  ls_config (tk_data s1) = ls_config (tk_data s) /\ ls_ignore (tk_data s1) = ls_ignore (tk_data s).
Proof.
  intros He Hs (pre & m & post & x & Ey & Hm & Hpost & R12).
  destruct (reach_replay url b l y s He Hs) as (tr1 & Hr). rewrite Ey in Hr. replace (pre ++ (m, F) :: post) with ((pre ++ [(m, F)]) ++ post) in Hr by (rewrite <- app_assoc; reflexivity).
  destruct (replay_split url b _ _ _ _ _ Hr) as (s1' & xx & trB & R12' & R2 & _). rewrite R12 in R12'. inversion R12'; subst s1' xx.
  destruct (replay_elsewhere url b uri post s1 s trB Hpost R2) as (_ & _ & Hcf & Hi). auto.
Qed.
Lemma read_alike F F' uri t tr vs d d' e e' : file_ext uri = Some Template ->
  sget uri (ls_docs d) = Some t -> sget uri (ls_docs d') = Some t -> sget uri (ls_tt d) = Some tr -> sget uri (ls_tt d') = Some tr ->
  sget uri (ls_vars d) = Some vs -> sget uri (ls_vars d') = Some vs -> ls_ignore d = ls_ignore d' ->
  (forall name, indexed (ls_vars d) name <-> indexed (ls_vars d') name) ->
  same_templates F (cf_templates (ls_config d)) F' (cf_templates (ls_config d')) ->
  read_tree F b uri d = Ok (Some e) -> read_tree F' b uri d' = Ok (Some e') -> e = e'.
Proof.
  intros Hx Hd Hd' Ht Ht' Hv Hv' Hi Hn Hm H H'. unfold read_tree in *. rewrite Hx, Hd in H. rewrite Hx, Hd' in H'. cbn [trees_of] in *. rewrite Ht in H. rewrite Ht' in H'.
  unfold search_errors in *. destruct (objects_query b _ pt0 _ true) as [o|]; cbn [bind] in H, H'; [|discriminate]. rewrite Hv in H. rewrite Hv' in H'.
  destruct (templates_query _ pt0 _ true) as [i|]; cbn [bind] in H, H'; [|discriminate]. inversion H; subst. inversion H'; subst. rewrite Hi. f_equal.
  - apply flat_map_ext. intros ob. unfold lint_object. destruct (o_is_filter ob || o_is_test ob); [reflexivity|].
    destruct (_ && _); [reflexivity|]. destruct (filter _ (filter _ _)); [|reflexivity]. destruct (ls_ignore d'); [reflexivity|].
    assert (E : defined_somewhere (ls_vars d) ob = defined_somewhere (ls_vars d') ob); [|now rewrite E].
    apply eq_true_iff_eq. rewrite !defined_somewhere_indexed. apply Hn.
  - unfold lint_templates. apply flat_map_ext. intros id. destruct (itype_eqb _ _); [|reflexivity]. specialize (Hm (id_name id)).
    destruct (String.eqb (id_name id) "") eqn:E0; [reflexivity|].
    unfold missing in Hm. rewrite E0 in Hm. cbn [orb] in Hm. now rewrite !template_missing_not_found, Hm.
Qed.

Theorem history_screen l l' y y' s s' uri v t tr F F' s1 s1' :
  exec url b (sys0 T) l = Some y -> at_rest y -> state_of y s -> exec url b (sys0 T) l' = Some y' -> at_rest y' -> state_of y' s' ->
  file_ext uri = Some Template -> becomes T t tr -> just_read uri (map fst (y_taken y)) t -> just_read uri (map fst (y_taken y')) t ->
  url uri = Some v -> (forall u, url u = Some v -> u = uri) -> ls_ignore (tk_data s) = ls_ignore (tk_data s') ->
  last_reading url b y uri F s1 -> last_reading url b y' uri F' s1' -> analysed s1 uri -> analysed s1' uri -> same_names s1 s1' ->
  same_templates F (cf_templates (ls_config (tk_data s))) F' (cf_templates (ls_config (tk_data s'))) ->
  last_published v (y_published y) = last_published v (y_published y').
Proof.
  intros He Hr Hs He' Hr' Hs' Hx Hb J J' Hu Hinj Hi L L' A A' Hn Hm.
  destruct (reading_past l y s uri t tr F s1 He Hs Hx Hb J L) as (D1 & D2 & D3 & D4). destruct (reading_past l' y' s' uri t tr F' s1' He' Hs' Hx Hb J' L') as (D1' & D2' & D3' & D4').
  destruct (D4 A Hr v Hu Hinj) as (e & R & ->). destruct (D4' A' Hr' v Hu Hinj) as (e' & R' & ->). do 2 f_equal.
  destruct (reading_config l y s uri F s1 He Hs L) as (C1 & C2). destruct (reading_config l' y' s' uri F' s1' He' Hs' L') as (C1' & C2').
  unfold analysed in A, A'. destruct (sget uri (ls_vars (tk_data s1))) as [vs|] eqn:Ev; [|congruence]. destruct (sget uri (ls_vars (tk_data s1'))) as [vs'|] eqn:Ev'; [|congruence].
  assert (vs = vs') by (eapply taken_unique; eauto). subst vs'.
  eapply (read_alike F F' uri t tr vs (tk_data s1) (tk_data s1')); eauto; first [congruence | now rewrite C1, C1'].
Qed.

(** No document is stored twice. *)
Definition keyed (d : lsp_files T) : Prop := NoDup (map fst (ls_vars d)) /\ NoDup (map fst (ls_tt d)).
Lemma keyed_delete uri d : keyed d -> keyed (delete_variables uri d).
Proof. intros (A & B). unfold delete_variables. destruct (sget uri (ls_vars d)); [|now split]. split; [now apply sinsert_nodup|exact B]. Qed.
Lemma keyed_tree uri l c d : keyed d -> keyed (add_tree uri l c d).
Proof.
  intros (A & B). unfold add_tree. destruct (parse d l c _) as [tr|]; [|now split]. destruct l; split; cbn [set_trees ls_vars ls_tt trees_of]; try assumption. now apply sinsert_nodup.
Qed.
Lemma keyed_vars uri l c d d' : keyed d -> add_variables uri l c d = Ok d' -> keyed d'.
Proof.
  intros (A & B) H. unfold add_variables in H. destruct (sget uri (trees_of l d)) as [tr|]; [|inversion H; subst; now split].
  assert (K : forall vs, keyed (set_actions (sinsert uri [] (ls_actions d)) (set_vars (sinsert uri vs (ls_vars d)) d))).
  { intros vs. split; [cbn [set_actions set_vars ls_vars]; now apply sinsert_nodup|exact B]. }
  destruct l.
  - destruct (snippets_query _ pt0 true) as [sn|]; cbn [bind] in H; [|discriminate]. destruct (sn_error sn); [inversion H; subst; now split|].
    destruct (definition_query _ _ _ _ _); cbn [bind] in H; [|discriminate]. injection H as <-. apply K.
  - destruct (backend_definition_query _ _ _ _); cbn [bind] in H; [|discriminate]. destruct (backend_templates_query _ _ _ _); cbn [bind] in H; [|discriminate].
    injection H as <-. apply K.
Qed.
Lemma keyed_open F uri t ig d d' r : keyed d -> did_open F b uri t ig d = Ok (d', r) -> keyed d'.
Proof.
  intros K H. unfold did_open in H. destruct (file_ext uri) as [l|]; [|inversion H; subst; exact K].
  destruct (add_variables uri l (encode t) _) as [d3|] eqn:E; cbn [bind] in H; [|discriminate].
  assert (K3 : keyed d3). { refine (keyed_vars _ _ _ _ _ _ E). apply keyed_tree. exact (keyed_delete uri d K). }
  destruct ig; [inversion H; subst; exact K3|]. destruct (read_tree F b uri d3) as [[v|]|]; cbn [bind] in H; inversion H; subst; exact K3.
Qed.
Lemma keyed_save F uri d d' r : keyed d -> did_save F b uri d = Ok (d', r) -> keyed d'.
Proof.
  intros K H. unfold did_save in H. destruct (file_ext uri) as [l|]; [|inversion H; subst; exact K].
  destruct (sget uri (ls_docs d)) as [t|]; [|inversion H; subst; exact K].
  destruct (add_variables uri l _ _) as [d3|] eqn:E; cbn [bind] in H; [|discriminate].
  assert (K3 : keyed d3) by (refine (keyed_vars _ _ _ _ _ _ E); now apply keyed_delete).
  destruct (read_tree F b uri d3) as [v|]; cbn [bind] in H; inversion H; subst; exact K3.
Qed.
Lemma keyed_set uri l tr d : keyed d -> keyed (set_trees l (sinsert uri tr (trees_of l d)) d).
Proof. intros (A & B). destruct l; split; cbn [set_trees ls_vars ls_tt trees_of]; try assumption. now apply sinsert_nodup. Qed.
Lemma keyed_edits uri l es : forall d, keyed d -> keyed (apply_edits uri l es d).
Proof.
  unfold apply_edits. induction es as [|e es IH]; intros d K; [exact K|]. cbn [fold_left]. apply IH. unfold input_edit_tree.
  destruct l as [l|]; [|exact K]. destruct (sget uri (trees_of l d)) as [tr|]; [|exact K].
  destruct (parse _ _ _ _) as [tr'|]; repeat apply keyed_set; exact K.
Qed.
Lemma keyed_change tid uri cs d d' r : keyed d -> did_change tid uri cs d = Ok (d', r) -> keyed d'.
Proof.
  intros K H. unfold did_change in H. destruct (sget uri (ls_docs d)) as [t|]; [|inversion H; subst; exact K].
  destruct (apply_changes t cs) as [((t2 & early) & edits)|]; cbn [bind] in H; [|discriminate]. destruct early; inversion H; subst; [exact K|].
  exact (keyed_edits uri (file_ext uri) edits (set_docs (sinsert uri t2 (ls_docs d)) d) K).
Qed.
Lemma keyed_step F s s' m es : keyed (tk_data s) -> MLspTask.step F url b s m = Ok (s', es) -> keyed (tk_data s').
Proof.
  intros K H. destruct m; cbn [MLspTask.step] in H.
  - inversion H; subst. cbn. destruct client as [n|]; [|exact K]. destruct (String.eqb n _); exact K.
  - unfold do_initialized in H. destruct (negb _); [inversion H; subst; exact K|].
    pose proof (walkdir_same (T := T) F b (tk_config s)) as W. destruct (walkdir T F b (tk_config s)) as [[(e & a)|]|]; cbn [bind] in H; [| |discriminate].
    + cbn in W. destruct W as (_ & W). inversion H; subst. cbn [tk_data]. split; cbn [ls_vars ls_tt]; [exact (proj1 (sm_vars _ _ W))|exact (proj1 (sm_tt _ _ W))].
    + inversion H; subst; exact K.
  - destruct (did_open F b uri t false (tk_data s)) as [(d & r)|] eqn:E; cbn [bind] in H; inversion H; subst. exact (keyed_open _ _ _ _ _ _ _ K E).
  - destruct (did_change (tk_next s) uri cs (tk_data s)) as [(d & r)|] eqn:E; cbn [bind snd fst] in H; [|discriminate].
    pose proof (keyed_change _ _ _ _ _ _ K E). destruct r; inversion H; subst; assumption.
  - destruct (did_save F b uri (tk_data s)) as [(d & r)|] eqn:E; cbn [bind] in H; inversion H; subst. exact (keyed_save _ _ _ _ _ K E).
  - destruct (do_completion _ _ _ _ _); cbn [bind] in H; inversion H; subst; exact K.
  - destruct (do_hover _ _ _ _); cbn [bind] in H; inversion H; subst; exact K.
  - destruct (goto_definition _ _ _ _ _ _); cbn [bind] in H; inversion H; subst; exact K.
  - destruct (code_action _ _ _ _) as [[a|]|]; cbn [bind] in H; [|inversion H; subst; exact K|discriminate].
    destruct (process_code_actions _ _ _ _) as [p|]; cbn [bind] in H; [|discriminate]. destruct (snd p); inversion H; subst; exact K.
  - destruct (String.eqb cmd _); inversion H; subst; exact K.
  - inversion H; subst; exact K.
  - inversion H; subst; exact K.
  - inversion H; subst; exact K.
Qed.
Lemma keyed_replay : forall l s s' tr, keyed (tk_data s) -> replay url b s l = Ok (s', tr) -> keyed (tk_data s').
Proof.
  induction l as [|(m, F) l IH]; intros s s' tr K H; cbn [replay] in H; [inversion H; subst; exact K|].
  destruct (MLspTask.step F url b s m) as [(s1 & es)|] eqn:E; [|discriminate]. destruct (replay url b s1 l) as [(s2 & tr')|] eqn:E2; [|discriminate]. inversion H; subst.
  eapply IH; [|exact E2]. eapply keyed_step; eauto.
Qed.
Lemma keyed_reach l s x : replay url b (task0 T) l = Ok (s, x) -> keyed (tk_data s).
Proof. apply keyed_replay. split; constructor. Qed.

(** The part of the state the answers about [uri] are taken from. *)
Definition part (uri : string) (t : text) (tr : tree T) (d : lsp_files T) : lsp_files T :=
  mkls (map (fun kv => (fst kv, tr)) (ls_tt d)) [] [(uri, t)] PRust PRust (mkcfg (cf_templates (ls_config d)) [] EmptyString false None) None true
    (ls_vars d) [] (ls_vscode d) false.
Lemma part_get uri (tr : tree T) (m : smap (tree T)) tr0 : sget uri m = Some tr0 -> sget uri (map (fun kv => (fst kv, tr)) m) = Some tr.
Proof. induction m as [|(k, v) m IH]; cbn; [discriminate|]. destruct (String.eqb uri k); [reflexivity|exact IH]. Qed.
Section Part.
Variables (uri : string) (t : text) (tr : tree T) (d : lsp_files T).
Hypothesis Hx : file_ext uri = Some Template.
Hypothesis Hd : sget uri (ls_docs d) = Some t.
Hypothesis Ht : sget uri (ls_tt d) = Some tr.
Notation p := (part uri t tr d).
Lemma part_tt : sget uri (ls_tt p) = Some tr.
Proof. exact (part_get uri tr _ _ Ht). Qed.
Lemma part_docs : sget uri (ls_docs p) = Some t.
Proof. cbn. now rewrite String.eqb_refl. Qed.
Lemma part_hover pos : do_hover b uri pos d = do_hover b uri pos p.
Proof. unfold do_hover, hover. rewrite Hx, Hd, Ht, part_tt, part_docs. reflexivity. Qed.
Lemma part_goto F pos : goto_definition F url b uri pos d = goto_definition F url b uri pos p.
Proof. unfold goto_definition. rewrite Hx. cbn [trees_of]. rewrite Hd, Ht, part_tt, part_docs. reflexivity. Qed.
Lemma part_complete pos ctx : do_completion b uri pos ctx d = do_completion b uri pos ctx p.
Proof.
  unfold do_completion. assert (E : completion b uri pos ctx d = completion b uri pos ctx p).
  { unfold completion. rewrite Hx. cbn [trees_of]. rewrite Hd, Ht, part_tt, part_docs. reflexivity. }
  rewrite E. destruct (completion b uri pos ctx p) as [[(ct & bb)|]|]; cbn [bind]; [|reflexivity|reflexivity]. destruct ct; try reflexivity.
  assert (E2 : read_templates name r pos d = read_templates name r pos p).
  { unfold read_templates, part. cbn [ls_tt ls_vscode ls_config cf_templates]. now rewrite map_map. }
  now rewrite E2.
Qed.
End Part.
Lemma parts_same uri t tr vs d d' : keyed d -> keyed d' -> agree_around uri d d' -> sget uri (ls_vars d) = Some vs -> sget uri (ls_vars d') = Some vs ->
  same_state (part uri t tr d) (part uri t tr d').
Proof.
  intros (K1 & K2) (K1' & K2') [A1 A2 A3 A4] V V'. constructor; try reflexivity; try (apply same_map_refl; repeat constructor; intros []); cbn [part ls_tt ls_vars ls_config ls_vscode].
  - split; [rewrite map_map; exact K2|].
    replace (map (fun kv : string * tree T => (fst kv, tr)) (ls_tt d)) with (map (fun k => (k, tr)) (map fst (ls_tt d))) by (now rewrite map_map).
    replace (map (fun kv : string * tree T => (fst kv, tr)) (ls_tt d')) with (map (fun k => (k, tr)) (map fst (ls_tt d'))) by (now rewrite map_map).
    apply Permutation_map, NoDup_Permutation; assumption.
  - apply same_of_get; [exact K1|exact K1'|]. intros k. destruct (String.eqb_spec k uri) as [->|N]; [congruence|now apply A1].
  - now rewrite A3.
  - exact A4.
Qed.
(** What is answered to a request, and what the server holds of a template. *)
Lemma session_reply_any l y s a m F c : exec url b (sys0 T) l = Some y -> y_task y = TIdle s -> y_taken y = a ++ (m, F) :: c ->
  exists sa x sb es, replay url b (task0 T) a = Ok (sa, x) /\ MLspTask.step F url b sa m = Ok (sb, es) /\
    forall r, In r (answers m es) -> In r (y_replies y).
Proof.
  intros He Hi Ht. assert (Ha : alive y) by (unfold alive; congruence).
  destruct (answers_are_handlers url b l y He Ha) as (s1 & tr & later & Hr & Hf & Hl). unfold in_progress in Hl. rewrite Hi in Hl.
  apply map_eq_nil in Hl. subst later. rewrite app_nil_r in Hf. rewrite Ht in Hr. destruct (replay_split url b _ _ _ _ _ Hr) as (sa & x & tr2 & H1 & H2 & ->). cbn [replay] in H2.
  destruct (MLspTask.step F url b sa m) as [(sb & es)|] eqn:Es; [|discriminate]. destruct (replay url b sb c) as [(s3 & tr3)|] eqn:E3; [|discriminate]. inversion H2; subst.
  exists sa, x, sb, es. split; [exact H1|]. split; [exact Es|]. intros r Hin. rewrite <- Hf. apply in_flat_map. exists (m, es). split; [apply in_or_app; right; now left|exact Hin].
Qed.
Lemma held_after uri t tr a s x : file_ext uri = Some Template -> becomes T t tr -> just_read uri (map fst a) t -> replay url b (task0 T) a = Ok (s, x) ->
  sget uri (ls_docs (tk_data s)) = Some t /\ sget uri (ls_tt (tk_data s)) = Some tr /\ (forall vs, sget uri (ls_vars (tk_data s)) = Some vs -> taken_from tr (encode t) vs).
Proof.
  intros Hx Hb J Hr. pose proof (just_last _ _ _ J) as (_ & _ & _ & _ & _ & _ & _ & Ht).
  pose proof (replay_text url b uri ltac:(congruence) _ _ Ht _ _ _ _ eq_refl Hr) as Hd.
  pose proof (replay_tree url b uri Hpt Hx _ _ Ht _ _ _ _ eq_refl Hr) as Htr.
  split; [exact Hd|]. split; [exact (held_tree _ _ _ _ Hb Htr)|].
  destruct J as (pre & m & mid & El & Hm & Ht0 & Hmid).
  apply map_eq_app in El. destruct El as (l1 & l2 & -> & E1 & E2). destruct l2 as [|(m', F) l2]; [discriminate|]. cbn in E2. inversion E2; subst.
  destruct (replay_split url b _ _ _ _ _ Hr) as (s1 & tr1 & tr2 & H1 & H2 & ->). cbn [replay] in H2.
  destruct (MLspTask.step F url b s1 m) as [(s2 & es)|] eqn:Es; [|discriminate]. destruct (replay url b s2 l2) as [(s3 & tr3)|] eqn:E3; [|discriminate]. inversion H2; subst s3 tr2.
  pose proof (replay_snoc url b _ _ _ _ _ _ _ _ H1 Es) as H12.
  assert (Em : map fst (l1 ++ [(m, F)]) = map fst l1 ++ [m]) by now rewrite map_app.
  pose proof (replay_text url b uri ltac:(congruence) _ _ Ht0 _ _ _ _ Em H12) as Hd0.
  pose proof (replay_tree url b uri Hpt Hx _ _ Ht0 _ _ _ _ Em H12) as Htr0.
  assert (Hun : Forall (unrefreshed uri) (map fst l2)).
  { eapply Forall_impl; [|exact Hmid]. intros q. destruct q; cbn; auto. }
  rewrite (replay_vars url b uri _ _ _ _ Hun E3). exact (proj1 (refresh_outcome F uri m t tr s1 s2 es Hx Hb Hm Es Hd0 Htr0)).
Qed.
(** The answers. *)
Theorem history_answers l l' y y' sy sy' a a' m rid F c c' uri t tr s x s' x' :
  exec url b (sys0 T) l = Some y -> y_task y = TIdle sy -> exec url b (sys0 T) l' = Some y' -> y_task y' = TIdle sy' ->
  y_taken y = a ++ (m, F) :: c -> y_taken y' = a' ++ (m, F) :: c' -> asks_about uri rid m ->
  file_ext uri = Some Template -> becomes T t tr -> just_read uri (map fst a) t -> just_read uri (map fst a') t ->
  replay url b (task0 T) a = Ok (s, x) -> replay url b (task0 T) a' = Ok (s', x') -> analysed s uri -> analysed s' uri ->
  agree_around uri (tk_data s) (tk_data s') ->
  exists r r', In (rid, r) (y_replies y) /\ In (rid, r') (y_replies y') /\ same_reply r r'.
Proof.
  intros He Hi He' Hi' Hy Hy' Hm Hx Hb J J' R R' A A' G.
  destruct (session_reply_any l y sy a m F c He Hi Hy) as (s0 & x0 & s2 & es & R0 & Es & Hin). rewrite R in R0. inversion R0; subst s0 x0. clear R0.
  destruct (session_reply_any l' y' sy' a' m F c' He' Hi' Hy') as (s0 & x0 & s2' & es' & R0 & Es' & Hin'). rewrite R' in R0. inversion R0; subst s0 x0. clear R0.
  pose proof (held_after _ _ _ _ _ _ Hx Hb J R) as (D1 & D2 & D3). pose proof (held_after _ _ _ _ _ _ Hx Hb J' R') as (D1' & D2' & D3').
  unfold analysed in A, A'. destruct (sget uri (ls_vars (tk_data s))) as [vs|] eqn:Ev; [|congruence]. destruct (sget uri (ls_vars (tk_data s'))) as [vs'|] eqn:Ev'; [|congruence].
  assert (vs = vs') by (eapply taken_unique; eauto). subst vs'.
  pose proof (parts_same uri t tr vs _ _ (keyed_reach _ _ _ R) (keyed_reach _ _ _ R') G Ev Ev') as S.
  enough (exists r r', In (rid, r) (answers m es) /\ In (rid, r') (answers m es') /\ same_reply r r') as (r & r' & P1 & P2 & P3) by (exists r, r'; auto).
  destruct m; cbn [asks_about] in Hm; try contradiction; destruct Hm as (-> & ->); cbn [MLspTask.step] in Es, Es'.
  - rewrite (part_complete uri t tr _ Hx D1 D2) in Es. rewrite (part_complete uri t tr _ Hx D1' D2') in Es'.
    pose proof (do_completion_same b uri pos ctx _ _ S) as Q. destruct (do_completion b uri pos ctx (part uri t tr (tk_data s))) as [o|]; cbn [bind] in Es; [|discriminate].
    destruct (do_completion b uri pos ctx (part uri t tr (tk_data s'))) as [o'|]; cbn [bind] in Es'; [|discriminate]. inversion Es; subst. inversion Es'; subst. cbn in Q |- *.
    exists (match o with Some l => RCompletion l | None => RNull end), (match o' with Some l => RCompletion l | None => RNull end).
    split; [now left|]. split; [now left|]. destruct o, o'; cbn in *; try contradiction; auto.
  - rewrite (part_hover uri t tr _ Hx D1 D2) in Es. rewrite (part_hover uri t tr _ Hx D1' D2'), <- (do_hover_same b uri pos _ _ S) in Es'.
    destruct (do_hover b uri pos _) as [o|]; cbn [bind] in Es, Es'; [|discriminate]. inversion Es; subst. inversion Es'; subst. cbn.
    exists (match o with Some h => RHover h | None => RNull end). eexists. split; [now left|]. split; [now left|]. destruct o; reflexivity.
  - rewrite (part_goto uri t tr _ Hx D1 D2) in Es. rewrite (part_goto uri t tr _ Hx D1' D2') in Es'.
    pose proof (goto_same F url b uri pos _ _ S) as Q. destruct (goto_definition F url b uri pos (part uri t tr (tk_data s))) as [o|]; cbn [bind] in Es; [|discriminate].
    destruct (goto_definition F url b uri pos (part uri t tr (tk_data s'))) as [o'|]; cbn [bind] in Es'; [|discriminate]. inversion Es; subst. inversion Es'; subst. cbn in Q.
    destruct o as [g|], o' as [g'|]; cbn in Q |- *.
    + exists (RGoto g), (RGoto g'). split; [now left|]. split; [now left|]. destruct g, g'; cbn; try exact Q; congruence.
    + destruct g; discriminate.
    + discriminate.
    + exists RNull, RNull. split; [now left|]. split; [now left|]. reflexivity.
  - inversion Es; subst. inversion Es'; subst. unfold document_symbols. rewrite Ev, Ev'. cbn. do 2 eexists. split; [now left|]. split; [now left|]. reflexivity.
Qed.
End History.
Lemma conveyed_analysed parse edit url b : parse_total (ts_with parse edit) ->
  forall (s : task_state (ts_with parse edit)) ms x uri t tr tp ps sts,
    replay url b (task0 (ts_with parse edit)) ms = Ok (s, x) -> file_ext uri = Some Template ->
    just_read uri (map fst ms) t -> conveys parse t tr tp ps sts -> analysed s uri.
Proof.
  intros Hpt s ms x uri t tr tp ps sts Hr Hx J R.
  destruct (session_held parse edit url b Hpt uri t tr tp ps sts t tr tp ps sts _ _ _ _ Hx Hr (just_last _ _ _ J) R R) as (_ & K & _).
  unfold knows in K. unfold analysed. destruct (sget uri (ls_vars (tk_data s))); discriminate.
Qed.
