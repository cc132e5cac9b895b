(** * PCode3: what is on the screen about Rust and Python code (C125). *)
From Verif Require Import Base RString Utf8 Rope Types Captures MTemplates MObjects MSearchErrors MLspFiles MLspTask MChannels MQueries.
From Verif Require Import SpecText SpecFiles SpecBackend SpecObjects SpecLint SpecNav SpecConfig SpecChannels SpecServer SpecClient SpecQueries SpecQueries2 SpecQueries4 SpecQueries5 SpecQueries6 SpecScreen SpecCode.
From Verif Require Import PUtf8 PText PText2 PFiles POrder PLint PLint2 PLint3 PNode PNode2 PObjects PNav PNav2 PNav3 PConfig PBackend PQueries PQueries2 PQueries3 PQueries4 PQueries5 PQueries7 PQueries9 PChannels PChannels2 PChannels3 PChannels4 PChannels5 PServer PClient PClient2 PQueries11 PScreen PCode PCode2.

Section Saved.
Context {T : ts}.
Lemma backend_saved F b uri (t : text) (s : lsp_files T) tr ds rs :
  file_ext uri = Some Backend -> scalars t -> sget uri (ls_docs s) = Some t -> sget uri (ls_bt s) = Some tr ->
  concat (t_captures T (QBackendDefs (ls_query s)) tr (encode t)) = map as_capture ds -> Forall (SpecBackend.covers (encode t)) ds ->
  concat (t_captures T (QBackendTemplates (ls_query s)) tr (encode t)) = map as_capture rs -> Forall (SpecBackend.covers (encode t)) rs ->
  exists s', did_save F b uri s = Ok (s', Some [(uri, map (fun i => (TemplateNotFound, i))
      (filter (fun i => itype_eqb (id_type i) JinjaTemplate && not_found F (cf_templates (ls_config s)) (id_name i)) (definitions_in ds ++ references [] rs)))]) /\
    sget uri (ls_vars s') = Some (definitions_in ds ++ references [] rs).
Proof.
  intros Hx Hsc Hd Ht Ed Hcd Er Hcr. unfold did_save. rewrite Hx, Hd, (rope_content_encode t Hsc).
  set (s2 := delete_variables uri s) in *.
  assert (Hs2 : ls_bt s2 = ls_bt s /\ ls_query s2 = ls_query s /\ ls_docs s2 = ls_docs s /\ ls_config s2 = ls_config s)
    by (unfold s2, delete_variables; destruct (sget uri (ls_vars s)); repeat split; reflexivity).
  destruct Hs2 as (E1 & E2 & E3 & E4). unfold add_variables. cbn [trees_of]. rewrite E1, Ht, E2.
  rewrite (definitions_exact _ pt0 _ _ Ed Hcd). cbn [bind].
  destruct (references_exact _ pt0 _ _ Er Hcr) as (st & Est & Eb). rewrite Est. cbn [bind]. rewrite Eb.
  eexists. split.
  - unfold read_tree. lsimp. rewrite E3, Hd, Hx. cbn [trees_of]. lsimp. rewrite E1, Ht.
    rewrite (backend_missing_exact T F b tr _ _ uri _ _ (definitions_in ds ++ references [] rs)) by apply sget_sinsert_same. cbn [bind].
    rewrite E4. reflexivity.
  - lsimp. apply sget_sinsert_same.
Qed.
End Saved.

Section Code.
Variables (parse : plang -> string -> option stree -> option stree) (edit : stree -> input_edit -> stree).
Notation T := (ts_with parse edit).
Variables (url : url_parser) (b : build).
Hypothesis Hpt : parse_total T.

(** What the queries find in the code. *)
Lemma code_found lang t tr : code_conveys parse lang t tr ->
  exists ds rs, concat (MQueries.captured (query_of (QBackendDefs lang)) (encode t) tr) = map as_capture ds /\ Forall (SpecBackend.covers (encode t)) ds /\
    concat (MQueries.captured (query_of (QBackendTemplates lang)) (encode t) tr) = map as_capture rs /\ Forall (SpecBackend.covers (encode t)) rs /\
    forall v, In v (definitions_in ds ++ references [] rs) <->
      SpecQueries2.remembered (handing lang (encode t) tr) (fun n => exists ar, loading lang (encode t) tr ar n) (encode t) v.
Proof.
  intros [R1 R2 R3 R4 R5 R6 R7 R8]. pose proof (characters_readable _ _ R1 R3) as Hr.
  exists (map (with_text (encode t)) (concat (MQueries.matches (query_of (QBackendDefs lang)) (encode t) tr))),
    (map (with_text (encode t)) (concat (MQueries.matches (query_of (QBackendTemplates lang)) (encode t) tr))).
  split; [rewrite with_text_caps; apply captured_concat|]. split; [eapply readable_covers; [exact Hr|]; apply captured_inside|].
  split; [rewrite with_text_caps; apply captured_concat|]. split; [eapply readable_covers; [exact Hr|]; apply captured_inside|].
  intros v. rewrite in_app_iff. unfold SpecQueries2.remembered.
  assert (HR : In v (references [] (map (with_text (encode t)) (concat (MQueries.matches (query_of (QBackendTemplates lang)) (encode t) tr)))) <->
    exists n, (exists ar, loading lang (encode t) tr ar n) /\ v = at_node JinjaTemplate n (unquoted (text_of (encode t) n))).
  { destruct (templates_of lang) as (call & member & name & args & Eq & EL). rewrite Eq, template_refs by exact R4. rewrite EL.
    split; intros (n & Hn & ->); exists n; (split; [now apply loads_exists|reflexivity]). }
  assert (HD : In v (definitions_in (map (with_text (encode t)) (concat (MQueries.matches (query_of (QBackendDefs lang)) (encode t) tr)))) <->
    exists n name, handing lang (encode t) tr n name /\ v = at_node BackendVariable n name).
  { destruct lang; cbn [query_of handing]; first [now apply rust_definitions|now apply python_definitions]. }
  rewrite HR, HD. reflexivity.
Qed.

Definition reports F dir (ids : list identifier) : errors :=
  map (fun i => (TemplateNotFound, i)) (filter (fun i => itype_eqb (id_type i) JinjaTemplate && not_found F dir (id_name i)) ids).
Lemma missing_of_code F dir ids : missing_of (reports F dir ids) = filter (fun i => itype_eqb (id_type i) JinjaTemplate && not_found F dir (id_name i)) ids.
Proof. unfold missing_of, reports. generalize (filter (fun i => itype_eqb (id_type i) JinjaTemplate && not_found F dir (id_name i)) ids). intros l. induction l as [|x l IH]; [reflexivity|]. cbn. now f_equal. Qed.
(** One reading of code. *)
Lemma refresh_code F uri m t tr (s s' : task_state T) es : file_ext uri = Some Backend -> spoken_as (tk_data s) ->
  let lang := SpecConfig.lang_of (ls_config (tk_data s')) in code_conveys parse lang t tr ->
  refreshes uri m -> MLspTask.step F url b s m = Ok (s', es) -> sget uri (ls_docs (tk_data s')) = Some t -> sget uri (ls_bt (tk_data s')) = Some tr ->
  exists ids, handed es = [[(uri, reports F (cf_templates (ls_config (tk_data s'))) ids)]] /\ sget uri (ls_vars (tk_data s')) = Some ids /\
    forall v, In v ids <-> SpecQueries2.remembered (handing lang (encode t) tr) (fun n => exists ar, loading lang (encode t) tr ar n) (encode t) v.
Proof.
  intros Hx (Q1 & Q2) lang R Hm H Hd Htr. destruct (code_found lang t tr R) as (ds & rs & D1 & D2 & D3 & D4 & D5).
  destruct m; cbn [refreshes] in Hm; try (now elim Hm); subst uri0; cbn [MLspTask.step] in H.
  - destruct (did_open F b uri t0 false (tk_data s)) as [(d & r)|] eqn:E; cbn [bind] in H; inversion H; subst. cbn [fst snd with_data tk_data] in *.
    assert (t0 = t). { pose proof (did_open_docs b F uri t0 _ _ _ ltac:(congruence) E). congruence. } subst t0.
    pose proof (did_open_frame F b _ _ _ _ _ _ E) as (_ & _ & _ & Hc & _ & _ & _). unfold lang in *. rewrite Hc in *.
    destruct (backend_opened F b uri t (tk_data s) tr ds rs Hx) as (d' & E' & Hv & _); auto.
    { rewrite Q2. apply (cc_parse _ _ _ _ R). }
    { rewrite Q1. exact D1. }
    { rewrite Q1. exact D3. }
    rewrite E' in E. inversion E; subst. eexists. split; [reflexivity|]. split; [exact Hv|exact D5].
  - destruct (did_save F b uri (tk_data s)) as [(d & r)|] eqn:E; cbn [bind] in H; inversion H; subst. cbn [fst snd with_data tk_data] in *.
    rewrite (did_save_docs b F _ _ _ _ E) in Hd. rewrite (did_save_bt b F _ _ _ _ E) in Htr.
    pose proof (did_save_frame F b _ _ _ _ E) as (_ & _ & _ & Hc & _ & _ & _). unfold lang in *. rewrite Hc in *.
    destruct (backend_saved F b uri t (tk_data s) tr ds rs Hx (cc_scalars _ _ _ _ R) Hd Htr) as (d' & E' & Hv); auto.
    { rewrite Q1. exact D1. }
    { rewrite Q1. exact D3. }
    rewrite E' in E. inversion E; subst. eexists. split; [reflexivity|]. split; [exact Hv|exact D5].
Qed.
Lemma reading_code l (y : sys T) s uri t tr : exec url b (sys0 T) l = Some y -> at_rest y -> state_of y s ->
  file_ext uri = Some Backend -> just_read uri (map fst (y_taken y)) t ->
  let lang := SpecConfig.lang_of (ls_config (tk_data s)) in let dir := cf_templates (ls_config (tk_data s)) in code_conveys parse lang t tr ->
  exists pre m F post s1 x es e,
    y_taken y = pre ++ (m, F) :: post /\ refreshes uri m /\ Forall (elsewhere uri) (map fst post) /\
    replay url b (task0 T) (pre ++ [(m, F)]) = Ok (s1, x ++ [(m, es)]) /\
    handed es = [[(uri, e)]] /\ sget uri (ls_actions (tk_data s)) = Some (map snd e) /\
    forall k i, In (k, i) e <-> k = TemplateNotFound /\ exists r, unloaded F dir lang (encode t) tr r /\ i = ref_id r.
Proof.
  intros He Hrest Hs Hx (pre0 & m & mid & El & Hm & Ht & Hmid) lang dir R.
  apply map_eq_app in El. destruct El as (pre & l2 & Ey & E1 & E2). destruct l2 as [|(m', F) post]; [discriminate|]. cbn in E2. injection E2 as -> E2. subst pre0 mid.
  destruct (reach_replay url b l y s He Hs) as (tr1 & Hr). rewrite Ey in Hr. destruct (replay_split url b _ _ _ _ _ Hr) as (s1 & x & trB & R1 & R2 & ->). cbn [replay] in R2.
  destruct (MLspTask.step F url b s1 m) as [(s2 & es)|] eqn:Es; [|discriminate]. destruct (replay url b s2 post) as [(s3 & trC)|] eqn:E3; [|discriminate]. inversion R2; subst s3 trB.
  destruct (replay_elsewhere url b uri post s2 s trC Hmid E3) as (_ & _ & Hc & _).
  pose proof (replay_snoc url b _ _ _ _ _ _ _ _ R1 Es) as R12.
  assert (Em : map fst (pre ++ [(m, F)]) = map fst pre ++ [m]) by (rewrite map_app; reflexivity).
  pose proof (replay_text url b uri ltac:(congruence) _ _ Ht _ _ _ _ Em R12) as Hd.
  destruct (replay_code url b uri Hpt Hx _ _ Ht _ _ _ _ Em R12) as (tr0 & A & B). destruct (B (cc_scalars _ _ _ _ R)) as (old & Bp).
  destruct (replay_spoken url b Hpt _ _ _ _ task0_spoken R12) as (_ & Q2). cbn [ts_with t_parse] in Bp. rewrite Q2, <- Hc in Bp.
  pose proof (cc_parse _ _ _ _ R old) as Bp'. unfold lang in Bp'. rewrite Bp' in Bp. inversion Bp; subst tr0. clear Bp Bp'.
  pose proof (replay_spoken url b Hpt _ _ _ _ task0_spoken R1) as Hsp.
  destruct (refresh_code F uri m t tr s1 s2 es Hx Hsp) as (ids & Hh & _ & Hids); auto; [rewrite <- Hc; exact R|]. rewrite <- Hc in Hh, Hids. fold dir in Hh. fold lang in Hids.
  destruct (PScreen.remembered url b l y s uri pre m F post s1 x s2 _ es He Hrest Hs Ey Hmid R1 Es Hh) as (Ha & _ & _); [destruct m; cbn in Hm; try contradiction; reflexivity|].
  rewrite missing_of_code in Ha.
  exists pre, m, F, post, s2, x, es, (reports F dir ids). split; [exact Ey|]. split; [exact Hm|]. split; [exact Hmid|]. split; [exact R12|]. split; [exact Hh|].
  split; [rewrite Ha; unfold reports; now rewrite map_map, map_id|].
  intros k i. unfold reports. rewrite in_map_iff. split.
  - intros (v & E & Hf). inversion E; subst. split; [reflexivity|]. apply filter_In in Hf. destruct Hf as (Hin & Hcn). apply andb_true_iff in Hcn. destruct Hcn as (Hc1 & Hc2).
    apply Hids in Hin. destruct Hin as [(n & nm & _ & ->)|(n & (ar & Hn) & ->)]; [discriminate Hc1|]. exists (loaded_ref (encode t) n). split; [|reflexivity]. exists ar, n. auto.
  - intros (-> & r & (ar & n & Hn & -> & Hc2) & ->). eexists. split; [reflexivity|]. apply filter_In. split; [apply Hids; right; exists n; split; [eauto|reflexivity]|exact Hc2].
Qed.
Lemma screen_code l (y : sys T) s uri v t tr : exec url b (sys0 T) l = Some y -> at_rest y -> state_of y s ->
  file_ext uri = Some Backend -> just_read uri (map fst (y_taken y)) t ->
  let lang := SpecConfig.lang_of (ls_config (tk_data s)) in let dir := cf_templates (ls_config (tk_data s)) in code_conveys parse lang t tr ->
  url uri = Some v -> (forall u, url u = Some v -> u = uri) ->
  exists F s1 e, last_reading url b y uri F s1 /\ last_published v (y_published y) = Some (publish_of e) /\
    forall k i, In (k, i) e <-> k = TemplateNotFound /\ exists r, unloaded F dir lang (encode t) tr r /\ i = ref_id r.
Proof.
  intros He Hrest Hs Hx J lang dir R Hv Hinj.
  destruct (reading_code l y s uri t tr He Hrest Hs Hx J R) as (pre & m & F & post & s1 & x & es & e & Ey & Hm & Hmid & R12 & Hh & _ & Hrep).
  exists F, s1, e. split; [exists pre, m, post; eexists; eauto|]. split; [|exact Hrep].
  assert (Ha : alive y) by (unfold alive; destruct Hs as [->|(es0 & ->)]; discriminate).
  assert (Hd : y_diag y <> DDead) by (destruct Hrest as (_ & _ & _ & -> & _); discriminate).
  destruct (publication_order url b l y He Ha Hd) as (s0 & tr0 & later & Hr & Hpub & Hl). rewrite (Hl Hrest), app_nil_r in Hpub.
  replace (y_taken y) with ((pre ++ [(m, F)]) ++ post) in Hr by (rewrite Ey, <- app_assoc; reflexivity).
  destruct (replay_split url b _ _ _ _ _ Hr) as (s1' & trA & trB & R1 & R2 & ->). rewrite R12 in R1. inversion R1; subst s1' trA.
  destruct (replay_elsewhere url b uri post s1 s0 trB Hmid R2) as (_ & P2 & _).
  rewrite <- Hpub, flat_map_app, flat_map_app. cbn [flat_map snd]. rewrite Hh, app_nil_r.
  assert (E : flat_map (fun z => flat_map (published_of url) (handed (snd z))) trB = flat_map (published_of url) (flat_map (fun z => handed (snd z)) trB)).
  { clear. induction trB as [|z trB IH]; [reflexivity|]. cbn. rewrite flat_map_app. now f_equal. }
  rewrite E, (published_elsewhere url v uri _ Hinj P2). cbn. rewrite Hv. cbn. rewrite last_published_snoc, String.eqb_refl. reflexivity.
Qed.
Lemma screen_code_at_rest l (y : sys T) s uri v t tr : exec url b (sys0 T) l = Some y -> at_rest y -> state_of y s -> ls_chan (tk_data s) = true ->
  file_ext uri = Some Backend -> editor_text uri (map fst (y_taken y)) t ->
  let lang := SpecConfig.lang_of (ls_config (tk_data s)) in let dir := cf_templates (ls_config (tk_data s)) in code_conveys parse lang t tr ->
  (forall u cs, In (MDidChange u cs) (map fst (y_taken y)) -> u = uri) ->
  url uri = Some v -> (forall u, url u = Some v -> u = uri) ->
  exists F s1 e, last_reading url b y uri F s1 /\ last_published v (y_published y) = Some (publish_of e) /\
    forall k i, In (k, i) e <-> k = TemplateNotFound /\ exists r, unloaded F dir lang (encode t) tr r /\ i = ref_id r.
Proof.
  intros He Hr Hs Hc Hx Ht lang dir R Ho Hv Hinj. eapply screen_code; eauto. eapply rest_just_read; eauto; congruence.
Qed.
Lemma fix_code l (y : sys T) s uri t tr : exec url b (sys0 T) l = Some y -> at_rest y -> state_of y s ->
  file_ext uri = Some Backend -> just_read uri (map fst (y_taken y)) t ->
  let lang := SpecConfig.lang_of (ls_config (tk_data s)) in let dir := cf_templates (ls_config (tk_data s)) in code_conveys parse lang t tr ->
  forall y2 rid pos F', asked_next url b y y2 (MCodeAction rid uri pos) F' ->
  exists F s1, last_reading url b y uri F s1 /\
    (forall r p, unloaded F dir lang (encode t) tr r -> touches (point_of pos) r -> f_canon F' dir = CanonOk p ->
     exists r' u, unloaded F dir lang (encode t) tr r' /\ touches (point_of pos) r' /\ url ("file:///" ++ lookup_path p (snd r'))%string = Some u /\
       In (rid, RCodeActions [CaCreateFile u]) (y_replies y2)) /\
    ((forall r, unloaded F dir lang (encode t) tr r -> ~ touches (point_of pos) r) -> In (rid, RNull) (y_replies y2)).
Proof.
  intros He Hrest Hs Hx J lang dir R y2 rid pos F' Hask. destruct (fix_reply parse edit url b l y s He Hs y2 _ F' Hask) as (sb & es & Hst & Hin).
  destruct (reading_code l y s uri t tr He Hrest Hs Hx J R) as (pre & m & F & post & s1 & x & es0 & e & Ey & Hm & Hmid & R12 & _ & Hacts & Hrep).
  exists F, s1. split; [exists pre, m, post; eexists; eauto|].
  assert (Htr : exists tr0 t0, sget uri (ls_bt (tk_data s)) = Some tr0 /\ sget uri (ls_docs (tk_data s)) = Some t0).
  { apply just_last in J. destruct J as (? & ? & ? & _ & _ & _ & _ & Ht). destruct (reach_replay url b l y s He Hs) as (xx & Hr).
    pose proof (replay_text url b uri ltac:(congruence) _ _ Ht _ _ _ _ eq_refl Hr) as Hd.
    destruct (replay_code url b uri Hpt Hx _ _ Ht _ _ _ _ eq_refl Hr) as (tr0 & A & _). eauto. }
  destruct Htr as (tr0 & t0 & Htr & Hd).
  assert (Hto : forall i, In i (map snd e) -> on_id (point_of pos) i -> exists r, unloaded F dir lang (encode t) tr r /\ touches (point_of pos) r /\ i = ref_id r).
  { intros i Hia Ho. apply in_map_iff in Hia. destruct Hia as ((k & i') & <- & Hk). apply Hrep in Hk. destruct Hk as (_ & r & Hu & E). cbn [snd] in Ho |- *. subst i'. exists r. split; [exact Hu|]. split; [exact Ho|reflexivity]. }
  cbn [MLspTask.step] in Hst. split.
  - intros r p Hu Ht Hp.
    destruct (create_action b (tk_data s) uri pos Backend tr0 (map snd e) t0 Hx Htr Hd Hacts) as (i & Hia & Ho & Hca).
    { exists (ref_id r). split; [apply in_map_iff; exists (TemplateNotFound, ref_id r); split; [reflexivity|]; apply Hrep; split; [reflexivity|]; exists r; auto|exact Ht]. }
    destruct (Hto i Hia Ho) as (r' & Hu' & Ht' & ->). rewrite Hca in Hst. cbn [bind] in Hst. unfold process_code_actions in Hst. fold dir in Hst. rewrite Hp in Hst.
    cbn [ref_id id_name] in Hst. rewrite lookup_path_push in Hst.
    destruct (url ("file:///" ++ lookup_path p (snd r'))%string) as [u|] eqn:Eu; cbn [bind] in Hst; [|discriminate].
    exists r', u. split; [exact Hu'|]. split; [exact Ht'|]. split; [exact Eu|]. cbn [fst snd] in Hst. inversion Hst; subst. apply Hin. now left.
  - intros Hno. assert (Hnone : code_action b uri pos (tk_data s) = Ok None).
    { unfold code_action. rewrite Hx. cbn [trees_of]. rewrite Htr, Hacts. destruct (find_on (point_of pos) (map snd e)) as [(-> & _)|(i & _ & Hi & Oi)]; [reflexivity|].
      exfalso. destruct (Hto i Hi Oi) as (r & Hu & Ht & _). exact (Hno r Hu Ht). }
    rewrite Hnone in Hst. cbn [bind] in Hst. inversion Hst; subst. apply Hin. now left.
Qed.
(** What the code hands to templates is known until the file is read again. *)
Lemma names_known a s x uri t0 t tr : replay url b (task0 T) a = Ok (s, x) ->
  file_ext uri = Some Backend -> last_read uri (map fst a) t0 t ->
  let lang := SpecConfig.lang_of (ls_config (tk_data s)) in code_conveys parse lang t0 tr ->
  exists vs, sget uri (ls_vars (tk_data s)) = Some vs /\
    forall v, In v vs <-> SpecQueries2.remembered (handing lang (encode t0) tr) (fun n => exists ar, loading lang (encode t0) tr ar n) (encode t0) v.
Proof.
  intros Hr Hx (pre0 & m & mid & El & Hm & Ht & Hmid & _) lang R.
  apply map_eq_app in El. destruct El as (pre & l2 & Ey & E1 & E2). destruct l2 as [|(m', F) post]; [discriminate|]. cbn in E2. injection E2 as -> E2. subst pre0 mid.
  rewrite Ey in Hr. destruct (replay_split url b _ _ _ _ _ Hr) as (s1 & x0 & trB & R1 & R2 & ->). cbn [replay] in R2.
  destruct (MLspTask.step F url b s1 m) as [(s2 & es)|] eqn:Es; [|discriminate]. destruct (replay url b s2 post) as [(s3 & trC)|] eqn:E3; [|discriminate]. inversion R2; subst s3 trB.
  pose proof (replay_vars url b uri _ _ _ _ Hmid E3) as Hv.
  assert (Hc : ls_config (tk_data s) = ls_config (tk_data s2)).
  { assert (Hq : Forall (fun m => m <> MInitialized) (map fst post)). { eapply Forall_impl; [|exact Hmid]. intros m0 H0 ->. exact H0. }
    clear - Hq E3. revert s2 trC Hq E3. induction post as [|(m, F) post IH]; intros s2 trC Hq H; cbn [replay map] in *; [inversion H; reflexivity|].
    inversion Hq as [|? ? Hm Hq']; subst. destruct (MLspTask.step F url b s2 m) as [(s3 & es)|] eqn:E; [|discriminate].
    destruct (replay url b s3 post) as [(s4 & tr')|] eqn:E2; [|discriminate]. inversion H; subst. rewrite (IH _ _ Hq' E2). apply step_langs in E; [unfold langs in E; congruence|exact Hm]. }
  pose proof (replay_snoc url b _ _ _ _ _ _ _ _ R1 Es) as R12.
  assert (Em : map fst (pre ++ [(m, F)]) = map fst pre ++ [m]) by (rewrite map_app; reflexivity).
  pose proof (replay_text url b uri ltac:(congruence) _ _ Ht _ _ _ _ Em R12) as Hd.
  destruct (replay_code url b uri Hpt Hx _ _ Ht _ _ _ _ Em R12) as (tr0 & A & B). destruct (B (cc_scalars _ _ _ _ R)) as (old & Bp).
  destruct (replay_spoken url b Hpt _ _ _ _ task0_spoken R12) as (_ & Q2). cbn [ts_with t_parse] in Bp. rewrite Q2, <- Hc in Bp.
  pose proof (cc_parse _ _ _ _ R old) as Bp'. unfold lang in Bp'. rewrite Bp' in Bp. inversion Bp; subst tr0. clear Bp Bp'.
  pose proof (replay_spoken url b Hpt _ _ _ _ task0_spoken R1) as Hsp.
  destruct (refresh_code F uri m t0 tr s1 s2 es Hx Hsp) as (ids & _ & Hids0 & Hids); auto; [rewrite <- Hc; exact R|]. rewrite <- Hc in Hids.
  exists ids. split; [rewrite Hv; exact Hids0|exact Hids].
Qed.
End Code.
