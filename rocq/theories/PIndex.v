(** * PIndex: the screen after the workspace was indexed (C130). *)
From Verif Require Import Base RString Utf8 Rope Types Captures MTemplates MDefinition MObjects MLspFiles MSearchErrors MLspTask MChannels MQueries.
From Verif Require Import SpecText SpecFiles SpecBackend SpecScope SpecScope2 SpecObjects SpecLint SpecNav SpecConfig SpecChannels SpecServer SpecClient SpecQueries SpecQueries2 SpecQueries4 SpecQueries5 SpecQueries6 SpecScreen SpecCode SpecSettings SpecIndex.
From Verif Require Import PUtf8 PText PText2 PFiles POrder PObjects PLint PLint2 PLint3 PScope3 PConfig PBackend PQueries PQueries2 PQueries3 PQueries4 PQueries6 PChannels PChannels2 PChannels3 PChannels4 PChannels5 PServer PClient PClient2 PQueries11 PScreen PCode PCode2 PCode3 PCode4 PHistory.

(** A map without repeated keys is published like this. *)
Lemma published_once (url : url_parser) v u : (forall u', url u' = Some v -> u' = u) -> url u = Some v ->
  forall (d : diag_msg), NoDup (map fst d) -> forall ps,
    last_published v (ps ++ published_of url d) =
      match sget u d with Some e => Some (publish_of e) | None => last_published v ps end.
Proof.
  intros Hi Hv. induction d as [|(k & e) d IH]; intros Hn ps; [cbn; now rewrite app_nil_r|].
  inversion Hn as [|? ? Hk Hn']; subst. cbn [published_of flat_map fst snd]. fold (published_of url d). rewrite app_assoc, (IH Hn').
  unfold sget at 2. cbn [hm_get]. fold (sget u d). destruct (String.eqb k u) eqn:E.
  - apply String.eqb_eq in E. subst k. rewrite String.eqb_refl, Hv, last_published_snoc, String.eqb_refl.
    destruct (sget u d) eqn:G; [|reflexivity]. exfalso. apply Hk. apply sget_Some_In. eauto.
  - assert (E' : String.eqb u k = false) by (rewrite String.eqb_sym; exact E). rewrite ?E, ?E'. destruct (sget u d); [reflexivity|].
    destruct (url k) as [w|] eqn:Ew; [|now rewrite app_nil_r]. rewrite last_published_snoc.
    destruct (String.eqb w v) eqn:Ev; [|reflexivity]. apply String.eqb_eq in Ev. subst w. rewrite (Hi _ Ew), String.eqb_refl in E. discriminate.
Qed.
Lemma logs_handed es : logs_only es -> handed es = [].
Proof. induction 1 as [|e es (m & ->) _ IH]; [reflexivity|exact IH]. Qed.

Section Any.
Context {T : ts} (url : url_parser) (b : build).
Lemma read_trees_keys F (a : lsp_files T) d : NoDup (map fst (ls_tt a)) -> read_trees F b a = Ok d -> NoDup (map fst d).
Proof.
  intros N H. unfold read_trees in H. destruct (panic_dec F b a (map fst (ls_tt a))) as [Hn|Hp].
  2:{ rewrite (read_trees_in_panic F b a _ [] Hp) in H. discriminate. }
  destruct (read_trees_in_spec F b a (map fst (ls_tt a)) [] Hn N (NoDup_nil _)) as (d' & E & Nd & _). congruence.
Qed.
Lemma initialized_keys F (s s' : task_state T) es d : do_initialized F b s = Ok (s', es) -> In d (handed es) -> NoDup (map fst d).
Proof.
  intros H Hd. unfold do_initialized in H. pose proof (init_logs (tk_config s)) as HL. set (logs := ELog "Initialized" :: _) in *. clearbody logs.
  destruct (negb _); [injection H as <- <-; rewrite handed_app, (logs_handed _ HL) in Hd; now elim Hd|].
  destruct (walkdir T F b (tk_config s)) as [[(d0 & data)|]|] eqn:Ew; cbn [bind] in H; [| |discriminate].
  - injection H as <- <-. rewrite handed_app, (logs_handed _ HL) in Hd. destruct Hd as [<-|[]].
    pose proof (walkdir_nodup F b _ _ _ Ew) as N. unfold walkdir in Ew.
    destruct (walk_dirs F _ (walk_init T (tk_config s))) as [[s1|]|]; cbn [bind] in Ew; try discriminate.
    destruct (read_trees F b s1) as [d1|] eqn:Er; cbn [bind] in Ew; [|discriminate]. injection Ew as -> ->. now apply (read_trees_keys F data).
  - injection H as <- <-. rewrite handed_app, (logs_handed _ HL) in Hd. now elim Hd.
Qed.
(** Indexing says nothing about code. *)
Lemma step_unread F u (s s' : task_state T) m es : parse_total T -> kinds_kept F -> file_ext u = Some Backend -> never_read u m ->
  MLspTask.step F url b s m = Ok (s', es) -> Forall (fun d => ~ PScreen.about u d) (handed es).
Proof.
  intros Hp HF Hx Hm H.
  assert (He : elsewhere u m -> Forall (fun d => ~ PScreen.about u d) (handed es)) by (intros Q; exact (proj1 (proj2 (PScreen.step_elsewhere url b F u s s' m es Q H)))).
  destruct m; try exact (He Hm); try exact (He I).
  - cbn [MLspTask.step] in H. destruct (do_initialized_cases F b s s' es Hp H) as [(_ & _ & _ & _ & I0 & _ & _ & _ & _ & _ & _ & _ & logs & d & -> & Hlg & Hget)|(_ & _ & Hlg)].
    2:{ rewrite (logs_handed _ Hlg). constructor. }
    rewrite handed_app, (logs_handed _ Hlg). constructor; [|constructor]. intros Hu. apply sget_Some_In in Hu. destruct Hu as (e & He').
    apply Hget in He'. destruct He' as (Ht & _). apply (ix_tree _ _ _ _ I0 Template) in Ht. destruct Ht as (t & p & name & _ & Hc & Hn & _ & ->).
    pose proof (HF p name Template Hn Hc) as Q. apply file_ext_spec in Q. congruence.
  - cbn [MLspTask.step] in H. destruct (did_change _ _ _ _) as [(d & r)|]; cbn [bind] in H; [|discriminate]. destruct r as [te|]; injection H as <- <-; [|constructor].
    cbn [snd]. destruct (te_abort te); constructor.
Qed.
Lemma unread_screen l (y : sys T) u v : parse_total T -> exec url b (sys0 T) l = Some y -> at_rest y -> (forall m F, In (m, F) (y_taken y) -> kinds_kept F) ->
  file_ext u = Some Backend -> Forall (never_read u) (map fst (y_taken y)) -> (forall u', url u' = Some v -> u' = u) -> last_published v (y_published y) = None.
Proof.
  intros Hp He Hrest HF Hx Hn Hinj.
  assert (Ha : alive y) by (destruct Hrest as ((s9 & E9) & _); unfold alive; rewrite E9; discriminate).
  assert (Hd : y_diag y <> DDead) by (destruct Hrest as (_ & _ & _ & -> & _); discriminate).
  destruct (publication_order url b l y He Ha Hd) as (s & tr & later & Hr & Hpub & Hlast). rewrite (Hlast Hrest), app_nil_r in Hpub.
  assert (Hall : Forall (fun d => ~ PScreen.about u d) (flat_map (fun x => handed (snd x)) tr)).
  { clear - Hp HF Hx Hn Hr. revert HF Hn tr Hr. generalize (task0 T). induction (y_taken y) as [|(m, F) ms IH]; intros s0 HF Hn tr Hr; cbn [replay] in Hr; [injection Hr as <- <-; constructor|].
    destruct (MLspTask.step F url b s0 m) as [(s1 & es)|] eqn:E; [|discriminate]. destruct (replay url b s1 ms) as [(s2 & tr')|] eqn:E2; [|discriminate]. injection Hr as <- <-.
    inversion Hn; subst. cbn [flat_map snd]. apply Forall_app. split.
    - eapply step_unread; eauto. eapply HF. now left.
    - eapply IH; eauto. intros m0 F0 H0. eapply HF. right. exact H0. }
  assert (E : forall q : list (msg * list effect), flat_map (fun z => flat_map (published_of url) (handed (snd z))) q = flat_map (published_of url) (flat_map (fun z => handed (snd z)) q)).
  { induction q as [|z q IH]; [reflexivity|]. cbn. rewrite flat_map_app. now f_equal. }
  rewrite <- Hpub, (E tr). exact (published_elsewhere url v u _ Hinj Hall []).
Qed.
End Any.

Section Index.
Variables (parse : plang -> string -> option stree -> option stree) (edit : stree -> input_edit -> stree).
Notation T := (ts_with parse edit).
Variables (url : url_parser) (b : build).
Hypothesis Hpt : parse_total T.

(** The variables stored of a template on the disk. *)
Lemma stored_template F c (d : lsp_files T) u t tr tp ps sts : SpecConfig.indexed F (SpecConfig.lang_of c) (entry F c) d -> sound_workspace parse F c ->
  on_disk F (entry F c) u t Template -> conveys parse t tr tp ps sts ->
  sget u (ls_docs d) = Some t /\ sget u (ls_tt d) = Some tr /\
  exists dq, sget u (ls_vars d) = Some (def_identifiers dq) /\ map decl_of_id (def_identifiers dq) = defines tr tp.
Proof.
  intros I W Hu R. destruct (W _ _ _ Hu) as (Hx & _).
  assert (Hsame : forall t' l, on_disk F (entry F c) u t' l -> t' = t /\ l = Template).
  { intros t' l H'. split; [exact (on_disk_text _ _ _ _ _ _ _ _ H' Hu)|]. destruct (W _ _ _ H') as (Hx' & _). congruence. }
  pose proof (depicts_parsed parse edit _ _ _ _ _ (rd_depicts _ _ _ _ _ _ R)) as Hpa.
  split; [apply (ix_docs _ _ _ _ I); eauto|].
  split.
  { destruct (proj2 (ix_tree _ _ _ _ I Template u)) as (tr' & Ht); [eauto|]. cbn [trees_of] in Ht. rewrite Ht. f_equal.
    destruct (ix_parsed _ _ _ _ I Template u tr' Ht) as (t' & old & H' & Hp). destruct (Hsame _ _ H') as (-> & _). cbn in Hp.
    pose proof (rd_parse _ _ _ _ _ _ R old). congruence. }
  destruct (exact_extents (encode t) tp (t_captures T QDefinitions tr (encode t)) (t_root_end T tr) pt0 (pd_tpl _ _ _ _ _ _ Hpa) (rd_ends _ _ _ _ _ _ R) (pd_nodes _ _ _ _ _ _ Hpa) (pd_defs _ _ _ _ _ _ Hpa)) as (dq & Q & Ed).
  exists dq. split; [|exact Ed].
  destruct (ix_analysed _ _ _ _ I u t Template Hu) as [(vs & Hv)|(_ & old & tr' & Hp & sn & Es & Hbad)].
  - rewrite Hv. f_equal. destruct (ix_vars _ _ _ _ I u vs Hv) as (l & t' & old & tr' & H' & Hp & Hvs). destruct (Hsame _ _ H') as (-> & ->). cbn in Hp.
    pose proof (rd_parse _ _ _ _ _ _ R old) as Hp'. assert (tr' = tr) by congruence. subst tr'. destruct Hvs as (dq' & Q' & ->). congruence.
  - exfalso. cbn in Hp. pose proof (rd_parse _ _ _ _ _ _ R old) as Hp'. assert (tr' = tr) by congruence. subst tr'.
    assert (Hq : exists sn, snippets_query (t_captures T QSnippets tr (encode t)) pt0 true = Ok sn /\ sn_error sn = false).
    { unfold snippets_query. rewrite flat_captures_all. apply snip_run_clean; [exact (pd_clean _ _ _ _ _ _ Hpa)|reflexivity]. }
    destruct Hq as (sn' & Es' & Hn). congruence.
Qed.
(** The same of code. *)
Lemma stored_code F c (d : lsp_files T) u t tr : SpecConfig.indexed F (SpecConfig.lang_of c) (entry F c) d -> sound_workspace parse F c ->
  on_disk F (entry F c) u t Backend -> code_conveys parse (SpecConfig.lang_of c) t tr ->
  exists vs, sget u (ls_vars d) = Some vs /\ forall v, In v vs <->
    SpecQueries2.remembered (handing (SpecConfig.lang_of c) (encode t) tr) (fun n => exists ar, loading (SpecConfig.lang_of c) (encode t) tr ar n) (encode t) v.
Proof.
  intros I W Hu R. destruct (W _ _ _ Hu) as (Hx & _).
  assert (Hsame : forall t' l, on_disk F (entry F c) u t' l -> t' = t /\ l = Backend).
  { intros t' l H'. split; [exact (on_disk_text _ _ _ _ _ _ _ _ H' Hu)|]. destruct (W _ _ _ H') as (Hx' & _). congruence. }
  destruct (ix_analysed _ _ _ _ I u t Backend Hu) as [(vs & Hv)|(E & _)]; [|discriminate].
  exists vs. split; [exact Hv|]. destruct (ix_vars _ _ _ _ I u vs Hv) as (l & t' & old & tr' & H' & Hp & Hvs). destruct (Hsame _ _ H') as (-> & ->). cbn in Hp.
  pose proof (cc_parse _ _ _ _ R old) as Hp'. assert (tr' = tr) by congruence. subst tr'.
  destruct (code_found parse _ _ _ R) as (ds & rs & Ed & Hcd & Er & Hcr & Hin). destruct Hvs as (ids & tpl & Q1 & Q2 & ->). cbn [ts_with t_captures] in Q1, Q2.
  rewrite (definitions_exact _ pt0 _ _ Ed Hcd) in Q1. destruct (references_exact _ pt0 _ _ Er Hcr) as (st & Est & Eb). rewrite Est in Q2.
  injection Q1 as <-. injection Q2 as <-. rewrite Eb. exact Hin.
Qed.
(** The names the server knows are those written in the files. *)
Lemma names_written F c (d : lsp_files T) : keyed d -> SpecConfig.indexed F (SpecConfig.lang_of c) (entry F c) d -> sound_workspace parse F c ->
  forall name, SpecLint.indexed (ls_vars d) name <-> written parse F c name.
Proof.
  intros (K & _) I W name. split.
  - intros (u & vs & v & Hu & Hv & <-). apply (In_sget _ _ _ K) in Hu.
    destruct (ix_vars _ _ _ _ I u vs Hu) as (l & t & old & tr0 & Hd & _). exists u, t, l. split; [exact Hd|].
    destruct (W _ _ _ Hd) as (_ & R). destruct l.
    + destruct R as (tr & tp & ps & sts & R). destruct (stored_template F c d u t tr tp ps sts I W Hd R) as (_ & _ & dq & Hq & Ed).
      rewrite Hu in Hq. injection Hq as ->. exists tr, tp, ps, sts, (decl_of_id v). split; [exact R|]. split; [rewrite <- Ed; now apply in_map|reflexivity].
    + destruct R as (tr & R). destruct (stored_code F c d u t tr I W Hd R) as (vs' & Hq & Hin). rewrite Hu in Hq. injection Hq as <-.
      apply Hin in Hv. destruct Hv as [(n & nm & Hh & ->)|(n & (ar & Hl) & ->)]; exists tr, n; (split; [exact R|]); cbn; [now left|right; exists ar; now split].
  - intros (u & t & l & Hd & R). destruct l.
    + destruct R as (tr & tp & ps & sts & dc & R & Hdc & <-). destruct (stored_template F c d u t tr tp ps sts I W Hd R) as (_ & _ & dq & Hq & Ed).
      rewrite <- Ed in Hdc. apply in_map_iff in Hdc. destruct Hdc as (v & <- & Hv). exists u, (def_identifiers dq), v.
      split; [exact (sget_In _ _ _ Hq)|]. split; [exact Hv|reflexivity].
    + destruct R as (tr & n & R & Hn). destruct (stored_code F c d u t tr I W Hd R) as (vs & Hq & Hin). destruct Hn as [Hh|(ar & Hl & Hs)].
      * exists u, vs, (at_node BackendVariable n name). split; [exact (sget_In _ _ _ Hq)|]. split; [|reflexivity]. apply Hin. left. eauto.
      * exists u, vs, (at_node JinjaTemplate n name). split; [exact (sget_In _ _ _ Hq)|]. split; [|reflexivity]. apply Hin. right. exists n.
        split; [eauto|]. rewrite <- Hs. reflexivity.
Qed.
Lemma verdict_ext this (A B : string -> Prop) name p q r : (forall n, A n <-> B n) -> verdict this A name p q r -> verdict this B name p q r.
Proof. intros H V. destruct V; econstructor; eauto; try (now apply H); intros X; eapply H in X; eauto. Qed.
Lemma reported_ext this (A B : string -> Prop) us es : (forall n, A n <-> B n) -> reported this A us es -> reported this B us es.
Proof. intros H V. induction V; [constructor|apply RepFine|apply RepFlag]; auto; eapply verdict_ext; eauto. Qed.
(** Linting a template of the index. *)
Lemma read_indexed F c (d : lsp_files T) u t tr tp ps sts : keyed d -> SpecConfig.indexed F (SpecConfig.lang_of c) (entry F c) d -> sound_workspace parse F c ->
  on_disk F (entry F c) u t Template -> conveys parse t tr tp ps sts -> ls_config d = c ->
  exists e1, read_tree F b u d = Ok (Some (e1 ++ missing_reports F (cf_templates c) sts)) /\
    (ls_ignore d = false -> reported (defines tr tp) (written parse F c) (chains ps) e1) /\ (ls_ignore d = true -> e1 = []).
Proof.
  intros K I W Hd R Hc. destruct (stored_template F c d u t tr tp ps sts I W Hd R) as (Ht & Htr & dq & Hv & Ed).
  destruct (W _ _ _ Hd) as (Hx & _). pose proof (depicts_parsed parse edit _ _ _ _ _ (rd_depicts _ _ _ _ _ _ R)) as [Pt Pn Pd Pp Po Ps Pi Pc].
  destruct (missing_exact T F b tr (encode t) (ls_vars d) u (cf_templates (ls_config d)) (ls_ignore d) (def_identifiers dq) ps sts Pp Po Ps Pi Hv) as (e1 & E & _ & Hr & Hi).
  exists e1. split; [|split; [|exact Hi]].
  - unfold read_tree. rewrite Ht, Hx. cbn [trees_of]. rewrite Htr, (rope_content_encode t (rd_text _ _ _ _ _ _ R)), E, Hc. reflexivity.
  - intros Hg. rewrite <- Ed. eapply reported_ext; [|exact (Hr Hg)]. now apply names_written.
Qed.

(** What is published. *)
Lemma trace_flat (trB : list (msg * list effect)) : flat_map (fun z => flat_map (published_of url) (handed (snd z))) trB = flat_map (published_of url) (flat_map (fun z => handed (snd z)) trB).
Proof. induction trB as [|z trB IH]; [reflexivity|]. cbn. rewrite flat_map_app. now f_equal. Qed.
Lemma indexing_screen l (y : sys T) uri v F c t tr tp ps sts : exec url b (sys0 T) l = Some y -> at_rest y -> last_indexing url b y uri F c ->
  usable F c -> sound_workspace parse F c -> on_disk F (entry F c) uri t Template -> conveys parse t tr tp ps sts ->
  url uri = Some v -> (forall u, url u = Some v -> u = uri) ->
  exists e1, last_published v (y_published y) = Some (publish_of (e1 ++ missing_reports F (cf_templates c) sts)) /\
    (cf_hide c <> Some true -> reported (defines tr tp) (written parse F c) (chains ps) e1) /\
    (cf_hide c = Some true -> e1 = []).
Proof.
  intros He Hrest (pre & post & s0 & x & Ey & Hpost & R0 & Hc) (Hl & Hw) W Hu R Hv Hinj.
  assert (Ha : alive y) by (destruct Hrest as ((s9 & E9) & _); unfold alive; rewrite E9; discriminate).
  assert (Hd : y_diag y <> DDead) by (destruct Hrest as (_ & _ & _ & -> & _); discriminate).
  destruct (publication_order url b l y He Ha Hd) as (s & tr0 & later & Hr & Hpub & Hlast). rewrite (Hlast Hrest), app_nil_r in Hpub.
  rewrite Ey in Hr. destruct (replay_split url b _ _ _ _ _ Hr) as (s0' & x' & trB & R1 & R2 & ->). rewrite R0 in R1. injection R1 as <- <-. cbn [replay] in R2.
  destruct (MLspTask.step F url b s0 MInitialized) as [(s1 & es)|] eqn:Es; [|discriminate]. destruct (replay url b s1 post) as [(s3 & trC)|] eqn:E3; [|discriminate]. injection R2 as <- <-.
  destruct (replay_elsewhere url b uri post s1 s3 trC Hpost E3) as (_ & P2 & _).
  pose proof Es as Ei. cbn [MLspTask.step] in Ei. pose proof (fun d => initialized_keys b F s0 s1 es d Ei) as Hk.
  destruct (do_initialized_cases F b s0 s1 es Hpt Ei) as [(_ & _ & _ & _ & I & _ & _ & Hcf & _ & _ & _ & Hig & logs & d & -> & Hlg & Hget)|([Hn|Hn] & _)];
    rewrite Hc in *; [|now elim Hn|now elim Hn].
  assert (K : keyed (tk_data s1)). { eapply keyed_step; [|exact Es]. eapply keyed_reach. exact R0. }
  destruct (read_indexed F c (tk_data s1) uri t tr tp ps sts K I W Hu R Hcf) as (e1 & Hread & H1 & H2).
  exists e1. split.
  - rewrite <- Hpub, flat_map_app. cbn [flat_map snd]. rewrite handed_app, (logs_handed _ Hlg). cbn [handed flat_map app]. rewrite app_nil_r, app_assoc, (trace_flat trC).
    rewrite (published_elsewhere url v uri _ Hinj P2).
    rewrite (published_once url v uri Hinj Hv d).
    + assert (G : sget uri d = Some (e1 ++ missing_reports F (cf_templates c) sts)).
      { apply Hget. split; [|exact Hread]. apply (ix_tree _ _ _ _ I Template). eauto. }
      now rewrite G.
    + apply Hk. rewrite handed_app, (logs_handed _ Hlg). now left.
  - rewrite Hig in H1, H2. split; [intros Hh; apply H1; destruct (cf_hide c) as [[|]|]; congruence|intros Hh; apply H2; now rewrite Hh].
Qed.
End Index.
