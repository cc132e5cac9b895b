(** * PIndex5: the screen when undefined names are hidden (C135). *)
From Verif Require Import Base RString Utf8 Rope Types Captures MTemplates MDefinition MObjects MLspFiles MSearchErrors MLspTask MChannels MQueries.
From Verif Require Import SpecText SpecFiles SpecBackend SpecScope SpecScope2 SpecObjects SpecLint SpecNav SpecConfig SpecChannels SpecServer SpecClient SpecQueries SpecQueries2 SpecQueries4 SpecQueries5 SpecQueries6 SpecScreen SpecCode SpecSettings SpecIndex SpecIndex2.
From Verif Require Import PUtf8 PText PText2 PFiles POrder PObjects PLint PLint2 PLint3 PScope3 PConfig PBackend PQueries PQueries2 PQueries3 PQueries4 PQueries6 PChannels PChannels2 PChannels3 PChannels4 PChannels5 PServer PClient PClient2 PQueries11 PScreen PCode PCode2 PCode3 PCode4 PHistory PIndex PIndex2 PIndex3 PIndex4.

Section Hidden.
Variables (parse : plang -> string -> option stree -> option stree) (edit : stree -> input_edit -> stree).
Notation T := (ts_with parse edit).
Variables (url : url_parser) (b : build).
Hypothesis Hpt : parse_total T.

Lemma refresh_hidden F uri m t tr tp ps sts (s s' : task_state T) es : file_ext uri = Some Template -> conveys parse t tr tp ps sts ->
  refreshes uri m -> MLspTask.step F url b s m = Ok (s', es) -> sget uri (ls_docs (tk_data s')) = Some t -> has_tree uri t (tk_data s') ->
  ls_ignore (tk_data s') = true -> handed es = [[(uri, missing_reports F (cf_templates (ls_config (tk_data s'))) sts)]].
Proof.
  intros Hx HR Hm H Hd Ht Hi. pose proof (read_displayed parse edit _ _ _ _ _ _ _ Hx HR Hd Ht) as Hsh. destruct HR as [R1 R2 R3 R4 R5 R6].
  pose proof (depicts_parsed parse edit _ _ _ _ _ R4) as Hpa. destruct m; cbn [refreshes] in Hm; try (now elim Hm); subst uri0; cbn [MLspTask.step] in H.
  - destruct (did_open F b uri t0 false (tk_data s)) as [(d & r)|] eqn:E; cbn [bind] in H; inversion H; subst. cbn [fst snd with_data tk_data] in *.
    assert (t0 = t). { pose proof (did_open_docs b F uri t0 _ _ _ ltac:(congruence) E). congruence. } subst t0.
    pose proof (did_open_frame F b _ _ _ _ _ _ E) as (_ & _ & _ & Hc & _ & _ & Hig).
    destruct (did_open_relint T F b uri t tr (tk_data s) Hx (R2 _)) as (s2 & A1 & A2 & A3 & A4 & _ & Eo). rewrite Eo in E.
    destruct (relint_any T F b uri t tr tp ps sts s2 Hx R1 A1 A2 Hpa R6) as (s3 & e1 & Ea & Er & _ & Hn & _). rewrite Ea in E. cbn [bind] in E. rewrite Er in E.
    cbn [bind] in E. rewrite (Hn ltac:(congruence)), A3 in E. inversion E; subst. cbn. now rewrite Hc.
  - destruct (did_save F b uri (tk_data s)) as [(d & r)|] eqn:E; cbn [bind] in H; inversion H; subst. cbn [fst snd with_data tk_data] in *.
    rewrite (did_save_docs b F _ _ _ _ E) in Hd. pose proof (sh_tree _ _ _ _ _ _ _ Hsh) as Htr. rewrite (did_save_tt b F _ _ _ _ E) in Htr.
    pose proof (did_save_frame F b _ _ _ _ E) as (_ & _ & _ & Hc & _ & _ & Hig).
    rewrite (did_save_relint T F b uri t _ Hx R1 Hd) in E. destruct (delete_variables_frame uri (tk_data s)) as (vm & Em). rewrite Em in E.
    destruct (relint_any T F b uri t tr tp ps sts (set_vars vm (tk_data s)) Hx R1 Htr Hd Hpa R6) as (s3 & e1 & Ea & Er & _ & Hn & _).
    rewrite Ea in E. cbn [bind] in E. rewrite Er in E. cbn [bind] in E. rewrite Hn in E by (cbn; congruence). inversion E; subst. cbn. now rewrite Hc.
Qed.
Lemma hidden_screen l (y : sys T) s uri v t tr tp ps sts : exec url b (sys0 T) l = Some y -> at_rest y -> state_of y s ->
  file_ext uri = Some Template -> just_read uri (map fst (y_taken y)) t -> conveys parse t tr tp ps sts -> ls_ignore (tk_data s) = true ->
  url uri = Some v -> (forall u, url u = Some v -> u = uri) ->
  exists F s1, last_reading url b y uri F s1 /\ last_published v (y_published y) = Some (publish_of (missing_reports F (cf_templates (ls_config (tk_data s))) sts)).
Proof.
  intros He Hrest Hs Hx (pre0 & m & mid & El & Hm & Ht & Hmid) R Hi Hv Hinj.
  apply map_eq_app in El. destruct El as (pre & l2 & Ey & E1 & E2). destruct l2 as [|(m', F) post]; [discriminate|]. cbn in E2. injection E2 as -> E2. subst pre0 mid.
  assert (Ha : alive y) by (unfold alive; destruct Hs as [->|(es0 & ->)]; discriminate).
  assert (Hdg : y_diag y <> DDead) by (destruct Hrest as (_ & _ & _ & -> & _); discriminate).
  destruct (publication_order url b l y He Ha Hdg) as (s0 & tr0 & later & Hr & Hpub & Hl). rewrite (Hl Hrest), app_nil_r in Hpub.
  destruct (reach_replay url b l y s He Hs) as (tr1 & Hr1). rewrite Hr in Hr1. injection Hr1 as -> ->.
  rewrite Ey in Hr. destruct (replay_split url b _ _ _ _ _ Hr) as (s1 & x & trB & R1 & R2 & ->). cbn [replay] in R2.
  destruct (MLspTask.step F url b s1 m) as [(s2 & es)|] eqn:Es; [|discriminate]. destruct (replay url b s2 post) as [(s3 & trC)|] eqn:E3; [|discriminate]. inversion R2; subst s3 trB.
  destruct (replay_elsewhere url b uri post s2 s trC Hmid E3) as (_ & P2 & Hc & Hig).
  pose proof (replay_snoc url b _ _ _ _ _ _ _ _ R1 Es) as R12.
  assert (Em : map fst (pre ++ [(m, F)]) = map fst pre ++ [m]) by (rewrite map_app; reflexivity).
  pose proof (replay_text url b uri ltac:(congruence) _ _ Ht _ _ _ _ Em R12) as Hd.
  pose proof (replay_tree url b uri Hpt Hx _ _ Ht _ _ _ _ Em R12) as Htr.
  pose proof (refresh_hidden F uri m t tr tp ps sts s1 s2 es Hx R Hm Es Hd Htr ltac:(congruence)) as Hh. rewrite <- Hc in Hh.
  exists F, s2. split; [exists pre, m, post; eexists; eauto|].
  rewrite <- Hpub, flat_map_app. cbn [flat_map snd]. rewrite Hh, (trace_flat url trC), app_assoc, (published_elsewhere url v uri _ Hinj P2). cbn. rewrite Hv. cbn. rewrite last_published_snoc, String.eqb_refl. reflexivity.
Qed.
(** The settings of the last indexing hold. *)
Lemma indexed_settings a s x pre F post s0 x0 c : replay url b (task0 T) a = Ok (s, x) -> a = pre ++ (MInitialized, F) :: post -> ~ In MInitialized (map fst post) ->
  replay url b (task0 T) pre = Ok (s0, x0) -> tk_config s0 = c -> usable F c ->
  modes (tk_data s) = (true, match cf_hide c with Some h => h | None => false end, c).
Proof.
  intros Hr -> Hno R0 Hc (Hl & Hw).
  destruct (replay_split url b _ _ _ _ _ Hr) as (s0' & x' & trB & R1 & R2 & _). rewrite R0 in R1. injection R1 as <- <-. cbn [replay] in R2.
  destruct (MLspTask.step F url b s0 MInitialized) as [(s1 & es)|] eqn:Es; [|discriminate]. destruct (replay url b s1 post) as [(s3 & trC)|] eqn:E3; [|discriminate]. injection R2 as <- <-.
  cbn [MLspTask.step] in Es. rewrite (replay_modes_any url b post s1 s3 trC Hno E3). unfold modes.
  destruct (do_initialized_cases F b s0 s1 es Hpt Es) as [(_ & _ & _ & _ & _ & _ & _ & Hcf & Hch & _ & _ & Hig & _)|([Hn|Hn] & _)]; rewrite Hc in *; [|now elim Hn|now elim Hn].
  now rewrite Hcf, Hch, Hig.
Qed.
Lemma hidden_shown l (y : sys T) uri v t tr tp ps sts F c : exec url b (sys0 T) l = Some y -> at_rest y ->
  set_up T url b (y_taken y) F c -> usable F c -> cf_hide c = Some true ->
  file_ext uri = Some Template -> just_read uri (map fst (y_taken y)) t -> conveys parse t tr tp ps sts -> url uri = Some v -> (forall u, url u = Some v -> u = uri) ->
  exists F1 s1, last_reading url b y uri F1 s1 /\ last_published v (y_published y) = Some (publish_of (missing_reports F1 (cf_templates c) sts)).
Proof.
  intros He Hrest (pre & post & s0 & x0 & Ea & Hno & R0 & Hc) Hus Hh Hx J R Hv Hinj. pose proof Hrest as ((s & Es) & _). assert (Hs : state_of y s) by (left; exact Es).
  destruct (reach_replay url b l y s He Hs) as (tr1 & Hr). pose proof (indexed_settings _ s tr1 pre F post s0 x0 c Hr Ea Hno R0 Hc Hus) as Hm. rewrite Hh in Hm. unfold modes in Hm. injection Hm as _ Hig Hcf.
  rewrite <- Hcf. eapply hidden_screen; eauto.
Qed.
Lemma hidden_rest l (y : sys T) uri v t tr tp ps sts F c : exec url b (sys0 T) l = Some y -> at_rest y ->
  set_up T url b (y_taken y) F c -> usable F c -> cf_hide c = Some true ->
  file_ext uri = Some Template -> editor_text uri (map fst (y_taken y)) t -> (forall u cs, In (MDidChange u cs) (map fst (y_taken y)) -> u = uri) ->
  conveys parse t tr tp ps sts -> url uri = Some v -> (forall u, url u = Some v -> u = uri) ->
  exists F1 s1, last_reading url b y uri F1 s1 /\ last_published v (y_published y) = Some (publish_of (missing_reports F1 (cf_templates c) sts)).
Proof.
  intros He Hrest Hset Hus Hh Hx Ht Ho R Hv Hinj. pose proof Hset as (pre & post & s0 & x0 & Ea & Hno & R0 & Hc). pose proof Hrest as ((s & Es) & _). assert (Hs : state_of y s) by (left; exact Es).
  destruct (reach_replay url b l y s He Hs) as (tr1 & Hr). pose proof (indexed_settings _ s tr1 pre F post s0 x0 c Hr Ea Hno R0 Hc Hus) as Hm. unfold modes in Hm. injection Hm as Hch _ _.
  eapply hidden_shown; eauto. eapply rest_just_read; eauto; congruence.
Qed.
End Hidden.
