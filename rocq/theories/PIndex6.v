(** * PIndex6: the settings of the last indexing (C136). *)
From Verif Require Import Base RString Utf8 Rope Types Captures MTemplates MDefinition MObjects MLspFiles MSearchErrors MLspTask MChannels MQueries.
From Verif Require Import SpecText SpecFiles SpecBackend SpecScope SpecScope2 SpecObjects SpecLint SpecNav SpecConfig SpecChannels SpecServer SpecClient SpecQueries SpecQueries2 SpecQueries4 SpecQueries5 SpecQueries6 SpecScreen SpecCode SpecSettings SpecIndex SpecIndex2.
From Verif Require Import PUtf8 PText PText2 PFiles POrder PObjects PLint PLint2 PLint3 PScope3 PConfig PBackend PQueries PQueries2 PQueries3 PQueries4 PQueries6 PChannels PChannels2 PChannels3 PChannels4 PChannels5 PNav3 PServer PClient PClient2 PQueries11 PScreen PCode PCode2 PCode3 PCode4 PHistory PIndex PIndex2 PIndex3 PIndex4 PIndex5.

Section Settings.
Variables (parse : plang -> string -> option stree -> option stree) (edit : stree -> input_edit -> stree).
Notation T := (ts_with parse edit).
Variables (url : url_parser) (b : build).
Hypothesis Hpt : parse_total T.

Lemma settings_hold l (y : sys T) F c : exec url b (sys0 T) l = Some y -> at_rest y -> set_up T url b (y_taken y) F c -> usable F c ->
  exists s, state_of y s /\ ls_chan (tk_data s) = true /\ ls_config (tk_data s) = c.
Proof.
  intros He Hrest (pre & post & s0 & x0 & Ea & Hno & R0 & Hc) Hus. pose proof Hrest as ((s & Es) & _). assert (Hs : state_of y s) by (left; exact Es).
  destruct (reach_replay url b l y s He Hs) as (tr1 & Hr). pose proof (indexed_settings parse edit url b Hpt _ s tr1 pre F post s0 x0 c Hr Ea Hno R0 Hc Hus) as Hm.
  unfold modes in Hm. injection Hm as Hch _ Hcf. exists s. auto.
Qed.
Lemma code_set_up l (y : sys T) uri v t tr F c : exec url b (sys0 T) l = Some y -> at_rest y -> set_up T url b (y_taken y) F c -> usable F c ->
  file_ext uri = Some Backend -> just_read uri (map fst (y_taken y)) t -> code_conveys parse (SpecConfig.lang_of c) t tr -> url uri = Some v -> (forall u, url u = Some v -> u = uri) ->
  exists F1 s1 e, last_reading url b y uri F1 s1 /\ last_published v (y_published y) = Some (publish_of e) /\
    forall k i, In (k, i) e <-> k = TemplateNotFound /\ exists r, unloaded F1 (cf_templates c) (SpecConfig.lang_of c) (encode t) tr r /\ i = ref_id r.
Proof.
  intros He Hrest Hset Hus Hx J R Hv Hinj. destruct (settings_hold l y F c He Hrest Hset Hus) as (s & Hs & _ & <-). eapply screen_code; eauto.
Qed.
Lemma code_set_up_rest l (y : sys T) uri v t tr F c : exec url b (sys0 T) l = Some y -> at_rest y -> set_up T url b (y_taken y) F c -> usable F c ->
  file_ext uri = Some Backend -> editor_text uri (map fst (y_taken y)) t -> (forall u cs, In (MDidChange u cs) (map fst (y_taken y)) -> u = uri) ->
  code_conveys parse (SpecConfig.lang_of c) t tr -> url uri = Some v -> (forall u, url u = Some v -> u = uri) ->
  exists F1 s1 e, last_reading url b y uri F1 s1 /\ last_published v (y_published y) = Some (publish_of e) /\
    forall k i, In (k, i) e <-> k = TemplateNotFound /\ exists r, unloaded F1 (cf_templates c) (SpecConfig.lang_of c) (encode t) tr r /\ i = ref_id r.
Proof.
  intros He Hrest Hset Hus Hx J Ho R Hv Hinj. destruct (settings_hold l y F c He Hrest Hset Hus) as (s & Hs & Hch & E).
  eapply code_set_up; eauto. eapply rest_just_read; eauto. congruence.
Qed.
Lemma code_set_up_fix l (y : sys T) uri t tr F c : exec url b (sys0 T) l = Some y -> at_rest y -> set_up T url b (y_taken y) F c -> usable F c ->
  file_ext uri = Some Backend -> just_read uri (map fst (y_taken y)) t -> code_conveys parse (SpecConfig.lang_of c) t tr ->
  forall y2 rid pos F', asked_next url b y y2 (MCodeAction rid uri pos) F' ->
  exists F1 s1, last_reading url b y uri F1 s1 /\
    (forall r p, unloaded F1 (cf_templates c) (SpecConfig.lang_of c) (encode t) tr r -> touches (point_of pos) r -> f_canon F' (cf_templates c) = CanonOk p ->
     exists r' u, unloaded F1 (cf_templates c) (SpecConfig.lang_of c) (encode t) tr r' /\ touches (point_of pos) r' /\
       url ("file:///" ++ lookup_path p (snd r'))%string = Some u /\ In (rid, RCodeActions [CaCreateFile u]) (y_replies y2)) /\
    ((forall r, unloaded F1 (cf_templates c) (SpecConfig.lang_of c) (encode t) tr r -> ~ touches (point_of pos) r) -> In (rid, RNull) (y_replies y2)).
Proof.
  intros He Hrest Hset Hus Hx J R. destruct (settings_hold l y F c He Hrest Hset Hus) as (s & Hs & _ & <-). eapply fix_code; eauto.
Qed.
End Settings.
