(** * PIndex7: the quick fixes of templates, whether undefined names are hidden or not (C137). *)
From Verif Require Import Base RString Utf8 Rope Types Captures MTemplates MDefinition MObjects MLspFiles MSearchErrors MLspTask MChannels MQueries.
From Verif Require Import SpecText SpecFiles SpecBackend SpecScope SpecScope2 SpecObjects SpecObjects2 SpecLint SpecNav SpecConfig SpecChannels SpecServer SpecClient SpecQueries SpecQueries2 SpecQueries4 SpecQueries5 SpecQueries6 SpecScreen SpecCode SpecSettings SpecIndex SpecIndex2.
From Verif Require Import PUtf8 PText PText2 PFiles PNode PNav PNav2 POrder PObjects PLint PLint2 PLint3 PScope3 PConfig PBackend PQueries PQueries2 PQueries3 PQueries4 PQueries6 PQueries7 PQueries9 PQueries10 PChannels PChannels2 PChannels3 PChannels4 PChannels5 PNav3 PServer PClient PClient2 PQueries11 PScreen PCode PCode2 PCode3 PCode4 PHistory PIndex PIndex2 PIndex3 PIndex4 PIndex5 PIndex6.

Section AnyFixes.
Variables (parse : plang -> string -> option stree -> option stree) (edit : stree -> input_edit -> stree).
Notation T := (ts_with parse edit).
Variables (url : url_parser) (b : build).
Hypothesis Hpt : parse_total T.
Section Fixes.
Variables (l : list action) (y : sys T) (s : task_state T) (uri : string) (t : text) (tr : stree) (tp : tpl) (ps : list piece) (sts : list istmt).
Hypothesis He : exec url b (sys0 T) l = Some y.
Hypothesis Hrest : at_rest y.
Hypothesis Hs : state_of y s.
Hypothesis Hx : file_ext uri = Some Template.
Hypothesis J : just_read uri (map fst (y_taken y)) t.
Hypothesis R : conveys parse t tr tp ps sts.
Notation dir := (cf_templates (ls_config (tk_data s))).
(** The references remembered do not depend on [hide_undefined]. *)
Lemma reading_any : exists pre m F post s1 x es,
  y_taken y = pre ++ (m, F) :: post /\ refreshes uri m /\ Forall (elsewhere uri) (map fst post) /\
  replay url b (task0 T) (pre ++ [(m, F)]) = Ok (s1, x ++ [(m, es)]) /\
  sget uri (ls_actions (tk_data s)) = Some (map ref_id (filter (fun r => missing F dir (snd r)) (flat_map refs sts))).
Proof.
  destruct (ls_ignore (tk_data s)) eqn:Hi.
  2: { destruct (reading parse edit url b Hpt l y s uri t tr tp ps sts He Hrest Hs Hx J R Hi) as (pre & m & F & post & s1 & x & es & e1 & A1 & A2 & A3 & A4 & _ & _ & A5). exists pre, m, F, post, s1, x, es. auto. }
  destruct J as (pre0 & m & mid & El & Hm & Ht & Hmid).
  apply map_eq_app in El. destruct El as (pre & l2 & Ey & E1 & E2). destruct l2 as [|(m', F) post]; [discriminate|]. cbn in E2. injection E2 as -> E2. subst pre0 mid.
  destruct (reach_replay url b l y s He Hs) as (tr1 & Hr). rewrite Ey in Hr. destruct (replay_split url b _ _ _ _ _ Hr) as (s1 & x & trB & R1 & R2 & ->). cbn [replay] in R2.
  destruct (MLspTask.step F url b s1 m) as [(s2 & es)|] eqn:Es; [|discriminate]. destruct (replay url b s2 post) as [(s3 & trC)|] eqn:E3; [|discriminate]. inversion R2; subst s3 trB.
  destruct (replay_elsewhere url b uri post s2 s trC Hmid E3) as (_ & _ & Hc & Hig).
  pose proof (replay_snoc url b _ _ _ _ _ _ _ _ R1 Es) as R12.
  assert (Em : map fst (pre ++ [(m, F)]) = map fst pre ++ [m]) by (rewrite map_app; reflexivity).
  pose proof (replay_text url b uri ltac:(congruence) _ _ Ht _ _ _ _ Em R12) as Hd.
  pose proof (replay_tree url b uri Hpt Hx _ _ Ht _ _ _ _ Em R12) as Htr.
  pose proof (refresh_hidden parse edit url b F uri m t tr tp ps sts s1 s2 es Hx R Hm Es Hd Htr ltac:(congruence)) as Hh. rewrite <- Hc in Hh.
  destruct (remembered url b l y s uri pre m F post s1 x s2 _ es He Hrest Hs Ey Hmid R1 Es Hh) as (Ha & _ & _); [destruct m; cbn in Hm; try contradiction; reflexivity|].
  pose proof (missing_of_reports [] (fun _ => False) [] [] F dir sts) as Hmo. cbn [app] in Hmo. rewrite Hmo in Ha by constructor.
  exists pre, m, F, post, s2, x, es. auto.
Qed.
Lemma fixes_any y2 rid pos F' : asked_next url b y y2 (MCodeAction rid uri pos) F' ->
  exists F s1, last_reading url b y uri F s1 /\
    (forall r p, unfound F dir sts r -> touches (point_of pos) r -> f_canon F' dir = CanonOk p ->
     exists r' u, unfound F dir sts r' /\ touches (point_of pos) r' /\ url ("file:///" ++ lookup_path p (snd r'))%string = Some u /\
       In (rid, RCodeActions [CaCreateFile u]) (y_replies y2)) /\
    ((forall r, unfound F dir sts r -> ~ touches (point_of pos) r) ->
     forall ps1 ps2, ps = ps1 ++ ps2 -> between (point_of pos) ps1 ps2 ->
       (SpecObjects.inside ps1 (point_of pos) ->
        In (rid, RCodeActions [CaCommand "Reset variables" "reset_variables"; CaCommand "Warn about unused" "warn"]%string) (y_replies y2)) /\
       (outside ps1 (point_of pos) -> In (rid, RNull) (y_replies y2))).
Proof.
  intros Hask. destruct (fix_reply parse edit url b l y s He Hs y2 _ F' Hask) as (sb & es & Hst & Hin).
  destruct reading_any as (pre & m & F & post & s1 & x & es0 & Ey & Hm & Hmid & R12 & Hacts).
  pose proof (held parse edit url b Hpt l y s uri t tr tp ps sts He Hs Hx J R) as Hd. exists F, s1. split; [exists pre, m, post; eexists; eauto|].
  set (acts := map ref_id _) in *.
  assert (Hto : forall i, In i acts -> on_id (point_of pos) i -> exists r, unfound F dir sts r /\ touches (point_of pos) r /\ i = ref_id r).
  { intros i Hia Ho. apply in_map_iff in Hia. destruct Hia as (r & <- & Hr). apply filter_In in Hr. exists r. split; [exact Hr|]. split; [exact Ho|reflexivity]. }
  cbn [MLspTask.step] in Hst. split.
  - intros r p Hu Ht Hp.
    destruct (create_action b (tk_data s) uri pos Template tr acts t Hx (sh_tree _ _ _ _ _ _ _ Hd) (sh_doc _ _ _ _ _ _ _ Hd) Hacts) as (i & Hia & Ho & Hca).
    { exists (ref_id r). split; [apply in_map; apply filter_In; exact Hu|exact Ht]. }
    destruct (Hto i Hia Ho) as (r' & Hu' & Ht' & ->). rewrite Hca in Hst. cbn [bind] in Hst. unfold process_code_actions in Hst. rewrite Hp in Hst.
    cbn [ref_id id_name] in Hst. rewrite lookup_path_push in Hst.
    destruct (url ("file:///" ++ lookup_path p (snd r'))%string) as [u|] eqn:Eu; cbn [bind] in Hst; [|discriminate].
    exists r', u. split; [exact Hu'|]. split; [exact Ht'|]. split; [exact Eu|]. cbn [fst snd] in Hst. inversion Hst; subst. apply Hin. now left.
  - intros Hno ps1 ps2 Ep Hb.
    pose proof (objects_are parse edit _ _ _ _ _ _ _ Hd) as Ho. pose proof (pieces_are parse edit _ _ _ _ _ _ _ Hd) as Hp. rewrite Ep in Ho, Hp.
    destruct (between_ends parse _ _ _ _ Hp Hb) as ((p & Hen & Hlt) & Hba). unfold cap_pieces in Ho. rewrite flat_map_app in Ho.
    destruct (reset_in_gap b (tk_data s) uri pos tr t acts ps1 (flat_map cap_piece ps2) p) as (H1 & H2); auto.
    { split; [exact Hx|]. split; [exact (sh_tree _ _ _ _ _ _ _ Hd)|exact (sh_doc _ _ _ _ _ _ _ Hd)]. }
    { intros i Hia Hoi. destruct (Hto i Hia Hoi) as (r & Hu & Ht & _). exact (Hno r Hu Ht). }
    split; intros Hc.
    + rewrite (H1 Hc) in Hst. cbn [bind process_code_actions snd fst] in Hst. inversion Hst; subst. apply Hin. now left.
    + rewrite (H2 Hc) in Hst. cbn [bind] in Hst. inversion Hst; subst. apply Hin. now left.
Qed.
Lemma only_any y2 rid pos F' : asked_next url b y y2 (MCodeAction rid uri pos) F' ->
  exists F s1, last_reading url b y uri F s1 /\
    ((forall r, unfound F dir sts r -> ~ touches (point_of pos) r) ->
     exists a, In (rid, a) (y_replies y2) /\
       (a = RNull \/ a = RCodeActions [CaCommand "Reset variables" "reset_variables"; CaCommand "Warn about unused" "warn"]%string)).
Proof.
  intros Hask. destruct (fix_reply parse edit url b l y s He Hs y2 _ F' Hask) as (sb & es & Hst & Hin).
  destruct reading_any as (pre & m & F & post & s1 & x & es0 & Ey & Hm & Hmid & R12 & Hacts).
  exists F, s1. split; [exists pre, m, post; eexists; eauto|]. intros Hno.
  cbn [MLspTask.step] in Hst. destruct (code_action b uri pos (tk_data s)) as [[[|n]|]|] eqn:E; cbn [bind] in Hst; [| | |discriminate].
  - cbn [process_code_actions bind snd fst] in Hst. inversion Hst; subst. eexists. split; [apply Hin; now left|now right].
  - exfalso. eapply no_create_action; [exact Hacts| |exact E]. intros i Hia Hoi. apply in_map_iff in Hia. destruct Hia as (r & <- & Hr). apply filter_In in Hr. exact (Hno r Hr Hoi).
  - inversion Hst; subst. exists RNull. split; [apply Hin; now left|now left].
Qed.
End Fixes.
Lemma fixes_set_up l (y : sys T) uri t tr tp ps sts F c : exec url b (sys0 T) l = Some y -> at_rest y -> set_up T url b (y_taken y) F c -> usable F c ->
  file_ext uri = Some Template -> just_read uri (map fst (y_taken y)) t -> conveys parse t tr tp ps sts ->
  forall y2 rid pos F', asked_next url b y y2 (MCodeAction rid uri pos) F' ->
  exists F1 s1, last_reading url b y uri F1 s1 /\
    (forall r p, unfound F1 (cf_templates c) sts r -> touches (point_of pos) r -> f_canon F' (cf_templates c) = CanonOk p ->
     exists r' u, unfound F1 (cf_templates c) sts r' /\ touches (point_of pos) r' /\ url ("file:///" ++ lookup_path p (snd r'))%string = Some u /\
       In (rid, RCodeActions [CaCreateFile u]) (y_replies y2)) /\
    ((forall r, unfound F1 (cf_templates c) sts r -> ~ touches (point_of pos) r) ->
     forall ps1 ps2, ps = ps1 ++ ps2 -> between (point_of pos) ps1 ps2 ->
       (SpecObjects.inside ps1 (point_of pos) ->
        In (rid, RCodeActions [CaCommand "Reset variables" "reset_variables"; CaCommand "Warn about unused" "warn"]%string) (y_replies y2)) /\
       (outside ps1 (point_of pos) -> In (rid, RNull) (y_replies y2))).
Proof.
  intros He Hrest Hset Hus Hx J R. destruct (settings_hold parse edit url b Hpt l y F c He Hrest Hset Hus) as (s & Hs & _ & <-). eapply fixes_any; eauto.
Qed.
Lemma only_set_up l (y : sys T) uri t tr tp ps sts F c : exec url b (sys0 T) l = Some y -> at_rest y -> set_up T url b (y_taken y) F c -> usable F c ->
  file_ext uri = Some Template -> just_read uri (map fst (y_taken y)) t -> conveys parse t tr tp ps sts ->
  forall y2 rid pos F', asked_next url b y y2 (MCodeAction rid uri pos) F' ->
  exists F1 s1, last_reading url b y uri F1 s1 /\
    ((forall r, unfound F1 (cf_templates c) sts r -> ~ touches (point_of pos) r) ->
     exists a, In (rid, a) (y_replies y2) /\
       (a = RNull \/ a = RCodeActions [CaCommand "Reset variables" "reset_variables"; CaCommand "Warn about unused" "warn"]%string)).
Proof.
  intros He Hrest Hset Hus Hx J R. destruct (settings_hold parse edit url b Hpt l y F c He Hrest Hset Hus) as (s & Hs & _ & <-). eapply only_any; eauto.
Qed.
End AnyFixes.
