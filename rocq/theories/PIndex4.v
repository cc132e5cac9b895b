(** * PIndex4: a workspace whose files are opened, edited and saved (C133). *)
From Verif Require Import Base RString Utf8 Rope Types Captures MTemplates MDefinition MObjects MLspFiles MSearchErrors MLspTask MChannels MQueries.
From Verif Require Import SpecText SpecFiles SpecBackend SpecScope SpecScope2 SpecObjects SpecLint SpecNav SpecConfig SpecChannels SpecServer SpecClient SpecQueries SpecQueries2 SpecQueries4 SpecQueries5 SpecQueries6 SpecScreen SpecCode SpecSettings SpecIndex SpecIndex2.
From Verif Require Import PUtf8 PText PText2 PFiles POrder PObjects PLint PLint2 PLint3 PScope3 PConfig PBackend PQueries PQueries2 PQueries3 PQueries4 PQueries6 PChannels PChannels2 PChannels3 PChannels4 PChannels5 PServer PClient PClient2 PQueries11 PScreen PCode PCode2 PCode3 PCode4 PHistory PIndex PIndex2 PIndex3.

Lemma replay_modes_any {T : ts} url b : forall l (s s' : task_state T) tr, ~ In MInitialized (map fst l) -> replay url b s l = Ok (s', tr) -> modes (tk_data s') = modes (tk_data s).
Proof.
  induction l as [|(m, F) l IH]; intros s s' tr Hq H; cbn [replay map] in *; [inversion H; subst; reflexivity|].
  destruct (MLspTask.step F url b s m) as [(s1 & es)|] eqn:E; [|discriminate].
  destruct (replay url b s1 l) as [(s2 & tr')|] eqn:E2; [|discriminate]. inversion H; subst.
  rewrite (IH _ _ _ (fun h => Hq (or_intror h)) E2). eapply step_modes; [|exact E]. intros ->. apply Hq. now left.
Qed.
Lemma elsewhere_no_index uri l : Forall (elsewhere uri) l -> ~ In MInitialized l.
Proof. intros H Hi. rewrite Forall_forall in H. exact (H _ Hi). Qed.

Section Index.
Variables (parse : plang -> string -> option stree -> option stree) (edit : stree -> input_edit -> stree).
Notation T := (ts_with parse edit).
Variables (url : url_parser) (b : build).
Hypothesis Hpt : parse_total T.

(** What is known of a template is what it defined when it was last read. *)
Lemma template_known a s x u t t' tr tp ps sts : replay url b (task0 T) a = Ok (s, x) -> file_ext u = Some Template -> last_read u (map fst a) t t' ->
  conveys parse t tr tp ps sts -> knows (tk_data s) u (defines tr tp).
Proof.
  intros Hr Hx (pre0 & m & mid & El & Hm & Ht & Hmid & _) R.
  apply map_eq_app in El. destruct El as (l1 & l2 & -> & E1 & E2). destruct l2 as [|(m', F) l2]; [discriminate|]. cbn in E2. injection E2 as -> E2. subst pre0 mid.
  replace (l1 ++ (m, F) :: l2) with ((l1 ++ [(m, F)]) ++ l2) in Hr by (rewrite <- app_assoc; reflexivity).
  destruct (replay_split url b _ _ _ _ _ Hr) as (s1 & x1 & x2 & H1 & H2 & _).
  assert (L : last_read u (map fst (l1 ++ [(m, F)])) t t).
  { rewrite map_app. cbn [map fst]. exists (map fst l1), m, []. repeat split; auto. }
  unfold knows. rewrite (replay_vars url b u _ _ _ _ Hmid H2).
  exact (proj1 (proj2 (session_held parse edit url b Hpt u t tr tp ps sts t tr tp ps sts _ _ _ _ Hx H1 L R R))).
Qed.
Lemma worked_state a s x F c since : replay url b (task0 T) a = Ok (s, x) -> worked_on T url b a F c since -> usable F c ->
  modes (tk_data s) = (true, match cf_hide c with Some h => h | None => false end, c) /\
  exists s1 : task_state T, SpecConfig.indexed F (SpecConfig.lang_of c) (entry F c) (tk_data s1) /\
    forall u, Forall (unrefreshed u) since -> sget u (ls_vars (tk_data s)) = sget u (ls_vars (tk_data s1)).
Proof.
  intros Hr (pre & post & s0 & x0 & -> & -> & Hno & R0 & Hc & _) (Hl & Hw).
  destruct (replay_split url b _ _ _ _ _ Hr) as (s0' & x' & trB & R1 & R2 & _). rewrite R0 in R1. injection R1 as <- <-. cbn [replay] in R2.
  destruct (MLspTask.step F url b s0 MInitialized) as [(s1 & es)|] eqn:Es; [|discriminate]. destruct (replay url b s1 post) as [(s3 & trC)|] eqn:E3; [|discriminate]. injection R2 as <- <-.
  cbn [MLspTask.step] in Es. rewrite (replay_modes_any url b post s1 s3 trC Hno E3). unfold modes.
  destruct (do_initialized_cases F b s0 s1 es Hpt Es) as [(_ & _ & _ & _ & I & _ & _ & Hcf & Hch & _ & _ & Hig & _)|([Hn|Hn] & _)]; rewrite Hc in *; [|now elim Hn|now elim Hn].
  split; [now rewrite Hcf, Hch, Hig|]. exists s1. split; [exact I|]. intros u Hu. eapply replay_vars; eassumption.
Qed.
(** The variables of a file are those written in the text that stands. *)
Lemma vars_stand a s x F c since : replay url b (task0 T) a = Ok (s, x) -> worked_on T url b a F c since -> usable F c -> sound_workspace parse F c ->
  (forall u t l, stands F c (map fst a) since u t l -> sound_text parse (SpecConfig.lang_of c) t l) ->
  forall u nm p q, (exists vs v, sget u (ls_vars (tk_data s)) = Some vs /\ In v vs /\ id_name v = nm /\ id_start v = p /\ id_end v = q) <->
    exists t l, stands F c (map fst a) since u t l /\ writes_at parse (SpecConfig.lang_of c) t l nm p q.
Proof.
  intros Hr Hwo Hus Hw Hso u nm p q. destruct (worked_state a s x F c since Hr Hwo Hus) as (Hm & s1 & I & Hsame). unfold modes in Hm. injection Hm as _ _ Hcf.
  assert (Hread : forall t t' l, file_ext u = Some l -> last_read u (map fst a) t t' -> sound_text parse (SpecConfig.lang_of c) t l ->
    exists vs, sget u (ls_vars (tk_data s)) = Some vs /\ ((exists v, In v vs /\ id_name v = nm /\ id_start v = p /\ id_end v = q) -> writes_at parse (SpecConfig.lang_of c) t l nm p q)).
  { intros t t' l Hx L S. destruct l; cbn in S.
    - destruct S as (tr & tp & ps & sts & R). pose proof (template_known a s x u t t' tr tp ps sts Hr Hx L R) as Hk. unfold knows in Hk.
      destruct (sget u (ls_vars (tk_data s))) as [vs|]; [|discriminate]. injection Hk as Hk. exists vs. split; [reflexivity|]. intros (v & Hv & <- & <- & <-).
      exists tr, tp, ps, sts, (decl_of_id v). split; [exact R|]. split; [rewrite <- Hk; now apply in_map|auto].
    - destruct S as (tr & R). rewrite <- Hcf in R. destruct (names_known parse edit url b Hpt a s x u t t' tr Hr Hx L R) as (vs & Hv & Hin). rewrite Hcf in R, Hin.
      exists vs. split; [exact Hv|]. intros (v & Hvv & <- & <- & <-). apply Hin in Hvv. destruct Hvv as [(n & nm' & Hh & ->)|(n & (ar & Hl) & ->)]; exists tr, n; (split; [exact R|]); (split; [reflexivity|]); (split; [reflexivity|]); [left; exact Hh|right; eauto]. }
  split.
  - intros (vs & v & Hu & Hv & En & Ep & Eq). destruct Hwo as (pre & post & s0 & x0 & E & -> & _ & _ & _ & Hall).
    destruct (Hall u) as [Hun|(Hx & t & t' & L)].
    + rewrite (Hsame u Hun) in Hu. assert (Hwa : written_at parse F c u nm p q) by (apply (vars_written parse edit F c (tk_data s1) u nm p q I Hw); exists vs, v; auto).
      destruct Hwa as [t tr tp ps sts d Hd R Hdc E1 E2 E3|t tr n Hd R Hh E2 E3|t tr ar n Hd R Hlo E1 E2 E3].
      * exists t, Template. split; [left; now split|]. exists tr, tp, ps, sts, d. auto.
      * exists t, Backend. split; [left; now split|]. exists tr, n. auto.
      * exists t, Backend. split; [left; now split|]. exists tr, n. split; [exact R|]. split; [exact E2|]. split; [exact E3|]. right. eauto.
    + destruct (file_ext u) as [l|] eqn:Hxl; [|now elim Hx]. assert (St : stands F c (map fst a) (map fst post) u t l) by (right; split; [exact Hxl|eauto]).
      destruct (Hread t t' l eq_refl L (Hso u t l St)) as (vs' & Hg & Hww). rewrite Hu in Hg. injection Hg as <-. exists t, l. split; [exact St|]. apply Hww. eauto.
  - intros (t & l & [(Hun & Hd)|(Hx & t' & L)] & Hwr).
    + assert (Hwa : written_at parse F c u nm p q).
      { destruct l; cbn in Hwr.
        - destruct Hwr as (tr & tp & ps & sts & d & R & Hdc & E1 & E2 & E3). eapply WaTemplate; eauto.
        - destruct Hwr as (tr & n & R & E2 & E3 & [Hh|(ar & Hl & En)]); [eapply WaHanded|eapply WaLoaded]; eauto. }
      apply (vars_written parse edit F c (tk_data s1) u nm p q I Hw) in Hwa. now rewrite (Hsame u Hun).
    + destruct l; cbn in Hwr.
      * destruct Hwr as (tr & tp & ps & sts & d & R & Hdc & <- & <- & <-). pose proof (template_known a s x u t t' tr tp ps sts Hr Hx L R) as Hk. unfold knows in Hk.
        destruct (sget u (ls_vars (tk_data s))) as [vs|] eqn:Eg; [|discriminate]. injection Hk as Hk. rewrite <- Hk in Hdc. apply in_map_iff in Hdc. destruct Hdc as (v & <- & Hv).
        exists vs, v. auto.
      * destruct Hwr as (tr & n & R & <- & <- & Hwr). rewrite <- Hcf in R. destruct (names_known parse edit url b Hpt a s x u t t' tr Hr Hx L R) as (vs & Hg & Hin). rewrite Hcf in Hin.
        destruct Hwr as [Hh|(ar & Hl & En)].
        -- exists vs, (at_node BackendVariable n nm). split; [exact Hg|]. split; [apply Hin; left; eauto|auto].
        -- exists vs, (at_node JinjaTemplate n (snd (loaded_ref (encode t) n))). split; [exact Hg|]. split; [|auto]. apply Hin. right. exists n. split; [eauto|reflexivity].
Qed.
(** The names known are those written in the texts that stand. *)
Lemma names_stand a s x F c since : replay url b (task0 T) a = Ok (s, x) -> worked_on T url b a F c since -> usable F c -> sound_workspace parse F c ->
  (forall u t l, stands F c (map fst a) since u t l -> sound_text parse (SpecConfig.lang_of c) t l) ->
  forall name, SpecLint.indexed (ls_vars (tk_data s)) name <-> exists u t l, stands F c (map fst a) since u t l /\ writes parse (SpecConfig.lang_of c) t l name.
Proof.
  intros Hr Hwo Hus Hw Hso name. assert (K : keyed (tk_data s)) by (eapply keyed_reach; exact Hr). pose proof (vars_stand a s x F c since Hr Hwo Hus Hw Hso) as V. split.
  - intros (u & vs & v & Hu & Hv & Hn). apply (In_sget _ _ _ (proj1 K)) in Hu.
    destruct (proj1 (V u name (id_start v) (id_end v))) as (t & l & Hs & Hwr); [eauto 8|]. exists u, t, l. split; [exact Hs|]. eexists _, _. exact Hwr.
  - intros (u & t & l & Hs & p & q & Hwr). destruct (proj2 (V u name p q)) as (vs & v & Hg & Hv & Hn & _); [eauto|]. exists u, vs, v. split; [now apply sget_In|auto].
Qed.
Lemma others_stand a s x uri F c since : replay url b (task0 T) a = Ok (s, x) -> worked_on T url b a F c since -> usable F c -> sound_workspace parse F c ->
  (forall u t l, stands F c (map fst a) since u t l -> sound_text parse (SpecConfig.lang_of c) t l) ->
  forall u nm p q, (exists v, In (u, v) (other_vars uri (ls_vars (tk_data s))) /\ id_name v = nm /\ id_start v = p /\ id_end v = q) <->
    u <> uri /\ exists t l, stands F c (map fst a) since u t l /\ writes_at parse (SpecConfig.lang_of c) t l nm p q.
Proof.
  intros Hr Hwo Hus Hw Hso u nm p q. assert (K : keyed (tk_data s)) by (eapply keyed_reach; exact Hr).
  rewrite <- (vars_stand a s x F c since Hr Hwo Hus Hw Hso u nm p q). unfold other_vars. split.
  - intros (v & Hv & E). apply in_flat_map in Hv. destruct Hv as ((k & vs) & Hk & Hv). apply filter_In in Hk. destruct Hk as (Hk & Hne). cbn [fst snd] in *.
    apply in_map_iff in Hv. destruct Hv as (v' & Ev & Hv). injection Ev as -> ->. apply negb_true_iff, String.eqb_neq in Hne. split; [exact Hne|].
    exists vs, v. split; [|now split]. apply (In_sget _ _ _ (proj1 K)). exact Hk.
  - intros (Hne & vs & v & Hg & Hv & E). exists v. split; [|exact E]. apply in_flat_map. exists (u, vs). split.
    + apply filter_In. split; [now apply sget_In|]. cbn [fst]. now apply negb_true_iff, String.eqb_neq.
    + now apply (in_map (pair u)).
Qed.
Lemma stands_screen l (y : sys T) uri v t tr tp ps sts pre m F1 post F c since : exec url b (sys0 T) l = Some y -> at_rest y ->
  y_taken y = pre ++ (m, F1) :: post -> refreshes uri m -> Forall (elsewhere uri) (map fst post) -> editor_text uri (map fst (pre ++ [(m, F1)])) t ->
  worked_on T url b (pre ++ [(m, F1)]) F c since -> usable F c -> sound_workspace parse F c ->
  (forall u t l, stands F c (map fst (pre ++ [(m, F1)])) since u t l -> sound_text parse (SpecConfig.lang_of c) t l) ->
  cf_hide c <> Some true -> file_ext uri = Some Template -> conveys parse t tr tp ps sts -> url uri = Some v -> (forall u, url u = Some v -> u = uri) ->
  exists e1, last_published v (y_published y) = Some (publish_of (e1 ++ missing_reports F1 (cf_templates c) sts)) /\
    reported (defines tr tp)
      (fun name => exists u t l, stands F c (map fst (pre ++ [(m, F1)])) since u t l /\ writes parse (SpecConfig.lang_of c) t l name) (chains ps) e1.
Proof.
  intros He Hrest Ey Hm Hpost Ht Hwo Hus Hw Hso Hh Hx R Hv Hinj. pose proof Hrest as ((s & Es) & _). assert (Hs : state_of y s) by (left; exact Es).
  destruct (reach_replay url b l y s He Hs) as (tr1 & Hr).
  assert (J : just_read uri (map fst (y_taken y)) t).
  { rewrite Ey, map_app. cbn [map fst]. exists (map fst pre), m, (map fst post). split; [reflexivity|]. split; [exact Hm|]. split; [|exact Hpost]. rewrite map_app in Ht. exact Ht. }
  assert (Hr2 := Hr). rewrite Ey in Hr2. replace (pre ++ (m, F1) :: post) with ((pre ++ [(m, F1)]) ++ post) in Hr2 by (rewrite <- app_assoc; reflexivity).
  destruct (replay_split url b _ _ _ _ _ Hr2) as (s1 & x1 & x2 & H1 & H2 & _).
  destruct (worked_state _ s1 x1 F c since H1 Hwo Hus) as (Hm1 & _). pose proof (replay_modes_any url b _ _ _ _ (elsewhere_no_index _ _ Hpost) H2) as Hms.
  rewrite Hm1 in Hms. unfold modes in Hms. injection Hms as Hch Hig Hcf.
  assert (Hi : ls_ignore (tk_data s) = false) by (rewrite Hig; destruct (cf_hide c) as [[|]|]; congruence).
  destruct (screen parse edit url b Hpt l y s uri v t tr tp ps sts He Hrest Hs Hx J R Hi Hv Hinj) as (F2 & s2 & e1 & (pre' & m' & post' & x' & Ey' & Hm' & Hpost' & R1) & Hpub & Hrep).
  rewrite Ey in Ey'. destruct (split_unique _ uri _ _ _ _ _ _ _ _ Ey' Hm Hm' Hpost Hpost') as (<- & <- & <- & <-). rewrite H1 in R1. injection R1 as <- <-.
  exists e1. split; [now rewrite <- Hcf|]. eapply reported_ext; [|exact Hrep]. exact (names_stand _ _ _ _ _ _ H1 Hwo Hus Hw Hso).
Qed.
Section Asked.
Variables (l : list action) (y : sys T) (sy : task_state T) (a : list (msg * fs)) (F0 : fs) (z : list (msg * fs)) (rid : N).
Hypothesis He : exec url b (sys0 T) l = Some y.
Hypothesis Hidle : y_task y = TIdle sy.
Variables (uri : string) (t0 : text) (tr0 : stree) (tp0 : tpl) (ps0 : list piece) (sts0 : list istmt).
Variables (t : text) (tr : stree) (tp : tpl) (ps : list piece) (sts : list istmt).
Hypothesis Hx : file_ext uri = Some Template.
Hypothesis Hlast : last_read uri (map fst a) t0 t.
Hypothesis R0 : conveys parse t0 tr0 tp0 ps0 sts0.
Hypothesis R : conveys parse t tr tp ps sts.
Variables (F : fs) (c : config).
Variable since : list msg.
Hypothesis Hwo : worked_on T url b a F c since.
Hypothesis Hus : usable F c.
Hypothesis Hw : sound_workspace parse F c.
Hypothesis Hso : forall u t l, stands F c (map fst a) since u t l -> sound_text parse (SpecConfig.lang_of c) t l.
Notation elsewhere_at := (fun u nm p q => exists t l, stands F c (map fst a) since u t l /\ writes_at parse (SpecConfig.lang_of c) t l nm p q).
Notation ds0 := (defines tr0 tp0).

Lemma stand_hover h fs pos : y_taken y = a ++ (MHover rid uri pos, F0) :: z ->
  In (h, fs) (chains ps) -> cursor_on tr (point_of pos) (fst h) -> (forall d, In d ds0 -> ~ hover_sees (n_start (fst h)) (snd h) d) ->
  exists r, In (rid, r) (y_replies y) /\
    ((r = RHover (DocKind "Backend variable") /\ exists u nm p q, u <> uri /\ elsewhere_at u nm p q /\ heads (snd h) nm = true) \/
     (r = RNull /\ forall u nm p q, u <> uri -> elsewhere_at u nm p q -> heads (snd h) nm = false)).
Proof.
  intros Ht Hc Hon Hno.
  destruct (asked_hover parse edit url b Hpt l y sy a F0 z rid He Hidle uri t0 tr0 tp0 ps0 sts0 t tr tp ps sts Hx Hlast R0 R h [] fs pos Ht Hc Hon) as (s & x & r & Hr & Htl & Hrin).
  exists (match r with Some d => RHover d | None => RNull end). split; [exact Hrin|]. pose proof (others_stand a s x uri F c since Hr Hwo Hus Hw Hso) as HW.
  destruct Htl as [(d & (Hd & Hsee & _) & _)|[(_ & ((u & v) & Hv & Hh) & ->)|(_ & Hf & ->)]]; [exfalso; eapply Hno; eauto|left|right]; (split; [reflexivity|]).
  - cbn [snd] in Hh. destruct (proj1 (HW u (id_name v) (id_start v) (id_end v))) as (Hne & Hwa); [eauto|]. exists u, (id_name v), (id_start v), (id_end v). auto.
  - intros u nm p q Hne Hwa. destruct (proj2 (HW u nm p q) (conj Hne Hwa)) as (v & Hv & <- & _). exact (Hf _ Hv).
Qed.
Lemma stand_goto h fs pos : y_taken y = a ++ (MGoto rid uri pos, F0) :: z ->
  In (h, fs) (chains ps) -> cursor_on tr (point_of pos) (fst h) -> no_string_at tr (point_of pos) ->
  (forall d, In d ds0 -> ~ goto_sees (point_of pos) (snd h) d) ->
  (forall u nm p q, u <> uri -> elsewhere_at u nm p q -> small p /\ small q /\ q <> pt0 /\ url u <> None) ->
  exists locs, In (rid, RGoto (GArray locs)) (y_replies y) /\
    forall v r, In (mkloc v r) locs <->
      exists u nm p q, u <> uri /\ elsewhere_at u nm p q /\ heads (snd h) nm = true /\ url u = Some v /\ r = lsp_range p q.
Proof.
  intros Ht Hc Hon Hns Hno Hsm.
  destruct (asked_goto_else parse edit url b Hpt l y sy a F0 z rid He Hidle uri t0 tr0 tp0 ps0 sts0 t tr tp ps sts Hx Hlast R0 R h fs pos Ht Hc Hon Hns Hno) as (s & x & Hr & Hg).
  pose proof (others_stand a s x uri F c since Hr Hwo Hus Hw Hso) as HW.
  assert (HW1 : forall u v, In (u, v) (other_vars uri (ls_vars (tk_data s))) -> u <> uri /\ elsewhere_at u (id_name v) (id_start v) (id_end v)).
  { intros u v Hv. apply HW. eauto. }
  assert (Et : forall u v, In (u, v) (other_vars uri (ls_vars (tk_data s))) -> target_name (u, v) = u).
  { intros u v Hv. destruct (HW1 u v Hv) as (Hne & Hwa). destruct (Hsm _ _ _ _ Hne Hwa) as (_ & _ & Hq & _). unfold target_name. cbn [snd fst].
    destruct (pt_eqb (id_end v) pt0) eqn:Ee; [apply pt_eqb_eq in Ee; contradiction|]. now rewrite andb_false_r. }
  destruct Hg as (locs & HF & Hlin).
  - apply Forall_forall. intros (u & v) Hv. destruct (HW1 u v Hv) as (Hne & Hwa). destruct (Hsm _ _ _ _ Hne Hwa) as (H1 & H2 & _). split; assumption.
  - apply Forall_forall. intros (u & v) Hv. apply filter_In in Hv. destruct Hv as (Hv & _). rewrite (Et u v Hv). destruct (HW1 u v Hv) as (Hne & Hwa). now destruct (Hsm _ _ _ _ Hne Hwa) as (_ & _ & _ & H4).
  - exists locs. split; [exact Hlin|]. intros v r. split.
    + intros Hl. destruct (Forall2_In_r _ _ _ HF _ Hl) as ((u & i) & Hi & Hf1 & Hf2). apply filter_In in Hi. destruct Hi as (Hi & Hh). cbn [snd loc_uri loc_range] in *.
      destruct (HW1 u i Hi) as (Hne & Hwa). rewrite (Et u i Hi) in Hf1. exists u, (id_name i), (id_start i), (id_end i). repeat split; auto.
    + intros (u & nm & p & q & Hne & Hwa & Hh & Hv & ->). destruct (proj2 (HW u nm p q) (conj Hne Hwa)) as (i & Hi & <- & <- & <-).
      assert (Hfi : In (u, i) (filter (fun fv => heads (snd h) (id_name (snd fv))) (other_vars uri (ls_vars (tk_data s))))) by (apply filter_In; split; [exact Hi|exact Hh]).
      destruct (Forall2_In_l _ _ _ HF _ Hfi) as ((lu & lr) & Hlc & Hf1 & Hf2). cbn [snd loc_uri loc_range] in *. rewrite (Et u i Hi), Hv in Hf1. injection Hf1 as <-. now subst lr.
Qed.
Lemma stand_complete pos ctx ps1 ps2 : y_taken y = a ++ (MCompletion rid uri pos ctx, F0) :: z -> ps = ps1 ++ ps2 ->
  ctx = Some TkInvoked \/ ctx = Some TkTriggerCharacter -> between (point_of pos) ps1 ps2 -> SpecObjects.inside ps1 (point_of pos) ->
  exists items, In (rid, RCompletion (map RItem items)) (y_replies y) /\
    forall u t1 tr1 n nm, stands F c (map fst a) since u t1 Backend -> code_conveys parse (SpecConfig.lang_of c) t1 tr1 -> handing (SpecConfig.lang_of c) (encode t1) tr1 n nm ->
      exists i, In i items /\ ci_label i = nm /\ ci_detail i = Some "Backend variable"%string.
Proof.
  intros Ht Ep Hctx Hb Hi.
  destruct (asked_complete parse edit url b Hpt l y sy a F0 z rid He Hidle uri t0 tr0 tp0 ps0 sts0 t tr tp ps sts Hx Hlast R0 R pos ctx ps1 ps2 Ht Ep Hctx Hb Hi) as (s & x & items & Hr & Ho & Hin').
  exists items. split; [exact Hin'|]. intros u t1 tr1 n nm Hst Rc Hh.
  destruct (worked_state a s x F c since Hr Hwo Hus) as (Hm & s1 & I & Hsame). unfold modes in Hm. injection Hm as _ _ Hcf.
  assert (Hk : exists vs, sget u (ls_vars (tk_data s)) = Some vs /\ In (at_node BackendVariable n nm) vs).
  { destruct Hst as [(Hun & Hd)|(Hxu & t' & L)].
    - destruct (stored_code parse edit F c (tk_data s1) u t1 tr1 I Hw Hd Rc) as (vs & Hq & Hin). exists vs. rewrite (Hsame u Hun). split; [exact Hq|]. apply Hin. left. eauto.
    - rewrite <- Hcf in Rc, Hh. apply (supplied parse edit url b Hpt a s x u t1 t' n nm Hr Hxu L). exists tr1. now split. }
  destruct Hk as (vs & Hvs & Hvin).
  pose proof (supplied_all parse edit _ u vs _ Hvs Hvin) as Hall. destruct Ho as (local & back & -> & _ & _ & _ & _ & _ & _ & HF).
  assert (Hf : In (u, at_node BackendVariable n nm) (filter is_backend (all_vars (ls_vars (tk_data s))))) by (apply filter_In; split; [exact Hall|reflexivity]).
  destruct (Forall2_In_l _ _ _ HF _ Hf) as (i & Hib & (P1 & P2 & _) & _). exists i. split; [apply in_or_app; now right|]. split; [exact P1|exact P2].
Qed.
End Asked.
End Index.
