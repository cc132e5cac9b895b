(** * PCode4: from templates to the code that hands them names (C126). *)
From Verif Require Import Base RString Utf8 Rope Types Captures MTemplates MDefinition MObjects MSearchErrors MLspFiles MLspTask MChannels MQueries.
From Verif Require Import SpecText SpecFiles SpecScope SpecScope2 SpecBackend SpecObjects SpecObjects2 SpecLint SpecNav SpecConfig SpecChannels SpecServer SpecClient SpecQueries SpecQueries2 SpecQueries4 SpecQueries5 SpecQueries6 SpecScreen SpecCode.
From Verif Require Import PUtf8 PText PText2 PFiles POrder PLint PLint2 PLint3 PNode PObjects PNav PNav2 PNav3 PNav5 PConfig PBackend PQueries PQueries2 PQueries4 PQueries7 PQueries9 PQueries10 PChannels PChannels2 PServer PClient PClient2 PQueries11 PScreen PCode PCode2 PCode3.

Section Code.
Variables (parse : plang -> string -> option stree -> option stree) (edit : stree -> input_edit -> stree).
Notation T := (ts_with parse edit).
Variables (url : url_parser) (b : build).
Hypothesis Hpt : parse_total T.

Lemma Forall2_In_l {A B} (P : A -> B -> Prop) l l' : Forall2 P l l' -> forall x, In x l -> exists y, In y l' /\ P x y.
Proof. induction 1 as [|x y l l' Hxy _ IH]; intros w Hw; [destruct Hw|]. destruct Hw as [<-|Hw]; [exists y; split; [now left|exact Hxy]|]. destruct (IH w Hw) as (v & Hv & Hp). exists v. split; [now right|exact Hp]. Qed.
(** The server knows the names the code supplies. *)
Lemma supplied a s x u c0 c n name : replay url b (task0 T) a = Ok (s, x) -> file_ext u = Some Backend -> last_read u (map fst a) c0 c ->
  supplies parse (SpecConfig.lang_of (ls_config (tk_data s))) c0 n name ->
  exists vs, sget u (ls_vars (tk_data s)) = Some vs /\ In (at_node BackendVariable n name) vs.
Proof.
  intros Hr Hx Hl (tr & R & Hh). destruct (names_known parse edit url b Hpt a s x u c0 c tr Hr Hx Hl R) as (vs & Hv & Hin).
  exists vs. split; [exact Hv|]. apply Hin. left. eauto.
Qed.
Lemma supplied_all (d : lsp_files T) u vs v : sget u (ls_vars d) = Some vs -> In v vs -> In (u, v) (all_vars (ls_vars d)).
Proof. intros H Hv. unfold all_vars. apply in_flat_map. exists (u, vs). split; [now apply sget_In|]. now apply (in_map (pair u)). Qed.
Lemma supplied_other uri (d : lsp_files T) u vs v : u <> uri -> sget u (ls_vars d) = Some vs -> In v vs -> In (u, v) (other_vars uri (ls_vars d)).
Proof.
  intros Hu H Hv. unfold other_vars. apply in_flat_map. exists (u, vs). split; [|now apply (in_map (pair u))]. apply filter_In. split; [now apply sget_In|].
  cbn [fst]. apply negb_true_iff. now apply String.eqb_neq.
Qed.
Lemma heads_self x : has_dot x = false -> heads x x = true.
Proof. intros H. unfold heads. now rewrite H, String.eqb_refl. Qed.
Section Asked.
Variables (l : list action) (y : sys T) (sy : task_state T) (a : list (msg * fs)) (F : fs) (z : list (msg * fs)) (rid : N).
Hypothesis He : exec url b (sys0 T) l = Some y.
Hypothesis Hidle : y_task y = TIdle sy.
Variables (uri : string) (t0 : text) (tr0 : stree) (tp0 : tpl) (ps0 : list piece) (sts0 : list istmt).
Variables (t : text) (tr : stree) (tp : tpl) (ps : list piece) (sts : list istmt).
Hypothesis Hx : file_ext uri = Some Template.
Hypothesis Hlast : last_read uri (map fst a) t0 t.
Hypothesis R0 : conveys parse t0 tr0 tp0 ps0 sts0.
Hypothesis R : conveys parse t tr tp ps sts.
Variables (u : string) (c0 c : text).
Hypothesis Hux : file_ext u = Some Backend.
Hypothesis Hu : last_read u (map fst a) c0 c.
Notation ds0 := (defines tr0 tp0).
Lemma code_hover h fs pos : y_taken y = a ++ (MHover rid uri pos, F) :: z ->
  In (h, fs) (chains ps) -> cursor_on tr (point_of pos) (fst h) -> has_dot (snd h) = false ->
  (forall d, In d ds0 -> ~ hover_sees (n_start (fst h)) (snd h) d) ->
  exists s x, replay url b (task0 T) a = Ok (s, x) /\
    forall n, supplies parse (SpecConfig.lang_of (ls_config (tk_data s))) c0 n (snd h) -> In (rid, RHover (DocKind "Backend variable")) (y_replies y).
Proof.
  intros Ht Hc Hon Hdot Hno.
  destruct (asked_hover parse edit url b Hpt l y sy a F z rid He Hidle uri t0 tr0 tp0 ps0 sts0 t tr tp ps sts Hx Hlast R0 R h [] fs pos Ht Hc Hon) as (s & x & r & Hr & Htl & Hin).
  exists s, x. split; [exact Hr|]. intros n Hs. destruct (supplied a s x u c0 c n (snd h) Hr Hux Hu Hs) as (vs & Hv & Hvin).
  assert (Hne : u <> uri) by congruence. pose proof (supplied_other uri _ u vs _ Hne Hv Hvin) as Hov.
  destruct Htl as [(d & (Hd & Hsee & _) & _)|[(_ & _ & ->)|(_ & Hf & _)]]; [exfalso; eapply Hno; eauto|exact Hin|].
  specialize (Hf _ Hov). cbn [snd at_node id_name] in Hf. rewrite heads_self in Hf by exact Hdot. discriminate.
Qed.
Lemma code_goto_from h fs pos : y_taken y = a ++ (MGoto rid uri pos, F) :: z ->
  In (h, fs) (chains ps) -> cursor_on tr (point_of pos) (fst h) -> no_string_at tr (point_of pos) -> has_dot (snd h) = false ->
  (forall d, In d ds0 -> ~ goto_sees (point_of pos) (snd h) d) ->
  exists s x, replay url b (task0 T) a = Ok (s, x) /\
    let others := other_vars uri (ls_vars (tk_data s)) in
    forall n v, supplies parse (SpecConfig.lang_of (ls_config (tk_data s))) c0 n (snd h) -> n_end n <> pt0 -> url u = Some v ->
      Forall (fun fv => small_id (snd fv)) others ->
      Forall (fun fv => url (target_name fv) <> None) (filter (fun fv => heads (snd h) (id_name (snd fv))) others) ->
      exists locs, In (rid, RGoto (GArray locs)) (y_replies y) /\ In (mkloc v (lsp_range (n_start n) (n_end n))) locs.
Proof.
  intros Ht Hc Hon Hns Hdot Hno.
  destruct (asked_goto_else parse edit url b Hpt l y sy a F z rid He Hidle uri t0 tr0 tp0 ps0 sts0 t tr tp ps sts Hx Hlast R0 R h fs pos Ht Hc Hon Hns Hno) as (s & x & Hr & Hg).
  exists s, x. split; [exact Hr|]. intros others n v Hs Hne Hv Hsm Hurl. destruct (Hg Hsm Hurl) as (locs & HF & Hin). exists locs. split; [exact Hin|].
  destruct (supplied a s x u c0 c n (snd h) Hr Hux Hu Hs) as (vs & Hvs & Hvin).
  assert (Hnu : u <> uri) by congruence. pose proof (supplied_other uri _ u vs _ Hnu Hvs Hvin) as Hov.
  assert (Hh : In (u, at_node BackendVariable n (snd h)) (filter (fun fv => heads (snd h) (id_name (snd fv))) (other_vars uri (ls_vars (tk_data s))))).
  { apply filter_In. split; [exact Hov|]. cbn [snd at_node id_name]. now apply heads_self. }
  destruct (Forall2_In_l _ _ _ HF _ Hh) as (lc & Hlc & Hfd). destruct Hfd as (Hu1 & Hr1).
  assert (Et : target_name (u, at_node BackendVariable n (snd h)) = u).
  { unfold target_name. cbn [snd fst at_node id_start id_end]. destruct (pt_eqb (n_end n) pt0) eqn:Ee; [apply pt_eqb_eq in Ee; contradiction|]. now rewrite andb_false_r. }
  rewrite Et, Hv in Hu1. cbn [snd at_node id_start id_end] in Hr1. destruct lc as [lu lr]. cbn in Hu1, Hr1. injection Hu1 as <-. subst lr. exact Hlc.
Qed.
Lemma code_complete pos ctx ps1 ps2 : y_taken y = a ++ (MCompletion rid uri pos ctx, F) :: z -> ps = ps1 ++ ps2 ->
  ctx = Some TkInvoked \/ ctx = Some TkTriggerCharacter -> between (point_of pos) ps1 ps2 -> SpecObjects.inside ps1 (point_of pos) ->
  exists s x items, replay url b (task0 T) a = Ok (s, x) /\ In (rid, RCompletion (map RItem items)) (y_replies y) /\
    forall n name, supplies parse (SpecConfig.lang_of (ls_config (tk_data s))) c0 n name ->
      exists i, In i items /\ ci_label i = name /\ ci_detail i = Some "Backend variable"%string.
Proof.
  intros Ht Ep Hctx Hb Hi.
  destruct (asked_complete parse edit url b Hpt l y sy a F z rid He Hidle uri t0 tr0 tp0 ps0 sts0 t tr tp ps sts Hx Hlast R0 R pos ctx ps1 ps2 Ht Ep Hctx Hb Hi) as (s & x & items & Hr & Ho & Hin).
  exists s, x, items. split; [exact Hr|]. split; [exact Hin|]. intros n name Hs. destruct (supplied a s x u c0 c n name Hr Hux Hu Hs) as (vs & Hvs & Hvin).
  pose proof (supplied_all _ u vs _ Hvs Hvin) as Hall. destruct Ho as (local & back & -> & _ & _ & _ & _ & _ & _ & HF).
  assert (Hf : In (u, at_node BackendVariable n name) (filter is_backend (all_vars (ls_vars (tk_data s))))) by (apply filter_In; split; [exact Hall|reflexivity]).
  destruct (Forall2_In_l _ _ _ HF _ Hf) as (i & Hib & (P1 & P2 & _) & _). exists i. split; [apply in_or_app; now right|]. split; [exact P1|exact P2].
Qed.
End Asked.

(** The reading that counts is the last one. *)
Lemma split_unique (A : Type) uri (pre pre' post post' : list (msg * A)) m m' F F' : pre ++ (m, F) :: post = pre' ++ (m', F') :: post' ->
  refreshes uri m -> refreshes uri m' -> Forall (elsewhere uri) (map fst post) -> Forall (elsewhere uri) (map fst post') -> pre = pre' /\ m = m' /\ F = F' /\ post = post'.
Proof.
  assert (Hno : forall m0, refreshes uri m0 -> elsewhere uri m0 -> False) by (intros m0; destruct m0; cbn; tauto).
  revert pre'. induction pre as [|p pre IH]; intros [|p' pre'] E Hm Hm' Hp Hp'.
  - cbn in E. injection E as -> -> ->. repeat split.
  - exfalso. cbn in E. inversion E; subst. rewrite map_app in Hp. apply Forall_app in Hp. destruct Hp as (_ & Hp). inversion Hp; subst. apply (Hno m'); assumption.
  - exfalso. cbn in E. inversion E; subst. rewrite map_app in Hp'. apply Forall_app in Hp'. destruct Hp' as (_ & Hp'). inversion Hp'; subst. apply (Hno m); assumption.
  - cbn in E. inversion E; subst. destruct (IH pre' H1 Hm Hm' Hp Hp') as (-> & -> & -> & ->). auto.
Qed.
Lemma code_hint l (y : sys T) s uri v t tr tp ps sts u c0 c n h fs pre m F post : exec url b (sys0 T) l = Some y -> at_rest y -> state_of y s ->
  file_ext uri = Some Template -> just_read uri (map fst (y_taken y)) t -> conveys parse t tr tp ps sts -> ls_ignore (tk_data s) = false ->
  url uri = Some v -> (forall w, url w = Some v -> w = uri) ->
  y_taken y = pre ++ (m, F) :: post -> refreshes uri m -> Forall (elsewhere uri) (map fst post) ->
  file_ext u = Some Backend -> last_read u (map fst pre) c0 c -> supplies parse (SpecConfig.lang_of (ls_config (tk_data s))) c0 n (snd h) ->
  In (h, fs) (chains ps) -> (forall d, In d (defines tr tp) -> ~ means (snd h) d) ->
  exists e, last_published v (y_published y) = Some (publish_of e) /\ forall k, In (k, use_id (h, fs)) e <-> k = DefinedSomewhere.
Proof.
  intros He Hrest Hs Hx J R Hi Hv Hinj Ey Hm Hpost Hux Hu Hsup Hc Hno.
  destruct (screen parse edit url b Hpt l y s uri v t tr tp ps sts He Hrest Hs Hx J R Hi Hv Hinj) as (F1 & s1 & e1 & (pre1 & m1 & post1 & x1 & Ey1 & Hm1 & Hpost1 & Hr1) & Hpub & Hrep).
  rewrite Ey in Ey1. destruct (split_unique _ uri _ _ _ _ _ _ _ _ Ey1 Hm Hm1 Hpost Hpost1) as (<- & <- & <- & <-).
  exists (e1 ++ missing_reports F (cf_templates (ls_config (tk_data s))) sts). split; [exact Hpub|].
  destruct (replay_snoc_inv _ _ _ _ _ _ _ _ Hr1) as (s0 & tr0 & es & R1 & Es & _).
  destruct (reach_replay url b l y s He Hs) as (tr1 & Hr). rewrite Ey in Hr. replace (pre ++ (m, F) :: post) with ((pre ++ [(m, F)]) ++ post) in Hr by (rewrite <- app_assoc; reflexivity).
  destruct (replay_split url b _ _ _ _ _ Hr) as (s1' & xx & trB & R12 & R2 & _). rewrite Hr1 in R12. inversion R12; subst s1' xx.
  destruct (replay_elsewhere url b uri post s1 s trB Hpost R2) as (_ & _ & Hcf & _).
  assert (Hcf0 : ls_config (tk_data s1) = ls_config (tk_data s0)) by (apply step_langs in Es; [unfold langs in Es; congruence|intros ->; exact Hm]).
  rewrite Hcf, Hcf0 in Hsup. destruct (supplied pre s0 tr0 u c0 c n (snd h) R1 Hux Hu Hsup) as (vs & Hvs & Hvin).
  assert (Hvs1 : sget u (ls_vars (tk_data s1)) = Some vs).
  { rewrite <- Hvs. eapply step_vars; [|exact Es]. destruct m; cbn in Hm |- *; try contradiction; congruence. }
  assert (Hany : SpecLint.indexed (ls_vars (tk_data s1)) (snd h)).
  { exists u, vs, (at_node BackendVariable n (snd h)). split; [now apply sget_In|]. split; [exact Hvin|reflexivity]. }
  pose proof (verdict_reported _ _ _ _ (h, fs) DefinedSomewhere Hrep Hc (VElsewhere _ _ _ _ _ Hno Hany)) as Hk.
  intros k. rewrite in_app_iff, Hk. split; [intros [H|H]; [exact H|exfalso; eapply missing_not_use; exact H]|now left].
Qed.
End Code.
