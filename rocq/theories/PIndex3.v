(** * PIndex3: a template that is edited after the workspace was indexed (C132). *)
From Verif Require Import Base RString Utf8 Rope Types Captures MTemplates MDefinition MObjects MLspFiles MSearchErrors MLspTask MChannels MQueries.
From Verif Require Import SpecText SpecFiles SpecBackend SpecScope SpecScope2 SpecObjects SpecLint SpecNav SpecConfig SpecChannels SpecServer SpecClient SpecQueries SpecQueries2 SpecQueries4 SpecQueries5 SpecQueries6 SpecScreen SpecCode SpecSettings SpecIndex.
From Verif Require Import PUtf8 PText PText2 PFiles POrder PObjects PLint PLint2 PLint3 PScope3 PConfig PBackend PQueries PQueries2 PQueries3 PQueries4 PQueries6 PChannels PChannels2 PChannels3 PChannels4 PChannels5 PServer PClient PClient2 PQueries11 PScreen PCode PCode2 PCode3 PCode4 PHistory PIndex PIndex2.

Section Any.
Context {T : ts} (url : url_parser) (b : build).
(** What only indexing changes. *)
Definition modes (d : lsp_files T) : bool * bool * config := (ls_chan d, ls_ignore d, ls_config d).
Lemma frame_modes uri (d d' : lsp_files T) : same_elsewhere uri d d' -> modes d' = modes d.
Proof. intros (_ & _ & _ & E1 & E2 & _ & E3). unfold modes. now rewrite E1, E2, E3. Qed.
Lemma step_modes F s s' m es : m <> MInitialized -> MLspTask.step F url b s m = Ok (s', es) -> modes (tk_data s') = modes (tk_data s).
Proof.
  intros Hm H. destruct m; cbn [MLspTask.step] in *.
  - inversion H; subst. cbn. destruct client as [n|]; [|reflexivity]. destruct (String.eqb n _); reflexivity.
  - now elim Hm.
  - destruct (did_open F b uri t false (tk_data s)) as [(d & r)|] eqn:E; cbn [bind] in H; inversion H; subst. cbn. eapply frame_modes, did_open_frame, E.
  - destruct (did_change (tk_next s) uri cs (tk_data s)) as [(d & r)|] eqn:E; cbn [bind snd fst] in H; [|discriminate].
    apply did_change_frame, frame_modes in E. destruct r; inversion H; subst; exact E.
  - destruct (did_save F b uri (tk_data s)) as [(d & r)|] eqn:E; cbn [bind] in H; inversion H; subst. cbn. eapply frame_modes, did_save_frame, E.
  - destruct (do_completion _ _ _ _ _); cbn [bind] in H; inversion H; subst; reflexivity.
  - destruct (do_hover _ _ _ _); cbn [bind] in H; inversion H; subst; reflexivity.
  - destruct (goto_definition _ _ _ _ _ _); cbn [bind] in H; inversion H; subst; reflexivity.
  - destruct (code_action _ _ _ _) as [[a|]|]; cbn [bind] in H; [|inversion H; subst; reflexivity|discriminate].
    destruct (process_code_actions _ _ _ _) as [p|]; cbn [bind] in H; [|discriminate]. destruct (snd p); inversion H; subst; reflexivity.
  - destruct (String.eqb cmd _); inversion H; subst; reflexivity.
  - inversion H; subst; reflexivity.
  - inversion H; subst; reflexivity.
  - inversion H; subst; reflexivity.
Qed.
Lemma replay_modes uri : forall l s s' tr, Forall (only uri) (map fst l) -> replay url b s l = Ok (s', tr) -> modes (tk_data s') = modes (tk_data s).
Proof.
  induction l as [|(m, F) l IH]; intros s s' tr Hq H; cbn [replay map] in *; [inversion H; subst; reflexivity|].
  inversion Hq as [|? ? Hm Hq']; subst. destruct (MLspTask.step F url b s m) as [(s1 & es)|] eqn:E; [|discriminate].
  destruct (replay url b s1 l) as [(s2 & tr')|] eqn:E2; [|discriminate]. inversion H; subst.
  rewrite (IH _ _ _ Hq' E2). eapply step_modes; [|exact E]. intros Q. cbn [fst] in Hm. rewrite Q in Hm. exact Hm.
Qed.
Lemma indexed_modes a s x uri F c : parse_total T -> replay url b (task0 T) a = Ok (s, x) -> indexed_but T url b a uri F c -> usable F c ->
  modes (tk_data s) = (true, match cf_hide c with Some h => h | None => false end, c).
Proof.
  intros Hpt Hr (pre & post & s0 & x0 & -> & Hpost & R0 & Hc) (Hl & Hw).
  destruct (replay_split url b _ _ _ _ _ Hr) as (s0' & x' & trB & R1 & R2 & _). rewrite R0 in R1. injection R1 as <- <-. cbn [replay] in R2.
  destruct (MLspTask.step F url b s0 MInitialized) as [(s1 & es)|] eqn:Es; [|discriminate]. destruct (replay url b s1 post) as [(s3 & trC)|] eqn:E3; [|discriminate]. injection R2 as <- <-.
  cbn [MLspTask.step] in Es. rewrite (replay_modes uri post s1 s3 trC Hpost E3). unfold modes.
  destruct (do_initialized_cases F b s0 s1 es Hpt Es) as [(_ & _ & _ & _ & _ & _ & _ & Hcf & Hch & _ & _ & Hig & _)|([Hn|Hn] & _)]; rewrite Hc in *; [|now elim Hn|now elim Hn].
  now rewrite Hcf, Hch, Hig.
Qed.
End Any.
(** The indexing came before the last reading. *)
Lemma indexed_earlier T url b pre m F1 post uri F c : indexed_but T url b (pre ++ (m, F1) :: post) uri F c -> refreshes uri m -> Forall (elsewhere uri) (map fst post) ->
  indexed_but T url b (pre ++ [(m, F1)]) uri F c.
Proof.
  intros (pre0 & post0 & s0 & x0 & E & Ho & R0 & Hc) Hm Hp.
  assert (H : exists mid, pre = pre0 ++ (MInitialized, F) :: mid /\ post0 = mid ++ (m, F1) :: post).
  { clear R0 Ho. revert pre E. induction pre0 as [|p0 pre0 IH]; intros [|p pre] E; cbn in E.
    - exfalso. injection E as -> _ _. destruct Hm.
    - injection E as -> E. exists pre. now split.
    - exfalso. injection E as <- ->. rewrite map_app in Hp. apply Forall_app in Hp. destruct Hp as (_ & Hp). inversion Hp as [|? ? Hn _]. exact Hn.
    - injection E as -> E. destruct (IH pre E) as (mid & -> & ->). exists mid. now split. }
  destruct H as (mid & -> & ->). exists pre0, (mid ++ [(m, F1)]), s0, x0. split; [now rewrite <- app_assoc|]. split; [|now split].
  rewrite map_app in *. apply Forall_app in Ho. destruct Ho as (H1 & H2). apply Forall_app. split; [exact H1|]. inversion H2; subst. constructor; [assumption|constructor].
Qed.

Section Index.
Variables (parse : plang -> string -> option stree -> option stree) (edit : stree -> input_edit -> stree).
Notation T := (ts_with parse edit).
Variables (url : url_parser) (b : build).
Hypothesis Hpt : parse_total T.

Lemma names_at_hand a s x uri F c ds : replay url b (task0 T) a = Ok (s, x) -> indexed_but T url b a uri F c -> usable F c -> sound_workspace parse F c ->
  knows (tk_data s) uri ds -> forall name, SpecLint.indexed (ls_vars (tk_data s)) name <-> at_hand parse F c uri ds name.
Proof.
  intros Hr Hin Hus Hw Hk name. pose proof (others_written parse edit url b Hpt a s x uri F c Hr Hin Hus Hw) as HW.
  assert (K : keyed (tk_data s)) by (eapply keyed_reach; exact Hr). unfold knows in Hk. destruct (sget uri (ls_vars (tk_data s))) as [own|] eqn:Eo; [|discriminate]. injection Hk as Hk.
  split.
  - intros (u & vs & v & Hu & Hv & <-). destruct (String.eqb u uri) eqn:E.
    + apply String.eqb_eq in E. subst u. apply (In_sget _ _ _ (proj1 K)) in Hu. assert (vs = own) by congruence. subst vs. left. exists (decl_of_id v).
      split; [rewrite <- Hk; now apply in_map|reflexivity].
    + apply String.eqb_neq in E. right. exists u, (id_start v), (id_end v). apply HW. exists v. split; [|auto].
      unfold other_vars. apply in_flat_map. exists (u, vs). split; [|now apply (in_map (pair u))]. apply filter_In. split; [exact Hu|]. cbn [fst]. now apply negb_true_iff, String.eqb_neq.
  - intros [(d & Hd & <-)|(u & p & q & Hne & Hwa)].
    + rewrite <- Hk in Hd. apply in_map_iff in Hd. destruct Hd as (v & <- & Hv). exists uri, own, v. split; [now apply sget_In|]. split; [exact Hv|reflexivity].
    + destruct (proj2 (HW u name p q) (conj Hne Hwa)) as (v & Hv & <- & _). unfold other_vars in Hv. apply in_flat_map in Hv. destruct Hv as ((k & vs) & Hf & Hv).
      apply filter_In in Hf. destruct Hf as (Hf & _). cbn [fst snd] in Hv. apply in_map_iff in Hv. destruct Hv as (v' & E & Hv). injection E as -> ->. exists u, vs, v. auto.
Qed.
Lemma workspace_screen l (y : sys T) uri v t tr tp ps sts F c : exec url b (sys0 T) l = Some y -> at_rest y ->
  indexed_but T url b (y_taken y) uri F c -> usable F c -> sound_workspace parse F c -> cf_hide c <> Some true ->
  file_ext uri = Some Template -> just_read uri (map fst (y_taken y)) t -> conveys parse t tr tp ps sts ->
  url uri = Some v -> (forall u, url u = Some v -> u = uri) ->
  exists F1 s1 e1, last_reading url b y uri F1 s1 /\
    last_published v (y_published y) = Some (publish_of (e1 ++ missing_reports F1 (cf_templates c) sts)) /\
    reported (defines tr tp) (at_hand parse F c uri (defines tr tp)) (chains ps) e1.
Proof.
  intros He Hrest Hin Hus Hw Hh Hx J R Hv Hinj. pose proof Hrest as ((s & Es) & _). assert (Hs : state_of y s) by (left; exact Es).
  destruct (reach_replay url b l y s He Hs) as (tr1 & Hr). pose proof (indexed_modes url b _ s tr1 uri F c Hpt Hr Hin Hus) as Hm. unfold modes in Hm. injection Hm as Hch Hig Hcf.
  assert (Hi : ls_ignore (tk_data s) = false) by (rewrite Hig; destruct (cf_hide c) as [[|]|]; congruence).
  destruct (screen parse edit url b Hpt l y s uri v t tr tp ps sts He Hrest Hs Hx J R Hi Hv Hinj) as (F1 & s1 & e1 & Hl & Hpub & Hrep). exists F1, s1, e1.
  split; [exact Hl|]. split; [now rewrite <- Hcf|]. destruct Hl as (pre & m & post & x & Ey & Hm & Hpost & R1).
  rewrite Ey in Hin. pose proof (indexed_earlier _ _ _ _ _ _ _ _ _ _ Hin Hm Hpost) as Hin1.
  eapply reported_ext; [|exact Hrep]. apply (names_at_hand _ _ _ _ _ _ _ R1 Hin1 Hus Hw).
  assert (Hlast : last_read uri (map fst (pre ++ [(m, F1)])) t t).
  { destruct J as (pre' & m' & mid' & El & Hm' & Ht & Hmid). rewrite Ey in El. apply map_eq_app in El. destruct El as (p1 & l2 & E1 & E2 & E3).
    destruct l2 as [|(m2 & F2) l2]; [discriminate|]. cbn in E3. injection E3 as -> E3. subst mid'.
    destruct (split_unique _ uri _ _ _ _ _ _ _ _ E1 Hm Hm' Hpost Hmid) as (<- & <- & <- & <-).
    rewrite map_app. cbn [map fst]. apply just_last. exists pre', m, []. rewrite <- E2. split; [reflexivity|]. split; [exact Hm|]. split; [now rewrite E2|constructor]. }
  exact (proj1 (proj2 (session_held parse edit url b Hpt uri t tr tp ps sts t tr tp ps sts _ _ _ _ Hx R1 Hlast R R))).
Qed.
Lemma workspace_rest l (y : sys T) uri v t tr tp ps sts F c : exec url b (sys0 T) l = Some y -> at_rest y ->
  indexed_but T url b (y_taken y) uri F c -> usable F c -> sound_workspace parse F c -> cf_hide c <> Some true ->
  file_ext uri = Some Template -> editor_text uri (map fst (y_taken y)) t -> (forall u cs, In (MDidChange u cs) (map fst (y_taken y)) -> u = uri) ->
  conveys parse t tr tp ps sts -> url uri = Some v -> (forall u, url u = Some v -> u = uri) ->
  exists F1 s1 e1, last_reading url b y uri F1 s1 /\
    last_published v (y_published y) = Some (publish_of (e1 ++ missing_reports F1 (cf_templates c) sts)) /\
    reported (defines tr tp) (at_hand parse F c uri (defines tr tp)) (chains ps) e1.
Proof.
  intros He Hrest Hin Hus Hw Hh Hx Ht Ho R Hv Hinj. pose proof Hrest as ((s & Es) & _). assert (Hs : state_of y s) by (left; exact Es).
  destruct (reach_replay url b l y s He Hs) as (tr1 & Hr). pose proof (indexed_modes url b _ s tr1 uri F c Hpt Hr Hin Hus) as Hm. unfold modes in Hm. injection Hm as Hch Hig Hcf.
  eapply workspace_screen; eauto. eapply rest_just_read; eauto; congruence.
Qed.
End Index.
