(** * PQueries11: the answers of a session (C116). *)
From Verif Require Import Base RString Utf8 Rope Types Captures MTemplates MDefinition MObjects MLspFiles MSearchErrors MLspTask MChannels MQueries.
From Verif Require Import SpecText SpecFiles SpecScope SpecScope2 SpecObjects SpecObjects2 SpecLint SpecNav SpecQueries SpecQueries2 SpecQueries4 SpecChannels SpecServer SpecClient SpecQueries5.
From Verif Require Import PUtf8 PText PText2 PFiles PLint PLint2 PNode PObjects PNav PNav2 PNav3 PQueries PQueries2 PQueries3 PQueries4 PQueries6 PQueries7 PQueries9 PQueries10 PChannels PChannels2 PChannels3 PServer PClient PClient2.

Section Trees.
Context {T : ts} (url : url_parser) (b : build).
Implicit Types s : task_state T.
Lemma did_save_tt F uri (d d' : lsp_files T) r : did_save F b uri d = Ok (d', r) -> ls_tt d' = ls_tt d.
Proof.
  unfold did_save. destruct (file_ext uri) as [l|]; [|intros H; inversion H; reflexivity].
  destruct (sget uri (ls_docs d)) as [t|]; [|intros H; inversion H; reflexivity].
  destruct (add_variables uri l (rope_content t) (delete_variables uri d)) as [d1|] eqn:E; cbn [bind]; [|discriminate].
  destruct (read_tree F b uri d1); cbn [bind]; [|discriminate]. intros H. inversion H; subst.
  apply add_variables_docs in E. destruct E as (_ & E & _). rewrite E. unfold delete_variables. destruct (sget uri (ls_vars d)); reflexivity.
Qed.
Lemma did_change_vars tid uri cs (d d' : lsp_files T) r : did_change tid uri cs d = Ok (d', r) -> ls_vars d' = ls_vars d.
Proof.
  unfold did_change. destruct (sget uri (ls_docs d)) as [t|]; [|intros H; inversion H; reflexivity].
  destruct (apply_changes t cs) as [((t2 & early) & edits)|]; cbn [bind]; [|discriminate]. destruct early; intros H; inversion H; subst; [reflexivity|].
  lsimp. now rewrite (proj2 (input_edit_same uri (file_ext uri) edits _)).
Qed.
Lemma step_tree F uri s s' m es : untouched uri m -> MLspTask.step F url b s m = Ok (s', es) ->
  sget uri (ls_tt (tk_data s')) = sget uri (ls_tt (tk_data s)).
Proof.
  intros Hm H. destruct m; cbn [MLspTask.step untouched] in *.
  - inversion H; subst. cbn. destruct client as [n|]; [|reflexivity]. destruct (String.eqb n _); reflexivity.
  - destruct Hm.
  - destruct (did_open F b uri0 t false (tk_data s)) as [(d & r)|] eqn:E; cbn [bind] in H; inversion H; subst. cbn.
    destruct (did_open_frame _ _ _ _ _ _ _ _ E) as (Hs & _). destruct (Hs uri (not_eq_sym Hm)) as (_ & Hd & _). now rewrite Hd.
  - destruct (did_change (tk_next s) uri0 cs (tk_data s)) as [(d & r)|] eqn:E; cbn [bind snd fst] in H; [|discriminate].
    destruct (did_change_frame _ _ _ _ _ _ E) as (Hs & _). destruct (Hs uri (not_eq_sym Hm)) as (_ & Hd & _).
    destruct r; inversion H; subst; cbn; now rewrite Hd.
  - destruct (did_save F b uri0 (tk_data s)) as [(d & r)|] eqn:E; cbn [bind] in H; inversion H; subst. cbn.
    now rewrite (did_save_tt _ _ _ _ _ E).
  - destruct (do_completion _ _ _ _ _); cbn [bind] in H; inversion H; subst; reflexivity.
  - destruct (do_hover _ _ _ _); cbn [bind] in H; inversion H; subst; reflexivity.
  - destruct (goto_definition _ _ _ _ _ _); cbn [bind] in H; inversion H; subst; reflexivity.
  - destruct (code_action _ _ _ _) as [[a|]|]; cbn [bind] in H; [|inversion H; subst; reflexivity|discriminate].
    destruct (process_code_actions _ _ _ _) as [p|]; cbn [bind] in H; [|discriminate]. destruct (snd p); inversion H; subst; reflexivity.
  - destruct (String.eqb cmd _); inversion H; subst; reflexivity.
  - inversion H; subst; reflexivity.
  - inversion H; subst; reflexivity.
  - inversion H; subst; reflexivity.
Qed.
Lemma step_vars F uri s s' m es : unrefreshed uri m -> MLspTask.step F url b s m = Ok (s', es) ->
  sget uri (ls_vars (tk_data s')) = sget uri (ls_vars (tk_data s)).
Proof.
  intros Hm H. destruct m; cbn [MLspTask.step unrefreshed] in *.
  - inversion H; subst. cbn. destruct client as [n|]; [|reflexivity]. destruct (String.eqb n _); reflexivity.
  - destruct Hm.
  - destruct (did_open F b uri0 t false (tk_data s)) as [(d & r)|] eqn:E; cbn [bind] in H; inversion H; subst. cbn.
    destruct (did_open_frame _ _ _ _ _ _ _ _ E) as (Hs & _). destruct (Hs uri (not_eq_sym Hm)) as (_ & _ & _ & Hd & _). now rewrite Hd.
  - destruct (did_change (tk_next s) uri0 cs (tk_data s)) as [(d & r)|] eqn:E; cbn [bind snd fst] in H; [|discriminate].
    pose proof (did_change_vars _ _ _ _ _ _ E) as Hd. destruct r; inversion H; subst; cbn; now rewrite Hd.
  - destruct (did_save F b uri0 (tk_data s)) as [(d & r)|] eqn:E; cbn [bind] in H; inversion H; subst. cbn.
    destruct (did_save_frame _ _ _ _ _ _ E) as (Hs & _). destruct (Hs uri (not_eq_sym Hm)) as (_ & _ & _ & Hd & _). now rewrite Hd.
  - destruct (do_completion _ _ _ _ _); cbn [bind] in H; inversion H; subst; reflexivity.
  - destruct (do_hover _ _ _ _); cbn [bind] in H; inversion H; subst; reflexivity.
  - destruct (goto_definition _ _ _ _ _ _); cbn [bind] in H; inversion H; subst; reflexivity.
  - destruct (code_action _ _ _ _) as [[a|]|]; cbn [bind] in H; [|inversion H; subst; reflexivity|discriminate].
    destruct (process_code_actions _ _ _ _) as [p|]; cbn [bind] in H; [|discriminate]. destruct (snd p); inversion H; subst; reflexivity.
  - destruct (String.eqb cmd _); inversion H; subst; reflexivity.
  - inversion H; subst; reflexivity.
  - inversion H; subst; reflexivity.
  - inversion H; subst; reflexivity.
Qed.
Lemma replay_vars uri : forall l s s' tr, Forall (unrefreshed uri) (map fst l) -> replay url b s l = Ok (s', tr) ->
  sget uri (ls_vars (tk_data s')) = sget uri (ls_vars (tk_data s)).
Proof.
  induction l as [|(m, F) l IH]; intros s s' tr Hq H; cbn [replay map] in *; [inversion H; subst; reflexivity|].
  inversion Hq as [|? ? Hm Hq']; subst. destruct (MLspTask.step F url b s m) as [(s1 & es)|] eqn:E; [|discriminate].
  destruct (replay url b s1 l) as [(s2 & tr')|] eqn:E2; [|discriminate]. inversion H; subst.
  rewrite (IH _ _ _ Hq' E2). exact (step_vars _ _ _ _ _ _ Hm E).
Qed.
(** The last edit given to the parser carries the text after the changes. *)
Lemma changes_last cs : forall t t' edits, apply_changes t cs = Ok (t', false, edits) ->
  (edits = [] -> t' = t) /\ (forall e, last_opt edits = Some e -> fst e = rope_content t').
Proof.
  induction cs as [|c cs IH]; intros t t' edits H; cbn [apply_changes] in H.
  - inversion H; subst. split; [auto|discriminate].
  - destruct (ch_range c) as [r|]; [|inversion H].
    destruct (apply_change t r (ch_text c)) as [(t1 & ie)|] eqn:E; [|discriminate]. cbn [bind fst snd] in H.
    destruct (apply_changes t1 cs) as [[[t2 early] ed]|] eqn:E2; [|discriminate]. cbn [bind] in H. inversion H; subst.
    destruct (IH _ _ _ E2) as (He & Hl). split; [discriminate|]. intros e He'. destruct ed as [|e0 ed].
    + cbn in He'. inversion He'; subst. cbn. now rewrite (He eq_refl).
    + apply Hl. exact He'.
Qed.
Definition has_tree (uri : string) (t : text) (d : lsp_files T) : Prop :=
  exists tr, sget uri (ls_tt d) = Some tr /\ (scalars t -> exists old, t_parse T PJinja (encode t) old = Some tr).
Lemma easy_ranged cs : forall t t', easy_changes t cs t' -> Forall (fun c => ch_range c <> None) cs.
Proof. induction cs as [|c cs IH]; intros t t' H; [constructor|]. inversion H; subst. constructor; [discriminate|eauto]. Qed.
Lemma ranged_late cs : forall t t2 early ed, Forall (fun c => ch_range c <> None) cs -> apply_changes t cs = Ok (t2, early, ed) -> early = false.
Proof.
  induction cs as [|c cs IH]; intros t t2 early ed Hr H; cbn [apply_changes] in H; [now inversion H|]. inversion Hr as [|? ? Hc Hr']; subst.
  destruct (ch_range c) as [r|]; [|congruence]. destruct (apply_change t r (ch_text c)) as [te|]; [|discriminate]. cbn [bind] in H.
  destruct (apply_changes (fst te) cs) as [[[t3 e3] ed3]|] eqn:E2; [|discriminate]. cbn [bind] in H. inversion H; subst. eauto.
Qed.
Lemma step_change_tree F uri cs t t' s s' es : parse_total T -> file_ext uri = Some Template ->
  sget uri (ls_docs (tk_data s)) = Some t -> has_tree uri t (tk_data s) -> easy_changes t cs t' ->
  MLspTask.step F url b s (MDidChange uri cs) = Ok (s', es) -> sget uri (ls_docs (tk_data s')) = Some t' -> has_tree uri t' (tk_data s').
Proof.
  intros Hp Hx Hd (tr0 & Ht0 & Hpar) Hc H Hd'. cbn [MLspTask.step] in H. unfold did_change in H. rewrite Hd in H.
  destruct (apply_changes t cs) as [[[t2 early] ed]|] eqn:E; cbn [bind] in H; [|discriminate].
  pose proof (ranged_late _ _ _ _ _ (easy_ranged _ _ _ Hc) E) as ->. cbn [bind fst snd] in H. inversion H; subst s'. clear H.
  cbn [tk_data with_timer] in *. rewrite Hx in *. lsimp.
  destruct (changes_last _ _ _ _ E) as (He & Hl).
  set (s1 := set_docs _ _) in *.
  destruct (apply_edits_tree uri Template Hp ed s1 tr0) as (tr & Htr & Hm); [exact Ht0|].
  assert (t' = t2). { unfold set_task in Hd'. cbn [ls_docs] in Hd'. rewrite (proj1 (input_edit_same uri (Some Template) ed s1)) in Hd'. unfold s1 in Hd'. lsimp in Hd'. rewrite sget_sinsert_same in Hd'. congruence. }
  subst t'. exists tr. split; [exact Htr|]. intros Hs. destruct (last_opt ed) as [e|] eqn:El.
  - destruct Hm as (old & Hm). rewrite (Hl e eq_refl), rope_content_encode in Hm by exact Hs. exists old. exact Hm.
  - subst tr. assert (Ed : ed = []) by (destruct ed; [reflexivity|now apply last_opt_none in El]). rewrite (He Ed) in *. auto.
Qed.
Lemma replay_tree uri : parse_total T -> file_ext uri = Some Template -> forall ms t, editor_text uri ms t -> forall s l s' tr,
  map fst l = ms -> replay url b s l = Ok (s', tr) -> has_tree uri t (tk_data s').
Proof.
  intros Hp Hx ms t He. induction He as [ms t|ms t cs t' He IH Hc|ms t m He IH Hm]; intros s l s' tr Hl Hr;
    apply map_eq_app in Hl; destruct Hl as (l1 & l2 & -> & Hl1 & Hl2);
    (destruct l2 as [|(m', F) [|? ?]]; try discriminate); cbn in Hl2; inversion Hl2; subst;
    destruct (replay_snoc_inv _ _ _ _ _ _ _ _ Hr) as (s1 & tr1 & es & H1 & H2 & _).
  - cbn [MLspTask.step] in H2. destruct (did_open F b uri t false (tk_data s1)) as [(d & r)|] eqn:E; cbn [bind] in H2; inversion H2; subst.
    pose proof (did_open_tree F b uri Template t false _ _ _ Hp Hx E) as Ht. cbn [trees_of] in Ht. cbn [fst with_data tk_data].
    destruct (t_parse T PJinja (encode t) (sget uri (ls_tt (tk_data s1)))) as [tr0|] eqn:Ep; [|now apply Hp in Ep].
    exists tr0. split; [exact Ht|]. intros _. eauto.
  - eapply step_change_tree; [exact Hp|exact Hx| |eapply IH; [reflexivity|exact H1]|exact Hc|exact H2|].
    + eapply (replay_text url b uri); [congruence|exact He|reflexivity|exact H1].
    + eapply (replay_text url b uri); [congruence| |reflexivity|exact Hr]. rewrite map_app. eapply et_change; eauto.
  - destruct (IH s l1 s1 tr1 eq_refl H1) as (tr0 & A & B). exists tr0. split; [|exact B]. rewrite (step_tree _ _ _ _ _ _ Hm H2). exact A.
Qed.
End Trees.

Section Session.
Variables (parse : plang -> string -> option stree -> option stree) (edit : stree -> input_edit -> stree).
Notation T := (ts_with parse edit).
Variables (url : url_parser) (b : build).
Hypothesis Hpt : parse_total T.

Lemma read_displayed uri t tr tp ps sts (d : lsp_files T) : file_ext uri = Some Template -> conveys parse t tr tp ps sts ->
  sget uri (ls_docs d) = Some t -> has_tree uri t d -> displayed d uri t tr tp ps sts.
Proof.
  intros Hx [R1 R2 R3 R4 R5 R6] Hd (tr' & Ht & Hp). destruct (Hp R1) as (old & Ho). cbn [t_parse ts_with] in Ho. rewrite R2 in Ho. inversion Ho; subst.
  constructor; auto.
Qed.
Lemma refresh_knows F uri m t tr tp ps sts (s s' : task_state T) es : file_ext uri = Some Template -> conveys parse t tr tp ps sts ->
  refreshes uri m -> MLspTask.step F url b s m = Ok (s', es) -> sget uri (ls_docs (tk_data s')) = Some t -> has_tree uri t (tk_data s') ->
  knows (tk_data s') uri (defines tr tp).
Proof.
  intros Hx HR Hm H Hd Ht. pose proof (read_displayed _ _ _ _ _ _ _ Hx HR Hd Ht) as Hsh. destruct HR as [R1 R2 R3 R4 R5 R6].
  pose proof (depicts_parsed parse edit _ _ _ _ _ R4) as Hpa. destruct m; cbn [refreshes] in Hm; try (now elim Hm); subst uri0; cbn [MLspTask.step] in H.
  - destruct (did_open F b uri t0 false (tk_data s)) as [(d & r)|] eqn:E; cbn [bind] in H; inversion H; subst. cbn [fst with_data tk_data] in *.
    assert (t0 = t). { pose proof (did_open_docs b F uri t0 _ _ _ ltac:(congruence) E). congruence. } subst t0.
    destruct (did_open_relint T F b uri t tr (tk_data s) Hx (R2 _)) as (s2 & A1 & A2 & _ & _ & _ & Eo). rewrite Eo in E.
    destruct (relint_any T F b uri t tr tp ps sts s2 Hx R1 A1 A2 Hpa R6) as (s3 & e1 & Ea & Er & _ & _ & _ & Hk). rewrite Ea in E. cbn [bind] in E. rewrite Er in E.
    inversion E; subst. exact Hk.
  - destruct (did_save F b uri (tk_data s)) as [(d & r)|] eqn:E; cbn [bind] in H; inversion H; subst. cbn [fst with_data tk_data] in *.
    rewrite (did_save_docs b F _ _ _ _ E) in Hd. pose proof (sh_tree _ _ _ _ _ _ _ Hsh) as Htr. rewrite (did_save_tt b F _ _ _ _ E) in Htr.
    rewrite (did_save_relint T F b uri t _ Hx R1 Hd) in E. destruct (delete_variables_docs uri (tk_data s)) as (D1 & D2 & _ & _).
    destruct (relint_any T F b uri t tr tp ps sts (delete_variables uri (tk_data s)) Hx R1) as (s3 & e1 & Ea & Er & _ & _ & _ & Hk); [now rewrite D2|now rewrite D1|exact Hpa|exact R6|].
    rewrite Ea in E. cbn [bind] in E. rewrite Er in E. inversion E; subst. exact Hk.
Qed.
(** What the server holds after the messages [l]. *)
Lemma session_held uri t0 tr0 tp0 ps0 sts0 t tr tp ps sts (s0 s : task_state T) l x :
  file_ext uri = Some Template -> replay url b s0 l = Ok (s, x) -> last_read uri (map fst l) t0 t ->
  conveys parse t0 tr0 tp0 ps0 sts0 -> conveys parse t tr tp ps sts ->
  displayed (tk_data s) uri t tr tp ps sts /\ knows (tk_data s) uri (defines tr0 tp0) /\ Forall small_decl (defines tr0 tp0).
Proof.
  intros Hx Hr (pre & m & mid & El & Hm & Ht0 & Hmid & Ht) R0 R.
  pose proof (replay_text url b uri ltac:(congruence) _ _ Ht _ _ _ _ eq_refl Hr) as Hd.
  pose proof (replay_tree url b uri Hpt Hx _ _ Ht _ _ _ _ eq_refl Hr) as Htr.
  split; [exact (read_displayed _ _ _ _ _ _ _ Hx R Hd Htr)|].
  apply map_eq_app in El. destruct El as (l1 & l2 & -> & E1 & E2). destruct l2 as [|(m', F) l2]; [discriminate|]. cbn in E2. inversion E2; subst.
  destruct (replay_split url b _ _ _ _ _ Hr) as (s1 & tr1 & tr2 & H1 & H2 & ->). cbn [replay] in H2.
  destruct (MLspTask.step F url b s1 m) as [(s2 & es)|] eqn:Es; [|discriminate]. destruct (replay url b s2 l2) as [(s3 & tr3)|] eqn:E3; [|discriminate]. inversion H2; subst s3 tr2.
  pose proof (replay_snoc url b _ _ _ _ _ _ _ _ H1 Es) as H12.
  assert (Em : map fst (l1 ++ [(m, F)]) = map fst l1 ++ [m]) by now rewrite map_app.
  pose proof (replay_text url b uri ltac:(congruence) _ _ Ht0 _ _ _ _ Em H12) as Hd0.
  pose proof (replay_tree url b uri Hpt Hx _ _ Ht0 _ _ _ _ Em H12) as Htr0.
  split; [|eapply decls_small; exact (read_displayed _ _ _ _ _ _ _ Hx R0 Hd0 Htr0)].
  unfold knows. rewrite (replay_vars url b uri _ _ _ _ Hmid E3). exact (refresh_knows _ _ _ _ _ _ _ _ _ _ _ Hx R0 Hm Es Hd0 Htr0).
Qed.
(** What is answered to the request [m] of rank [length a]. *)
Lemma session_reply l (y : sys T) s a m F c : exec url b (sys0 T) l = Some y -> y_task y = TIdle s -> y_taken y = a ++ (m, F) :: c ->
  exists sa x sb es, replay url b (task0 T) a = Ok (sa, x) /\ MLspTask.step F url b sa m = Ok (sb, es) /\
    forall r, In r (answers m es) -> In r (y_replies y).
Proof.
  intros He Hi Ht. assert (Ha : alive y) by (unfold alive; congruence).
  destruct (answers_are_handlers url b l y He Ha) as (s1 & tr & later & Hr & Hf & Hl). unfold in_progress in Hl. rewrite Hi in Hl.
  apply map_eq_nil in Hl. subst later. rewrite app_nil_r in Hf. rewrite Ht in Hr. destruct (replay_split url b _ _ _ _ _ Hr) as (sa & x & tr2 & H1 & H2 & ->). cbn [replay] in H2.
  destruct (MLspTask.step F url b sa m) as [(sb & es)|] eqn:Es; [|discriminate]. destruct (replay url b sb c) as [(s3 & tr3)|] eqn:E3; [|discriminate]. inversion H2; subst.
  exists sa, x, sb, es. split; [exact H1|]. split; [exact Es|]. intros r Hin. rewrite <- Hf. apply in_flat_map. exists (m, es). split; [apply in_or_app; right; now left|exact Hin].
Qed.
Section Asked.
Variables (l : list action) (y : sys T) (sy : task_state T) (a : list (msg * fs)) (F : fs) (c : list (msg * fs)) (rid : N).
Hypothesis He : exec url b (sys0 T) l = Some y.
Hypothesis Hidle : y_task y = TIdle sy.
Variables (uri : string) (t0 : text) (tr0 : stree) (tp0 : tpl) (ps0 : list piece) (sts0 : list istmt).
Variables (t : text) (tr : stree) (tp : tpl) (ps : list piece) (sts : list istmt).
Hypothesis Hx : file_ext uri = Some Template.
Hypothesis Hlast : last_read uri (map fst a) t0 t.
Hypothesis R0 : conveys parse t0 tr0 tp0 ps0 sts0.
Hypothesis R : conveys parse t tr tp ps sts.
Notation ds0 := (defines tr0 tp0).
Lemma asked_goto h fs pos : y_taken y = a ++ (MGoto rid uri pos, F) :: c ->
  In (h, fs) (chains ps) -> cursor_on tr (point_of pos) (fst h) -> (exists d, In d ds0 /\ goto_sees (point_of pos) (snd h) d) ->
  exists d, latest (goto_sees (point_of pos) (snd h)) ds0 d /\
    In (rid, RGoto (GScalar (mkloc uri (lsp_range (dc_start d) (dc_end d))))) (y_replies y).
Proof.
  intros Ht Hc Hon Hv. destruct (session_reply l y sy a _ F c He Hidle Ht) as (sa & x & sb & es & Hr & Hs & Hin).
  destruct (session_held uri t0 tr0 tp0 ps0 sts0 t tr tp ps sts _ _ _ _ Hx Hr Hlast R0 R) as (Hd & Hk & Hsm).
  destruct (known_goto _ _ _ _ _ _ _ _ _ Hd ds0 Hk F url b h fs pos Hsm Hc Hon Hv) as (d & Hl & Hg). exists d. split; [exact Hl|]. apply Hin.
  cbn [MLspTask.step] in Hs. rewrite Hg in Hs. cbn [bind] in Hs. inversion Hs; subst. now left.
Qed.
Lemma asked_goto_else h fs pos : y_taken y = a ++ (MGoto rid uri pos, F) :: c ->
  In (h, fs) (chains ps) -> cursor_on tr (point_of pos) (fst h) -> no_string_at tr (point_of pos) ->
  (forall d, In d ds0 -> ~ goto_sees (point_of pos) (snd h) d) ->
  exists s x, replay url b (task0 T) a = Ok (s, x) /\
    let here := filter (fun fv => heads (snd h) (id_name (snd fv))) (other_vars uri (ls_vars (tk_data s))) in
    (Forall (fun fv => small_id (snd fv)) (other_vars uri (ls_vars (tk_data s))) -> Forall (fun fv => url (target_name fv) <> None) here ->
     exists locs, Forall2 (found url) here locs /\ In (rid, RGoto (GArray locs)) (y_replies y)).
Proof.
  intros Ht Hc Hon Hns Hv. destruct (session_reply l y sy a _ F c He Hidle Ht) as (sa & x & sb & es & Hr & Hs & Hin).
  destruct (session_held uri t0 tr0 tp0 ps0 sts0 t tr tp ps sts _ _ _ _ Hx Hr Hlast R0 R) as (Hd & Hk & Hsm).
  exists sa, x. split; [exact Hr|]. intros here H1 H2.
  destruct (known_goto_else _ _ _ _ _ _ _ _ _ Hd ds0 Hk F url b h fs pos Hc Hon Hns Hv H1 H2) as (locs & Hg & Hf). exists locs. split; [exact Hf|]. apply Hin.
  cbn [MLspTask.step] in Hs. rewrite Hg in Hs. cbn [bind] in Hs. inversion Hs; subst. now left.
Qed.
Lemma asked_hover h fs1 fs2 pos : y_taken y = a ++ (MHover rid uri pos, F) :: c ->
  In (h, fs1 ++ fs2) (chains ps) -> cursor_on tr (point_of pos) (fst (segment h fs1)) ->
  exists s x r, replay url b (task0 T) a = Ok (s, x) /\ hover_tells (tk_data s) uri ds0 (snd h) (n_start (fst h)) r /\
    In (rid, match r with Some d => RHover d | None => RNull end) (y_replies y).
Proof.
  intros Ht Hc Hon. destruct (session_reply l y sy a _ F c He Hidle Ht) as (sa & x & sb & es & Hr & Hs & Hin).
  destruct (session_held uri t0 tr0 tp0 ps0 sts0 t tr tp ps sts _ _ _ _ Hx Hr Hlast R0 R) as (Hd & Hk & Hsm).
  destruct (known_hover _ _ _ _ _ _ _ _ _ Hd ds0 Hk b h fs1 fs2 pos Hc Hon) as (r & Hh & Ha). exists sa, x, r. split; [exact Hr|]. split; [exact Ha|]. apply Hin.
  cbn [MLspTask.step] in Hs. rewrite Hh in Hs. cbn [bind] in Hs. inversion Hs; subst. now left.
Qed.
Lemma asked_complete pos ctx ps1 ps2 : y_taken y = a ++ (MCompletion rid uri pos ctx, F) :: c -> ps = ps1 ++ ps2 ->
  ctx = Some TkInvoked \/ ctx = Some TkTriggerCharacter ->
  between (point_of pos) ps1 ps2 -> SpecObjects.inside ps1 (point_of pos) ->
  exists s x items, replay url b (task0 T) a = Ok (s, x) /\
    variables_offered (tk_data s) uri ds0 (point_of pos) EmptyString range0 items /\
    In (rid, RCompletion (map RItem items)) (y_replies y).
Proof.
  intros Ht Ep Hctx Hb Hi. destruct (session_reply l y sy a _ F c He Hidle Ht) as (sa & x & sb & es & Hr & Hs & Hin).
  destruct (session_held uri t0 tr0 tp0 ps0 sts0 t tr tp ps sts _ _ _ _ Hx Hr Hlast R0 R) as (Hd & Hk & Hsm). rewrite Ep in Hd.
  destruct (known_complete _ _ _ _ _ _ _ _ _ _ b pos ctx ds0 Hd Hk Hctx Hb Hi) as (items & Hh & Ha). exists sa, x, items. split; [exact Hr|]. split; [exact Ha|]. apply Hin.
  cbn [MLspTask.step] in Hs. rewrite Hh in Hs. cbn [bind] in Hs. inversion Hs; subst. now left.
Qed.
Lemma asked_symbols : y_taken y = a ++ (MDocumentSymbol rid uri, F) :: c ->
  In (rid, RSymbols (map (fun d => mksym (dc_name d) (lsp_kind (dc_kind d))
                                 (lsp_range (dc_start d) (dc_end d)) (lsp_range (dc_start d) (dc_end d))) ds0)) (y_replies y).
Proof.
  intros Ht. destruct (session_reply l y sy a _ F c He Hidle Ht) as (sa & x & sb & es & Hr & Hs & Hin).
  destruct (session_held uri t0 tr0 tp0 ps0 sts0 t tr tp ps sts _ _ _ _ Hx Hr Hlast R0 R) as (Hd & Hk & Hsm).
  apply Hin. rewrite (symbols_exact F url b sa rid uri ds0 Hk Hsm) in Hs. inversion Hs; subst. now left.
Qed.
End Asked.
End Session.

(** ** Nothing has been edited since *)
Lemma elsewhere_untouched uri m : elsewhere uri m -> untouched uri m.
Proof. destruct m; cbn; auto. Qed.
Lemma elsewhere_unrefreshed uri m : elsewhere uri m -> unrefreshed uri m.
Proof. destruct m; cbn; auto. Qed.
Lemma just_last uri ms t : just_read uri ms t -> last_read uri ms t t.
Proof.
  intros (pre & m & mid & -> & Hm & Ht & Hmid). exists pre, m, mid. split; [reflexivity|]. split; [exact Hm|]. split; [exact Ht|].
  split; [eapply Forall_impl; [|exact Hmid]; intros; now apply elsewhere_unrefreshed|].
  revert Hmid. change (pre ++ m :: mid) with (pre ++ [m] ++ mid). rewrite app_assoc. induction mid as [|x mid IH] using rev_ind; intros Hmid; [now rewrite app_nil_r|].
  apply Forall_app in Hmid. destruct Hmid as (H1 & H2). inversion H2; subst. rewrite app_assoc. apply et_other; [auto|now apply elsewhere_untouched].
Qed.
(** The last message that concerned the document. *)
Lemma last_touch uri ms t : editor_text uri ms t -> exists pre m mid, ms = pre ++ m :: mid /\
  (refreshes uri m \/ exists cs t1, m = MDidChange uri cs /\ editor_text uri pre t1 /\ easy_changes t1 cs t) /\
  editor_text uri (pre ++ [m]) t /\ Forall (elsewhere uri) mid.
Proof.
  induction 1 as [ms t|ms t cs t' He IH Hc|ms t m He IH Hm].
  - exists ms, (MDidOpen uri t), []. split; [reflexivity|]. split; [left; reflexivity|]. split; [constructor|constructor].
  - exists ms, (MDidChange uri cs), []. split; [reflexivity|]. split; [right; eauto|]. split; [econstructor; eauto|constructor].
  - assert (D : elsewhere uri m \/ m = MDidSave uri).
    { destruct m; cbn in *; auto. destruct (String.string_dec uri0 uri) as [->|N]; auto. }
    destruct D as [D| ->].
    + destruct IH as (pre & m0 & mid & -> & H1 & H2 & H3). exists pre, m0, (mid ++ [m]). rewrite <- app_assoc. split; [reflexivity|]. split; [exact H1|]. split; [exact H2|].
      apply Forall_app. split; [exact H3|repeat constructor; exact D].
    + exists ms, (MDidSave uri), []. split; [reflexivity|]. split; [left; reflexivity|]. split; [now constructor|constructor].
Qed.
Section Rest.
Context {T : ts} (url : url_parser) (b : build).
Implicit Types s : task_state T.
Lemma step_chan F s s' m es : m <> MInitialized -> MLspTask.step F url b s m = Ok (s', es) -> ls_chan (tk_data s') = ls_chan (tk_data s).
Proof.
  intros Hm H. destruct m; cbn [MLspTask.step] in *.
  - inversion H; subst. cbn. destruct client as [n|]; [|reflexivity]. destruct (String.eqb n _); reflexivity.
  - now elim Hm.
  - destruct (did_open F b uri t false (tk_data s)) as [(d & r)|] eqn:E; cbn [bind] in H; inversion H; subst. cbn.
    destruct (did_open_frame _ _ _ _ _ _ _ _ E) as (_ & _ & _ & _ & Hc & _). exact Hc.
  - destruct (did_change (tk_next s) uri cs (tk_data s)) as [(d & r)|] eqn:E; cbn [bind snd fst] in H; [|discriminate].
    destruct (did_change_frame _ _ _ _ _ _ E) as (_ & _ & _ & _ & Hc & _). destruct r; inversion H; subst; exact Hc.
  - destruct (did_save F b uri (tk_data s)) as [(d & r)|] eqn:E; cbn [bind] in H; inversion H; subst. cbn.
    destruct (did_save_frame _ _ _ _ _ _ E) as (_ & _ & _ & _ & Hc & _). exact Hc.
  - destruct (do_completion _ _ _ _ _); cbn [bind] in H; inversion H; subst; reflexivity.
  - destruct (do_hover _ _ _ _); cbn [bind] in H; inversion H; subst; reflexivity.
  - destruct (goto_definition _ _ _ _ _ _); cbn [bind] in H; inversion H; subst; reflexivity.
  - destruct (code_action _ _ _ _) as [[a|]|]; cbn [bind] in H; [|inversion H; subst; reflexivity|discriminate].
    destruct (process_code_actions _ _ _ _) as [p|]; cbn [bind] in H; [|discriminate]. destruct (snd p); inversion H; subst; reflexivity.
  - destruct (String.eqb cmd _); inversion H; subst; reflexivity.
  - inversion H; subst; reflexivity.
  - inversion H; subst; reflexivity.
  - inversion H; subst; reflexivity.
Qed.
Lemma replay_chan : forall l s s' tr, Forall (fun m => m <> MInitialized) (map fst l) -> replay url b s l = Ok (s', tr) ->
  ls_chan (tk_data s') = ls_chan (tk_data s).
Proof.
  induction l as [|(m, F) l IH]; intros s s' tr Hq H; cbn [replay map] in *; [inversion H; subst; reflexivity|].
  inversion Hq as [|? ? Hm Hq']; subst. destruct (MLspTask.step F url b s m) as [(s1 & es)|] eqn:E; [|discriminate].
  destruct (replay url b s1 l) as [(s2 & tr')|] eqn:E2; [|discriminate]. inversion H; subst.
  rewrite (IH _ _ _ Hq' E2). exact (step_chan _ _ _ _ _ Hm E).
Qed.
Lemma replay_messages : forall l s s' tr, replay url b s l = Ok (s', tr) -> map fst tr = map fst l.
Proof.
  induction l as [|(m, F) l IH]; intros s s' tr H; cbn [replay map] in *; [inversion H; subst; reflexivity|].
  destruct (MLspTask.step F url b s m) as [(s1 & es)|] eqn:E; [|discriminate].
  destruct (replay url b s1 l) as [(s2 & tr')|] eqn:E2; [|discriminate]. inversion H; subst. cbn. f_equal. eauto.
Qed.
(** When the server has come to rest and no other document was edited since, the
    document has been read again after its last edit. *)
Lemma rest_just_read l (y : sys T) s uri t : exec url b (sys0 T) l = Some y -> at_rest y -> state_of y s ->
  ls_chan (tk_data s) = true -> file_ext uri <> None -> editor_text uri (map fst (y_taken y)) t ->
  (forall u cs, In (MDidChange u cs) (map fst (y_taken y)) -> u = uri) -> just_read uri (map fst (y_taken y)) t.
Proof.
  intros He Hrest Hs Hch Hx Ht Hone. destruct (last_touch _ _ _ Ht) as (pre & m & mid & El & Hm & Htm & Hmid).
  destruct Hm as [Hm|(cs & t1 & -> & Ht1 & Hc)]; [exists pre, m, mid; auto|exfalso].
  destruct (reach_replay url b l y s He Hs) as (tr & Hr). pose proof Hr as Hr0. pose proof El as El0.
  apply map_eq_app in El. destruct El as (l1 & l2 & Ey & E1 & E2). rewrite Ey in Hr. destruct l2 as [|(m', F) l2]; [discriminate|]. cbn in E2. injection E2 as -> E2.
  destruct (replay_split url b _ _ _ _ _ Hr) as (s1 & tr1 & tr2 & H1 & H2 & ->). cbn [replay] in H2.
  destruct (MLspTask.step F url b s1 (MDidChange uri cs)) as [(s2 & es)|] eqn:Es; [|discriminate]. destruct (replay url b s2 l2) as [(s3 & tr3)|] eqn:E3; [|discriminate]. inversion H2; subst s3 tr2.
  assert (Hq : Forall (fun m => m <> MInitialized) (map fst l2)). { rewrite E2. eapply Forall_impl; [|exact Hmid]. intros m0 H0 ->. exact H0. }
  assert (Hc2 : ls_chan (tk_data s1) = true).
  { rewrite <- (step_chan F s1 s2 (MDidChange uri cs) es ltac:(discriminate) Es), <- (replay_chan _ _ _ _ Hq E3). exact Hch. }
  assert (Hd1 : sget uri (ls_docs (tk_data s1)) = Some t1) by (eapply (replay_text url b uri); [exact Hx|exact Ht1|exact E1|exact H1]).
  assert (Hin : exists i, In (ETimer i TimerEdit true uri) es).
  { cbn [MLspTask.step] in Es. unfold did_change in Es. rewrite Hd1 in Es.
    destruct (apply_changes t1 cs) as [[[t2 early] ed]|] eqn:E; cbn [bind] in Es; [|discriminate].
    pose proof (ranged_late _ _ _ _ _ (easy_ranged _ _ _ Hc) E) as ->. cbn [bind fst snd te_abort te_spawn] in Es. inversion Es; subst.
    exists (tk_next s1). rewrite Hc2. apply in_or_app. right. now left. }
  destruct Hin as (i & Hin).
  assert (Hno : trace_edits tr3 = []).
  { destruct (trace_edits tr3) as [|z zs] eqn:Ez; [reflexivity|exfalso]. assert (Hz : In z (trace_edits tr3)) by (rewrite Ez; now left).
    unfold trace_edits in Hz. apply in_flat_map in Hz. destruct Hz as ((m2 & es2) & Hi & Hz). cbn [snd] in Hz.
    destruct (replay_edits url b _ _ _ _ E3 _ _ Hi) as (u & cs2 & ->); [intros X; rewrite X in Hz; destruct Hz|].
    assert (Hi2 : In (MDidChange u cs2) (map fst l2)). { rewrite <- (replay_messages _ _ _ _ E3). apply in_map_iff. exists (MDidChange u cs2, es2). auto. }
    assert (u = uri). { apply (Hone u cs2). rewrite Ey, map_app. apply in_or_app. right. now right. }
    subst u. rewrite E2 in Hi2. rewrite Forall_forall in Hmid. now apply (Hmid _ Hi2). }
  pose proof (last_edit_refreshed url b l y s _ He Hrest Hr0 tr1 (MDidChange uri cs) es tr3 i uri eq_refl Hin Hno) as Hsv.
  rewrite (replay_messages _ _ _ _ E3), E2 in Hsv. rewrite Forall_forall in Hmid. now apply (Hmid _ Hsv).
Qed.
End Rest.
(** Then the server knows what is written in the text of the editor. *)
Lemma rest_shown parse edit url b l (y : sys (ts_with parse edit)) s uri t tr tp ps sts : parse_total (ts_with parse edit) ->
  exec url b (sys0 (ts_with parse edit)) l = Some y -> at_rest y -> state_of y s ->
  ls_chan (tk_data s) = true -> file_ext uri = Some Template -> editor_text uri (map fst (y_taken y)) t -> conveys parse t tr tp ps sts ->
  (forall u cs, In (MDidChange u cs) (map fst (y_taken y)) -> u = uri) ->
  just_read uri (map fst (y_taken y)) t /\ shown (tk_data s) uri t tr tp ps sts.
Proof.
  intros Hp He Hr Hs Hc Hx Ht R Ho. assert (J : just_read uri (map fst (y_taken y)) t) by (eapply rest_just_read; eauto; congruence).
  split; [exact J|]. apply just_last in J. destruct (reach_replay url b l y s He Hs) as (x & Hrep).
  destruct (session_held parse edit url b Hp uri t tr tp ps sts t tr tp ps sts _ _ _ _ Hx Hrep J R R) as (Hd & Hk & _). split; assumption.
Qed.
Lemma reach_held parse edit url b l (y : sys (ts_with parse edit)) s uri t0 tr0 tp0 ps0 sts0 t tr tp ps sts : parse_total (ts_with parse edit) ->
  exec url b (sys0 (ts_with parse edit)) l = Some y -> state_of y s -> file_ext uri = Some Template ->
  last_read uri (map fst (y_taken y)) t0 t -> conveys parse t0 tr0 tp0 ps0 sts0 -> conveys parse t tr tp ps sts ->
  displayed (tk_data s) uri t tr tp ps sts /\ knows (tk_data s) uri (defines tr0 tp0).
Proof.
  intros Hp He Hs Hx Hl R0 R. destruct (reach_replay url b l y s He Hs) as (x & Hrep).
  destruct (session_held parse edit url b Hp uri t0 tr0 tp0 ps0 sts0 t tr tp ps sts _ _ _ _ Hx Hrep Hl R0 R) as (Hd & Hk & _). split; assumption.
Qed.
