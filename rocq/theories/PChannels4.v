(** * PChannels4: published diagnostics and code actions agree at rest (C47). *)
From Verif Require Import Base RString Utf8 Rope Types Captures.
From Verif Require Import MDefinition MObjects MTemplates MSearchErrors MLspFiles MLspTask MChannels.
From Verif Require Import SpecText SpecFiles PText PUtf8 PFiles SpecOrder POrder.
From Verif Require Import SpecChannels PChannels PChannels2 PChannels3.

Definition put (a M : smap (list identifier)) : smap (list identifier) :=
  fold_left (fun acts kv => sinsert (fst kv) (snd kv) acts) a M.
Definition put_queue (q : list msg) (M : smap (list identifier)) : smap (list identifier) :=
  fold_left (fun acc m => match m with MCodeActions a => put a acc | _ => acc end) q M.
Lemma put_cong a : forall M M' k, sget k M = sget k M' -> sget k (put a M) = sget k (put a M').
Proof.
  induction a as [|[x v] a IH]; intros M M' k H; [exact H|]. cbn [put fold_left fst snd]. apply IH.
  destruct (String.eqb k x) eqn:E.
  - apply String.eqb_eq in E. subst. now rewrite !sget_sinsert_same.
  - apply String.eqb_neq in E. now rewrite !sget_sinsert_other.
Qed.
Lemma put_queue_cong q : forall M M' k, sget k M = sget k M' -> sget k (put_queue q M) = sget k (put_queue q M').
Proof.
  induction q as [|m q IH]; intros M M' k H; [exact H|]. cbn [put_queue fold_left]. destruct m; try (apply IH; exact H).
  apply IH. now apply put_cong.
Qed.
Lemma put_queue_app q1 q2 M : put_queue (q1 ++ q2) M = put_queue q2 (put_queue q1 M).
Proof. apply fold_left_app. Qed.
Lemma put_queue_none q : forall M, code_actions_in q = [] -> put_queue q M = M.
Proof.
  induction q as [|m q IH]; intros M H; [reflexivity|]. cbn [put_queue fold_left]. destruct m; try (apply IH; exact H).
  discriminate.
Qed.
Lemma put_insert acts u v M k : NoDup (map fst acts) ->
  sget k (put (sinsert u v acts) M) = if String.eqb k u then Some v else sget k (put acts M).
Proof.
  intros N. unfold put. rewrite !fold_insert_get; [|exact N|now apply sinsert_nodup]. destruct (String.eqb k u) eqn:E.
  - apply String.eqb_eq in E. subst. now rewrite sget_sinsert_same.
  - apply String.eqb_neq in E. now rewrite sget_sinsert_other.
Qed.
Lemma acts_nodup d : NoDup (map fst (acts_of d)).
Proof.
  unfold acts_of. assert (H : forall a : smap (list identifier), NoDup (map fst a) ->
    NoDup (map fst (fold_left (fun a ue => sinsert (fst ue) (missing_of (snd ue)) a) d a))).
  { induction d as [|x d IH]; intros a N; [exact N|]. cbn [fold_left]. apply IH. now apply sinsert_nodup. }
  apply H. constructor.
Qed.
Lemma last_published_snoc u v ds ps :
  last_published u (ps ++ [(v, ds)]) = if String.eqb v u then Some ds else last_published u ps.
Proof. unfold last_published. rewrite rev_app_distr. cbn. destruct (String.eqb v u); reflexivity. Qed.

Section Actions.
Context {T : ts} (url : url_parser) (b : build).
Implicit Types (y : sys T) (s : task_state T) (d : lsp_files T).

(** What a message does to the stored code actions and the diagnostics. *)
Definition clear (acts : smap (list identifier)) : Prop := forall k v, sget k acts = Some v -> v = [].

Lemma add_variables_actions uri l c d d' : add_variables uri l c d = Ok d' ->
  (ls_actions d' = ls_actions d /\ ls_vars d' = ls_vars d) \/
  (ls_actions d' = sinsert uri [] (ls_actions d) /\ (exists vs, sget uri (ls_vars d') = Some vs) /\
   ls_docs d' = ls_docs d /\ (forall l, trees_of l d' = trees_of l d) /\ exists tr, sget uri (trees_of l d) = Some tr).
Proof.
  unfold add_variables. destruct (sget uri (trees_of l d)) as [tr|] eqn:Etr.
  2:{ intros H; inversion H; subst; auto. }
  assert (Hst : forall vs, (ls_actions (set_actions (sinsert uri [] (ls_actions d)) (set_vars (sinsert uri vs (ls_vars d)) d))
     = sinsert uri [] (ls_actions d) /\
     (exists vs', sget uri (ls_vars (set_actions (sinsert uri [] (ls_actions d)) (set_vars (sinsert uri vs (ls_vars d)) d))) = Some vs') /\
     ls_docs (set_actions (sinsert uri [] (ls_actions d)) (set_vars (sinsert uri vs (ls_vars d)) d)) = ls_docs d /\
     (forall l0, trees_of l0 (set_actions (sinsert uri [] (ls_actions d)) (set_vars (sinsert uri vs (ls_vars d)) d)) = trees_of l0 d)
     /\ exists tr0, Some tr = Some tr0)).
  { intros vs. lsimp. split; [reflexivity|]. split; [exists vs; apply sget_sinsert_same|]. split; [reflexivity|].
    split; [intros l0; now destruct l0|eauto]. }
  destruct l.
  - destruct (snippets_query _ _ _) as [sn|]; [|discriminate]. cbn [bind]. destruct (sn_error sn).
    { intros H; inversion H; subst; auto. }
    destruct (definition_query _ _ _ _ _) as [df|]; [|discriminate]. cbn [bind]. intros H; inversion H; subst. right. apply Hst.
  - destruct (backend_definition_query _ _ _ _) as [ids|]; [|discriminate]. cbn [bind].
    destruct (backend_templates_query _ _ _ _) as [tp|]; [|discriminate]. cbn [bind]. intros H; inversion H; subst. right. apply Hst.
Qed.
Lemma read_tree_some F uri l d v t tr : file_ext uri = Some l -> sget uri (ls_docs d) = Some t ->
  sget uri (trees_of l d) = Some tr -> (exists vs, sget uri (ls_vars d) = Some vs) ->
  read_tree F b uri d = Ok v -> v <> None.
Proof.
  intros E1 E2 E3 (vs & E4) H. unfold read_tree in H. rewrite E2, E1, E3 in H. unfold search_errors in H. rewrite E4 in H.
  destruct l.
  - destruct (objects_query _ _ _ _ _); [|discriminate]. cbn [bind] in H. destruct (templates_query _ _ _ _); [|discriminate].
    cbn [bind] in H. inversion H. discriminate.
  - inversion H. discriminate.
Qed.
Lemma delete_variables_actions uri d : ls_actions (delete_variables uri d) = ls_actions d /\ ls_docs (delete_variables uri d) = ls_docs d.
Proof. unfold delete_variables. now destruct (sget uri (ls_vars d)). Qed.
Lemma add_tree_actions uri l c d : ls_actions (add_tree uri l c d) = ls_actions d /\ ls_docs (add_tree uri l c d) = ls_docs d.
Proof. unfold add_tree. destruct (parse _ _ _ _); [now destruct l|split; reflexivity]. Qed.
Lemma did_open_actions F uri t d d' r : did_open F b uri t false d = Ok (d', r) ->
  (ls_actions d' = ls_actions d \/ r <> None) /\
  (forall k, k <> uri -> sget k (ls_actions d') = sget k (ls_actions d)) /\ (forall x, r = Some x -> exists v, x = [(uri, v)]).
Proof.
  intros H. split; [|split].
  - unfold did_open in H. destruct (file_ext uri) as [l|] eqn:El; [|inversion H; subst; now left].
    destruct (add_variables _ _ _ _) as [d1|] eqn:E; [|discriminate]. cbn [bind] in H.
    destruct (read_tree F b uri d1) as [v|] eqn:Er; [|discriminate]. cbn [bind] in H.
    assert (Hd : d' = d1) by (destruct v; inversion H; reflexivity).
    apply add_variables_actions in E. rewrite (proj1 (add_tree_actions _ _ _ _)) in E.
    destruct E as [(E & _)|(E & Hv & Hdoc & Htr & (tr & Et))].
    + left. rewrite Hd, E. cbn. apply delete_variables_actions.
    + right. rewrite <- Htr in Et.
      assert (Hdoc' : sget uri (ls_docs d1) = Some t).
      { rewrite Hdoc, (proj2 (add_tree_actions _ _ _ _)). cbn. apply sget_sinsert_same. }
      pose proof (read_tree_some F uri l d1 v t tr El Hdoc' Et Hv Er). destruct v; [|congruence]. inversion H. discriminate.
  - intros k Hk. apply did_open_frame in H. destruct H as (H & _). destruct (H k Hk) as (_ & _ & _ & _ & Ha). congruence.
  - intros x ->. eapply did_open_msg; eauto.
Qed.
Lemma did_save_actions F uri d d' r : did_save F b uri d = Ok (d', r) ->
  (ls_actions d' = ls_actions d \/ r <> None) /\
  (forall k, k <> uri -> sget k (ls_actions d') = sget k (ls_actions d)) /\ (forall x, r = Some x -> exists v, x = [(uri, v)]).
Proof.
  intros H. split; [|split].
  - unfold did_save in H. destruct (file_ext uri) as [l|] eqn:El; [|inversion H; subst; now left].
    destruct (sget uri (ls_docs d)); [|inversion H; subst; now left].
    destruct (add_variables _ _ _ _) as [d1|] eqn:E; [|discriminate]. cbn [bind] in H.
    destruct (read_tree F b uri d1) as [v|] eqn:Er; [|discriminate]. cbn [bind] in H. inversion H. right. discriminate.
  - intros k Hk. apply did_save_frame in H. destruct H as (H & _). destruct (H k Hk) as (_ & _ & _ & _ & Ha). congruence.
  - intros x ->. eapply did_save_msg; eauto.
Qed.
Lemma clear_read_file F p l d d' : read_file F p l d = Ok d' -> clear (ls_actions d) -> clear (ls_actions d').
Proof.
  unfold read_file. destruct (f_canon F p) as [name| |]; [|intros H; inversion H; subst; auto|intros H; inversion H; subst; auto].
  destruct (f_read F name); [|intros H; inversion H; subst; auto].
  intros E Hc. apply add_variables_actions in E. rewrite (proj1 (add_tree_actions _ _ _ _)) in E. cbn [set_docs ls_actions] in E.
  destruct E as [(E & _)|(E & _)]; rewrite E; [exact Hc|]. intros k v Hk.
  destruct (String.eqb k (file_uri name)) eqn:Ek.
  - apply String.eqb_eq in Ek. subst. rewrite sget_sinsert_same in Hk. congruence.
  - apply String.eqb_neq in Ek. rewrite sget_sinsert_other in Hk by exact Ek. eapply Hc; eauto.
Qed.
Lemma clear_walk_entries F es : forall d d', walk_entries F es d = Ok (Some d') -> clear (ls_actions d) -> clear (ls_actions d').
Proof.
  induction es as [|e es IH]; intros d d' H Hc; cbn in H; [inversion H; subst; auto|].
  destruct e as [|p|p]; try discriminate; try (eapply IH; eauto; fail).
  destruct (file_ext p); [|eapply IH; eauto]. destruct (read_file F p l d) as [d1|] eqn:E; [|discriminate]. cbn [bind] in H.
  eapply IH; [exact H|]. eapply clear_read_file; eauto.
Qed.
Lemma clear_walk_dirs F ds : forall d d', walk_dirs F ds d = Ok (Some d') -> clear (ls_actions d) -> clear (ls_actions d').
Proof.
  induction ds as [|e es IH]; intros d d' H Hc; cbn [walk_dirs] in H; [inversion H; subst; auto|].
  destruct (walk_entries F (f_walk F e) d) as [[d1|]|] eqn:E; cbn [bind] in H; try discriminate.
  eapply IH; [exact H|]. eapply clear_walk_entries; eauto.
Qed.
Lemma clear_walkdir F c m d : walkdir T F b c = Ok (Some (m, d)) -> clear (ls_actions d).
Proof.
  unfold walkdir. destruct (walk_dirs F _ _) as [[d1|]|] eqn:E; cbn [bind]; try discriminate.
  destruct (read_trees F b d1); cbn [bind]; [|discriminate]. intros H; inversion H; subst.
  eapply clear_walk_dirs; [exact E|]. unfold walk_init, update_backend. destruct (String.eqb _ _); intros k v Hk; discriminate.
Qed.

Lemma actions_apply_edits uri l edits : forall d, ls_actions (apply_edits uri l edits d) = ls_actions d.
Proof.
  unfold apply_edits. induction edits as [|e edits IH]; intros d; [reflexivity|]. cbn [fold_left]. rewrite IH.
  unfold input_edit_tree. destruct l as [l|]; [|reflexivity].
  destruct (sget uri (trees_of l d)); [|reflexivity]. destruct (parse _ _ _ _); now destruct l.
Qed.
Lemma step_actions F s m s' es : step F url b s m = Ok (s', es) ->
  match m with
  | MCodeActions a => ls_actions (tk_data s') = put a (ls_actions (tk_data s)) /\ handed es = []
  | MDidOpen u _ | MDidSave u =>
      (forall k, k <> u -> sget k (ls_actions (tk_data s')) = sget k (ls_actions (tk_data s))) /\
      (ls_actions (tk_data s') = ls_actions (tk_data s) \/ exists v, In [(u, v)] (handed es))
  | MInitialized => (ls_actions (tk_data s') = ls_actions (tk_data s) \/ clear (ls_actions (tk_data s')))
  | _ => ls_actions (tk_data s') = ls_actions (tk_data s) /\ handed es = []
  end.
Proof.
  intros H. destruct m; cbn [step] in H.
  - inversion H; subst. split; [|reflexivity]. cbn. destruct client; [|reflexivity]. now destruct (String.eqb _ _).
  - unfold do_initialized in H. destruct (negb _); [inversion H; subst; now left|].
    destruct (walkdir T F b (tk_config s)) as [[[m d]|]|] eqn:Ew; cbn [bind] in H; [| |discriminate]; inversion H; subst; [|now left].
    right. cbn. eapply clear_walkdir; eauto.
  - destruct (did_open F b uri t false (tk_data s)) as [[d r]|] eqn:E; cbn [bind] in H; [|discriminate].
    inversion H; subst. cbn [fst snd with_data tk_data]. apply did_open_actions in E. destruct E as (E1 & E2 & E3). split; [exact E2|].
    destruct E1 as [E1|E1]; [now left|]. destruct r as [x|]; [|congruence]. right.
    destruct (E3 x eq_refl) as (v & ->). exists v. now left.
  - destruct (did_change (tk_next s) uri cs (tk_data s)) as [[d r]|] eqn:E; cbn [bind snd fst] in H; [|discriminate].
    assert (Ha : ls_actions d = ls_actions (tk_data s)).
    { unfold did_change in E. destruct (sget uri (ls_docs (tk_data s))) as [t|]; [|inversion E; subst; reflexivity].
      destruct (apply_changes t cs) as [[[t2 early] edits]|]; [|discriminate]. cbn [bind] in E.
      destruct early; inversion E; subst; [reflexivity|]. cbn.
      now rewrite actions_apply_edits. }
    destruct r as [te|]; inversion H; subst; (split; [exact Ha|]); [|reflexivity]. now destruct (te_abort te).
  - destruct (did_save F b uri (tk_data s)) as [[d r]|] eqn:E; cbn [bind] in H; [|discriminate].
    inversion H; subst. cbn [fst snd with_data tk_data]. apply did_save_actions in E. destruct E as (E1 & E2 & E3). split; [exact E2|].
    destruct E1 as [E1|E1]; [now left|]. destruct r as [x|]; [|congruence]. right.
    destruct (E3 x eq_refl) as (v & ->). exists v. now left.
  - destruct (do_completion b uri pos ctx (tk_data s)) as [r|]; cbn [bind] in H; [|discriminate]. now inversion H; subst.
  - destruct (do_hover b uri pos (tk_data s)) as [r|]; cbn [bind] in H; [|discriminate]. now inversion H; subst.
  - destruct (goto_definition F url b uri pos (tk_data s)) as [r|]; cbn [bind] in H; [|discriminate]. inversion H; subst. now destruct r.
  - destruct (code_action b uri start (tk_data s)) as [[a|]|]; cbn [bind] in H; [| |discriminate].
    + destruct (process_code_actions F url a (tk_data s)) as [p|]; cbn [bind] in H; [|discriminate].
      destruct (snd p); now inversion H; subst.
    + now inversion H; subst.
  - destruct (String.eqb cmd "reset_variables"); now inversion H; subst.
  - inversion H; subst. now destruct (document_symbols uri (tk_data s')).
  - inversion H; subst. now destruct (cf_user _).
  - inversion H; subst. split; reflexivity.
Qed.
Lemma step_handed F s m s' es : step F url b s m = Ok (s', es) -> handed es <> [] -> lints m.
Proof. intros H Hne. apply step_actions in H. destruct m; cbn; auto; destruct H as (_ & H); contradiction. Qed.
Lemma handed_close m es : handed (with_close m es) = handed es.
Proof.
  unfold with_close. destruct (msg_rid m); [|reflexivity]. destruct (existsb _ _); [reflexivity|].
  rewrite handed_app. apply app_nil_r.
Qed.
Lemma quiet_trace s0 ms s tr : replay url b s0 ms = Ok (s, tr) -> (forall m, In m (map fst ms) -> ~ lints m) ->
  handed (effects_of tr) = [].
Proof.
  revert s0 tr. induction ms as [|[m F] ms IH]; intros s0 tr H Hl; cbn [replay] in H; [inversion H; reflexivity|].
  destruct (step F url b s0 m) as [[s1 es]|] eqn:Es; [|discriminate].
  destruct (replay url b s1 ms) as [[s2 tr2]|] eqn:Er; [|discriminate]. inversion H; subst.
  cbn [effects_of flat_map fst snd]. rewrite handed_app, handed_close.
  fold (effects_of tr2). rewrite (IH _ _ Er); [|intros x Hx; apply Hl; now right]. rewrite app_nil_r.
  destruct (handed es) eqn:E; [reflexivity|]. exfalso. apply (Hl m); [now left|]. eapply step_handed; [exact Es|congruence].
Qed.

(** ** The invariant *)
Definition diag_acts (x : dstatus) : smap (list identifier) :=
  match x with DPublish _ acts | DSend acts => acts | _ => [] end.
Definition unpublished y : list diag_msg :=
  handed (pending y) ++ y_diagq y ++ match y_diag y with DPublish rest _ => [rest] | _ => [] end.
Definition waits u y : Prop := exists dm e, In dm (unpublished y) /\ In (u, e) dm.
(** The code actions once everything already published is processed. *)
Definition eventual y s : smap (list identifier) :=
  put (diag_acts (y_diag y)) (put_queue (y_lspq y) (ls_actions (tk_data s))).
Definition matches (v : option (list identifier)) (p : option (list diagnostic)) : Prop :=
  match p with
  | None => v = None \/ v = Some []
  | Some ds => exists e, ds = publish_of e /\ v = Some (missing_of e)
  end.
Definition agree y s : Prop :=
  forall u, waits u y \/ matches (sget u (eventual y s)) (last_published u (y_published y)).

Lemma agree_ext y y' s : agree y s -> unpublished y' = unpublished y -> eventual y' s = eventual y s ->
  y_published y' = y_published y -> agree y' s.
Proof. intros H E1 E2 E3 u. unfold waits. rewrite E1, E2, E3. apply H. Qed.
Lemma agree_send m y y' s : agree y s -> alive y -> code_actions_in [m] = [] -> send_lsp m y = Some y' -> agree y' s.
Proof.
  intros H Ha Hm Hs. destruct (send_alive _ _ _ Ha Hs) as (_ & ->). apply (agree_ext y); auto.
  unfold eventual. cbn [y_diag y_lspq]. rewrite put_queue_app. now rewrite (put_queue_none [m]).
Qed.
Lemma quiet_start l y s tr : exec url b (sys0 T) l = Some y -> alive y -> y_diag y <> DDead ->
  replay url b (task0 T) (y_taken y) = Ok (s, tr) -> (forall m, In m (map fst (y_taken y)) -> ~ lints m) ->
  y_published y = [] /\ y_diag y = DIdle /\ y_diagq y = [] /\ code_actions_in (y_lspq y) = [].
Proof.
  intros H Ha Hd Hr Hl. destruct (inv_reach url b l y H Ha) as (s' & tr' & perf & pend & I). destruct I.
  rewrite Hr in iv_replay. inversion iv_replay; subst s' tr'.
  pose proof (quiet_trace _ _ _ _ Hr Hl) as Hq. rewrite iv_effects, handed_app in Hq. apply app_eq_nil in Hq. destruct Hq as (Hq & _).
  destruct (iv_diag Hd) as (dn & d0 & rest & cur & H1 & H2 & H3 & _ & _ & H6).
  rewrite Hq in H2. symmetry in H2. apply app_eq_nil in H2. destruct H2 as (-> & H2). apply app_eq_nil in H2. destruct H2 as (-> & H2).
  assert (Hidle : y_diag y = DIdle /\ d0 = []).
  { destruct (y_diag y) eqn:Ed; cbn in H1.
    - destruct H1 as (_ & -> & _). auto.
    - destruct H1 as (H1 & _). discriminate.
    - destruct H1 as (H1 & _). discriminate.
    - destruct H1. }
  destruct Hidle as (Hidle & ->). repeat split; auto.
  rewrite iv_enq, code_actions_app in H6. apply app_eq_nil in H6. tauto.
Qed.
Lemma indexed_first_prefix a c : indexed_first (a ++ c) -> indexed_first a.
Proof.
  intros H p q E m Hm. apply (H p (q ++ c)); [|exact Hm]. rewrite E, <- app_assoc. reflexivity.
Qed.
Lemma pending_busy y s es : y_task y = TBusy s es -> pending y = es.
Proof. unfold pending. now intros ->. Qed.

Lemma agree_take l y s tr m q F s' es :
  exec url b (sys0 T) l = Some y -> y_diag y <> DDead -> replay url b (task0 T) (y_taken y) = Ok (s, tr) ->
  agree y s -> y_task y = TIdle s -> y_lspq y = m :: q -> step F url b s m = Ok (s', es) ->
  indexed_first (map fst (y_taken y) ++ [m]) ->
  agree (mksys (TBusy s' (with_close m es)) q (y_diagq y) (y_diag y) (y_timers y)
          (y_enq y) (y_taken y ++ [(m, F)]) (y_replies y) (y_published y)) s'.
Proof.
  intros Hex Hd Hr J Et Eq Es Hix.
  assert (Ha : alive y) by (intros E; rewrite Et in E; discriminate).
  set (y' := mksys _ _ _ _ _ _ _ _ _).
  assert (Ep : pending y = []) by (unfold pending; now rewrite Et).
  assert (Hun : forall x, In x (unpublished y) -> In x (unpublished y')).
  { unfold unpublished. rewrite Ep. cbn [handed flat_map app]. intros x Hx. apply in_or_app. now right. }
  assert (Hnew : forall x, In x (handed es) -> In x (unpublished y')).
  { intros x Hx. unfold unpublished. apply in_or_app. left. cbn. now rewrite handed_close. }
  assert (Hkeep : forall u, sget u (eventual y' s') = sget u (eventual y s) ->
     waits u y' \/ matches (sget u (eventual y' s')) (last_published u (y_published y'))).
  { intros u Hu. destruct (J u) as [(dd & e & H1 & H2)|Hm].
    - left. exists dd, e. auto.
    - right. rewrite Hu. exact Hm. }
  assert (Hev : forall u, code_actions_in [m] = [] -> sget u (ls_actions (tk_data s')) = sget u (ls_actions (tk_data s)) ->
     sget u (eventual y' s') = sget u (eventual y s)).
  { intros u Hm Hu. unfold eventual. cbn [y' y_diag y_lspq]. apply put_cong. rewrite Eq.
    change (m :: q) with ([m] ++ q). rewrite put_queue_app, (put_queue_none [m]) by exact Hm. now apply put_queue_cong. }
  pose proof (step_actions F s m s' es Es) as Hst. intros u.
  destruct m.
  - apply Hkeep, Hev; [reflexivity|]. now rewrite (proj1 Hst).
  - destruct Hst as [Hst|Hst]; [apply Hkeep, Hev; [reflexivity|]; now rewrite Hst|].
    assert (Hl : forall m, In m (map fst (y_taken y)) -> ~ lints m).
    { intros m Hm. apply (Hix (map fst (y_taken y)) [] eq_refl m Hm). }
    destruct (quiet_start l y s tr Hex Ha Hd Hr Hl) as (P1 & P2 & P3 & P4).
    right. cbn [y' y_published]. rewrite P1. cbn. unfold eventual. cbn [y' y_diag y_lspq]. rewrite P2. cbn [diag_acts put fold_left].
    rewrite Eq in P4. cbn in P4. rewrite (put_queue_none q) by exact P4.
    destruct (sget u (ls_actions (tk_data s'))) as [v|] eqn:Ev; [|now left]. right. f_equal. eapply Hst; eauto.
  - destruct Hst as (H1 & H2). destruct (string_dec u uri) as [->|Hne]; [|apply Hkeep, Hev; auto].
    destruct H2 as [H2|(v & H2)]; [apply Hkeep, Hev; auto; now rewrite H2|]. left. exists [(uri, v)], v. split; [auto|now left].
  - apply Hkeep, Hev; [reflexivity|]. now rewrite (proj1 Hst).
  - destruct Hst as (H1 & H2). destruct (string_dec u uri) as [->|Hne]; [|apply Hkeep, Hev; auto].
    destruct H2 as [H2|(v & H2)]; [apply Hkeep, Hev; auto; now rewrite H2|]. left. exists [(uri, v)], v. split; [auto|now left].
  - apply Hkeep, Hev; [reflexivity|]. now rewrite (proj1 Hst).
  - apply Hkeep, Hev; [reflexivity|]. now rewrite (proj1 Hst).
  - apply Hkeep, Hev; [reflexivity|]. now rewrite (proj1 Hst).
  - apply Hkeep, Hev; [reflexivity|]. now rewrite (proj1 Hst).
  - apply Hkeep, Hev; [reflexivity|]. now rewrite (proj1 Hst).
  - apply Hkeep, Hev; [reflexivity|]. now rewrite (proj1 Hst).
  - apply Hkeep, Hev; [reflexivity|]. now rewrite (proj1 Hst).
  - apply Hkeep. unfold eventual. cbn [y' y_diag y_lspq]. rewrite Eq, (proj1 Hst). reflexivity.
Qed.

Lemma agree_reach (Hurl : forall u v, url u = Some v -> v = u) l y :
  exec url b (sys0 T) l = Some y -> alive y -> y_diag y <> DDead -> indexed_first (map fst (y_taken y)) ->
  exists s tr, state_is y s /\ replay url b (task0 T) (y_taken y) = Ok (s, tr) /\ agree y s.
Proof.
  revert l y. apply (exec_ind url b (fun l y => alive y -> y_diag y <> DDead -> indexed_first (map fst (y_taken y)) ->
    exists s tr, state_is y s /\ replay url b (task0 T) (y_taken y) = Ok (s, tr) /\ agree y s)).
  { intros _ _ _. exists (task0 T), []. split; [now left|]. split; [reflexivity|]. intros u. right. now left. }
  intros l y a y' Hex IH Hact Ha' Hd' Hix'.
  assert (Ha : alive y) by (intros E; apply Ha'; eapply act_dead; eauto).
  assert (Hst : y_task y' = y_task y -> y_taken y' = y_taken y -> y_diag y <> DDead ->
    (forall s, agree y s -> agree y' s) ->
    exists s tr, state_is y' s /\ replay url b (task0 T) (y_taken y') = Ok (s, tr) /\ agree y' s).
  { intros E1 E2 E3 E4. rewrite E2 in Hix'. destruct (IH Ha E3 Hix') as (s & tr & H1 & H2 & H3).
    exists s, tr. unfold state_is. rewrite E1, E2. auto. }
  destruct a; cbn [act] in Hact.
  - assert (Hs : code_actions_in [m] = [] /\ send_lsp m y = Some y') by (destruct m; try discriminate; split; auto).
    destruct Hs as (Hm & Hs). pose proof (send_alive _ _ _ Ha Hs) as (_ & Ey).
    apply Hst; [now rewrite Ey|now rewrite Ey|rewrite Ey in Hd'; exact Hd'|]. intros s J. eapply agree_send; eauto.
  - destruct (y_task y) as [s0| |] eqn:Et; try discriminate. destruct (y_lspq y) as [|m q] eqn:Eq; [discriminate|].
    destruct (step F url b s0 m) as [[s' es]|] eqn:Es; inversion Hact; subst y'; [|now elim Ha'].
    cbn [y_taken y_diag] in *. rewrite map_app in Hix'. cbn [map fst] in Hix'.
    destruct (IH Ha Hd' (indexed_first_prefix _ _ Hix')) as (s & tr & H1 & H2 & H3).
    assert (s0 = s) by (destruct H1 as [E|(x & E)]; congruence). subst s0.
    exists s', (tr ++ [(m, es)]). split; [right; cbn; eauto|]. split; [eapply replay_snoc; eauto|].
    eapply agree_take; eauto.
  - destruct (y_task y) as [s0|s0 es|] eqn:Et; try discriminate.
    assert (Hbusy : forall es', y_task y' = TBusy s0 es' \/ y_task y' = TIdle s0 /\ es' = [] ->
      y_taken y' = y_taken y -> y_diag y <> DDead -> (forall s, agree y s -> agree y' s) ->
      exists s tr, state_is y' s /\ replay url b (task0 T) (y_taken y') = Ok (s, tr) /\ agree y' s).
    { intros es' E1 E2 E3 E4. rewrite E2 in Hix'. destruct (IH Ha E3 Hix') as (s & tr & H1 & H2 & H3).
      assert (s0 = s) by (destruct H1 as [E|(x & E)]; congruence). subst s0.
      exists s, tr. rewrite E2. split; [|auto]. destruct E1 as [E1|(E1 & _)]; [right; eauto|now left]. }
    destruct es as [|e es].
    { inversion Hact; subst y'. apply (Hbusy []); auto. intros s J. apply (agree_ext y); auto.
      unfold unpublished. cbn. unfold pending. cbn. now rewrite Et. }
    assert (Hquiet : handed [e] = [] -> pending y' = es -> y_diagq y' = y_diagq y -> y_diag y' = y_diag y ->
       (forall M, put_queue (y_lspq y') M = put_queue (y_lspq y) M) -> y_published y' = y_published y -> forall s, agree y s -> agree y' s).
    { intros E1 E2 E3 E4 E5 E6 s J. apply (agree_ext y); auto.
      - unfold unpublished. rewrite E2, E3, E4, (pending_busy y s0 (e :: es) Et). change (e :: es) with ([e] ++ es).
        now rewrite handed_app, E1.
      - unfold eventual. now rewrite E4, E5. }
    destruct e as [d|m|r a|t|t k c u|g]; cbn [do_effect] in Hact.
    + assert (Hnd : y_diag y <> DDead).
      { intros Ed. rewrite Ed in Hact. inversion Hact; subst y'. cbn in Hd'. congruence. }
      assert (Hy' : y' = mksys (TBusy s0 es) (y_lspq y) (y_diagq y ++ [d]) (y_diag y) (y_timers y) (y_enq y)
                    (y_taken y) (y_replies y) (y_published y)).
      { destruct (y_diag y) eqn:Ed; try (destruct (Nat.ltb _ _); [|discriminate]; inversion Hact; reflexivity). congruence. }
      subst y'. apply (Hbusy es); auto. intros s J u. destruct (J u) as [(dd & e & H1 & H2)|Hm]; [left|right; exact Hm].
      exists dd, e. split; [|exact H2]. unfold unpublished in *. rewrite (pending_busy y s0 _ Et) in H1. cbn in *.
      destruct H1 as [<-|H1].
      * apply in_or_app. right. apply in_or_app. left. apply in_or_app. right. now left.
      * apply in_app_or in H1. apply in_or_app. destruct H1 as [H1|H1]; [now left|]. right.
        apply in_app_or in H1. apply in_or_app. destruct H1 as [H1|H1]; [left; apply in_or_app; now left|now right].
    + destruct (Nat.ltb _ _); [|discriminate]. inversion Hact; subst y'. cbn [y_diag] in Hd'.
      apply (Hbusy es); auto. apply Hquiet; auto. cbn [y_lspq].
      destruct (inv_reach url b l y Hex Ha) as (s1 & tr1 & perf & pend & I).
      destruct (iv_task _ _ _ _ _ _ _ I) as [(E & _)|E]; rewrite Et in E; [discriminate|]. inversion E; subst s1 pend.
      pose proof (iv_self _ _ _ _ _ _ _ I) as Hsf. inversion Hsf as [|? ? Hs1 _]; subst.
      intros M. now rewrite put_queue_app.
    + inversion Hact; subst y'. apply (Hbusy es); auto.
    + inversion Hact; subst y'. apply (Hbusy es); auto.
    + inversion Hact; subst y'. apply (Hbusy es); auto.
    + inversion Hact; subst y'. apply (Hbusy es); auto.
  - destruct (y_diag y) eqn:Ed; try discriminate. destruct (y_diagq y) as [|d q] eqn:Eq; inversion Hact; subst y'.
    apply Hst; auto; [congruence|]. intros s J u. destruct (J u) as [(dd & e & H1 & H2)|Hm]; [left|right].
    + exists dd, e. split; [|exact H2]. unfold unpublished in *. rewrite Ed, Eq in H1. cbn in *. unfold pending in *. cbn in *.
      apply in_app_or in H1. apply in_or_app. destruct H1 as [H1|[<-|H1]]; [now left| |].
      * right. apply in_or_app. right. now left.
      * right. apply in_or_app. left. now rewrite app_nil_r in H1.
    + unfold eventual in *. rewrite Ed in Hm. exact Hm.
  - destruct (y_diag y) as [|rest acts|acts|] eqn:Ed; try discriminate.
    destruct rest as [|[u0 e0] rest].
    + inversion Hact; subst y'. apply Hst; auto; [congruence|]. intros s J u.
      destruct (J u) as [(dd & e & H1 & H2)|Hm]; [left|right].
      * exists dd, e. split; [|exact H2]. unfold unpublished in *. rewrite Ed in H1. cbn in *. unfold pending in *. cbn in *.
        apply in_app_or in H1. apply in_or_app. destruct H1 as [H1|H1]; [now left|right].
        apply in_app_or in H1. apply in_or_app. destruct H1 as [H1|[<-|[]]]; [now left|destruct H2].
      * unfold eventual in *. rewrite Ed in Hm. exact Hm.
    + destruct (url u0) as [v|] eqn:Eu; inversion Hact; subst y'; [|now elim Hd'].
      apply Hurl in Eu. subst v. apply Hst; auto; [congruence|]. intros s J u.
      assert (Hacts : NoDup (map fst acts)).
      { destruct (inv_reach url b l y Hex Ha) as (s1 & tr1 & perf & pend & I).
        destruct (iv_diag _ _ _ _ _ _ _ I) as (dn & d0 & rr & cur & H1 & _); [congruence|]. rewrite Ed in H1. cbn in H1.
        destruct H1 as (_ & _ & ->). apply acts_nodup. }
      cbn [y_published]. rewrite last_published_snoc.
      assert (Hev : sget u (eventual (mksys (y_task y) (y_lspq y) (y_diagq y) (DPublish rest (sinsert u0 (missing_of e0) acts))
                (y_timers y) (y_enq y) (y_taken y) (y_replies y) (y_published y ++ [(u0, publish_of e0)])) s) =
             if String.eqb u u0 then Some (missing_of e0) else sget u (eventual y s)).
      { unfold eventual. cbn [y_diag y_lspq diag_acts]. rewrite (put_insert acts u0 _ _ u Hacts). rewrite Ed. reflexivity. }
      rewrite Hev. rewrite (String.eqb_sym u0 u). destruct (String.eqb u u0) eqn:E.
      * right. cbn. eauto.
      * destruct (J u) as [(dd & e & H1 & H2)|Hm]; [left|right; exact Hm].
        apply String.eqb_neq in E. unfold waits, unpublished in *. rewrite Ed in H1. cbn in *. unfold pending in *. cbn in *.
        apply in_app_or in H1. destruct H1 as [H1|H1]; [exists dd, e; split; [apply in_or_app; now left|exact H2]|].
        apply in_app_or in H1. destruct H1 as [H1|[<-|[]]].
        -- exists dd, e. split; [apply in_or_app; right; apply in_or_app; now left|exact H2].
        -- destruct H2 as [H2|H2]; [inversion H2; congruence|]. exists rest, e. split; [|exact H2].
           apply in_or_app. right. apply in_or_app. right. now left.
  - destruct (y_diag y) as [|rest acts|acts|] eqn:Ed; try discriminate.
    destruct (send_lsp (MCodeActions acts) y) as [y1|] eqn:Es; [|discriminate]. inversion Hact; subst y'.
    destruct (send_alive _ _ _ Ha Es) as (_ & ->). apply Hst; auto; [congruence|]. intros s J. apply (agree_ext y); auto.
    + unfold unpublished. cbn. unfold pending. cbn. now rewrite Ed.
    + unfold eventual. cbn [y_diag y_lspq]. rewrite Ed, put_queue_app. reflexivity.
  - destruct (find _ (y_timers y)) as [x|]; [|discriminate].
    set (y1 := mksys _ _ _ _ _ _ _ _ _) in Hact.
    assert (J1 : forall s, agree y s -> agree y1 s) by (intros s J; apply (agree_ext y); auto).
    destruct (tm_chan x).
    + destruct (send_alive _ y1 _ Ha Hact) as (_ & Ey). apply Hst; [now rewrite Ey|now rewrite Ey|rewrite Ey in Hd'; exact Hd'|].
      intros s J. apply (agree_send (MDidSave (tm_uri x)) y1); auto.
    + inversion Hact; subst y'. apply Hst; auto.
Qed.

Lemma publish_missing e : missing_places (publish_of e) = map (fun i => to_range (id_start i, id_end i)) (missing_of e).
Proof.
  unfold missing_places, publish_of, missing_of. induction e as [|[k i] e IH]; [reflexivity|].
  destruct k; cbn in *; try exact IH. f_equal. exact IH.
Qed.
Theorem actions_agree (Hurl : forall u v, url u = Some v -> v = u) l y s :
  exec url b (sys0 T) l = Some y -> at_rest y -> y_task y = TIdle s -> indexed_first (map fst (y_taken y)) ->
  forall u, match last_published u (y_published y) with
            | None => sget u (ls_actions (tk_data s)) = None \/ sget u (ls_actions (tk_data s)) = Some []
            | Some ds => exists ids, sget u (ls_actions (tk_data s)) = Some ids /\
                map (fun i => to_range (id_start i, id_end i)) ids = missing_places ds
            end.
Proof.
  intros Hex (_ & Hq & Hdq & Hd & Ht) Et Hix u.
  assert (Ha : alive y) by (intros E; rewrite Et in E; discriminate).
  destruct (agree_reach Hurl l y Hex Ha) as (s' & tr & H1 & _ & J); [congruence|exact Hix|].
  assert (s' = s) by (destruct H1 as [E|(x & E)]; congruence). subst s'.
  destruct (J u) as [(dm & e & H2 & _)|Hm].
  - unfold unpublished, pending in H2. rewrite Et, Hdq, Hd in H2. destruct H2.
  - unfold eventual in Hm. rewrite Hd, Hq in Hm. cbn in Hm. destruct (last_published u (y_published y)); [|exact Hm].
    destruct Hm as (e & -> & Hm). exists (missing_of e). split; [exact Hm|]. symmetry. apply publish_missing.
Qed.
End Actions.
