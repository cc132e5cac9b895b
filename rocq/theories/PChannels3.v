(** * PChannels3: refresh timers and code actions (C45-C47). *)
From Coq Require Import Wf_nat.
From Verif Require Import Base RString Utf8 Rope Types Captures.
From Verif Require Import MDefinition MObjects MTemplates MSearchErrors MLspFiles MLspTask MChannels.
From Verif Require Import SpecText SpecFiles PText PUtf8 PFiles SpecOrder POrder.
From Verif Require Import SpecChannels PChannels PChannels2.

Definition all_timers (es : list effect) : list timer :=
  flat_map (fun e => match e with ETimer t k c u => [mktm t k c u] | _ => [] end) es.
Definition no_abort (es : list effect) : Prop := Forall (fun e => match e with EAbort _ => False | _ => True end) es.
Definition trace_edits (tr : list (msg * list effect)) : list timer := flat_map (fun x => edit_timers (snd x)) tr.

Section Steps.
Context {T : ts} (url : url_parser) (b : build).
Implicit Types (s : task_state T) (d : lsp_files T).

(** ** The timer slot of the state *)
Lemma task_set_trees l m d : ls_task (set_trees l m d) = ls_task d /\ ls_chan (set_trees l m d) = ls_chan d.
Proof. now destruct l. Qed.
Lemma task_input_edit uri c ie l d : ls_task (input_edit_tree uri c ie l d) = ls_task d.
Proof.
  unfold input_edit_tree. destruct l as [l|]; [|reflexivity]. destruct (sget uri (trees_of l d)); [|reflexivity].
  destruct (parse _ _ _ _); [|now destruct l]. destruct l; reflexivity.
Qed.
Lemma task_apply_edits uri l edits : forall d, ls_task (apply_edits uri l edits d) = ls_task d.
Proof.
  unfold apply_edits. induction edits as [|e edits IH]; intros d; [reflexivity|]. cbn [fold_left]. rewrite IH. apply task_input_edit.
Qed.
Lemma task_add_variables uri l c d d' : add_variables uri l c d = Ok d' -> ls_task d' = ls_task d.
Proof.
  unfold add_variables. destruct (sget uri (trees_of l d)) as [tr|].
  2:{ intros H; inversion H; subst; reflexivity. }
  destruct l.
  - destruct (snippets_query _ _ _) as [sn|]; [|discriminate]. cbn [bind]. destruct (sn_error sn).
    { intros H; inversion H; subst; reflexivity. }
    destruct (definition_query _ _ _ _ _) as [df|]; [|discriminate]. cbn [bind]. intros H; inversion H; subst. reflexivity.
  - destruct (backend_definition_query _ _ _ _) as [ids|]; [|discriminate]. cbn [bind].
    destruct (backend_templates_query _ _ _ _) as [tp|]; [|discriminate]. cbn [bind]. intros H; inversion H; subst. reflexivity.
Qed.
Lemma task_add_tree uri l c d : ls_task (add_tree uri l c d) = ls_task d.
Proof. unfold add_tree. destruct (parse _ _ _ _); [now destruct l|reflexivity]. Qed.
Lemma task_delete_variables uri d : ls_task (delete_variables uri d) = ls_task d.
Proof. unfold delete_variables. now destruct (sget uri (ls_vars d)). Qed.
Lemma task_did_save F uri d d' e : did_save F b uri d = Ok (d', e) -> ls_task d' = ls_task d.
Proof.
  unfold did_save. destruct (file_ext uri) as [l|]; [|intros H; inversion H; subst; reflexivity].
  destruct (sget uri (ls_docs d)) as [t|]; [|intros H; inversion H; subst; reflexivity].
  destruct (add_variables _ _ _ _) as [d1|] eqn:E; [|discriminate]. cbn [bind].
  destruct (read_tree F b uri d1); [|discriminate]. cbn [bind]. intros H; inversion H; subst.
  apply task_add_variables in E. rewrite E. apply task_delete_variables.
Qed.
Lemma task_did_open F uri t d d' e : did_open F b uri t false d = Ok (d', e) -> ls_task d' = ls_task d.
Proof.
  unfold did_open. destruct (file_ext uri) as [l|]; [|intros H; inversion H; subst; reflexivity].
  destruct (add_variables _ _ _ _) as [d1|] eqn:E; [|discriminate]. cbn [bind].
  apply task_add_variables in E. rewrite task_add_tree in E. cbn in E. rewrite task_delete_variables in E.
  destruct (read_tree F b uri d1) as [[v|]|]; [| |discriminate]; cbn [bind]; intros H; inversion H; subst; exact E.
Qed.
Lemma task_read_file F p l d d' : read_file F p l d = Ok d' -> ls_task d' = ls_task d.
Proof.
  unfold read_file. destruct (f_canon F p) as [name| |]; try (intros H; inversion H; subst; reflexivity).
  destruct (f_read F name); [|intros H; inversion H; subst; reflexivity].
  intros E. apply task_add_variables in E. rewrite task_add_tree in E. exact E.
Qed.
Lemma task_walk_entries F es : forall d d', walk_entries F es d = Ok (Some d') -> ls_task d' = ls_task d.
Proof.
  induction es as [|e es IH]; intros d d' H; cbn in H; [inversion H; subst; reflexivity|].
  destruct e as [|p|p]; try discriminate; try (now apply IH).
  destruct (file_ext p); [|now apply IH]. destruct (read_file F p l d) as [d1|] eqn:E; [|discriminate]. cbn [bind] in H.
  apply task_read_file in E. rewrite (IH _ _ H). exact E.
Qed.
Lemma task_walk_dirs F ds : forall d d', walk_dirs F ds d = Ok (Some d') -> ls_task d' = ls_task d.
Proof.
  induction ds as [|e es IH]; intros d d' H; cbn [walk_dirs] in H; [inversion H; subst; reflexivity|].
  destruct (walk_entries F (f_walk F e) d) as [[d1|]|] eqn:E; cbn [bind] in H; try discriminate.
  rewrite (IH _ _ H). eapply task_walk_entries; eauto.
Qed.
Lemma task_walkdir F c m d : walkdir T F b c = Ok (Some (m, d)) -> ls_task d = None.
Proof.
  unfold walkdir. destruct (walk_dirs F _ _) as [[d1|]|] eqn:E; cbn [bind]; try discriminate.
  destruct (read_trees F b d1); cbn [bind]; [|discriminate]. intros H; inversion H; subst.
  rewrite (task_walk_dirs _ _ _ _ E). unfold walk_init, update_backend. now destruct (String.eqb _ _).
Qed.

Lemma no_abort_app a c : no_abort (a ++ c) <-> no_abort a /\ no_abort c.
Proof. apply Forall_app. Qed.
Lemma all_timers_app a c : all_timers (a ++ c) = all_timers a ++ all_timers c.
Proof. apply flat_map_app. Qed.
Lemma edit_timers_app a c : edit_timers (a ++ c) = edit_timers a ++ edit_timers c.
Proof. apply flat_map_app. Qed.

(** What a message does to the timers. *)
Lemma step_timers F s m s' es : step F url b s m = Ok (s', es) ->
  (exists u cs c, m = MDidChange u cs /\
     es = (match ls_task (tk_data s) with Some a => [EAbort a] | None => [] end) ++ [ETimer (tk_next s) TimerEdit c u] /\
     tk_next s' = tk_next s + 1 /\ ls_task (tk_data s') = Some (tk_next s))
  \/ (no_abort es /\ edit_timers es = [] /\
      (all_timers es = [] /\ tk_next s' = tk_next s \/
       exists c u, all_timers es = [mktm (tk_next s) TimerAction c u] /\ tk_next s' = tk_next s + 1) /\
      (ls_task (tk_data s') = ls_task (tk_data s) \/ m = MInitialized /\ ls_task (tk_data s') = None)).
Proof.
  intros H. destruct m; cbn [step] in H.
  - right. inversion H; subst. split; [repeat constructor|]. split; [reflexivity|]. split; [now left|]. left. cbn.
    destruct client; [|reflexivity]. now destruct (String.eqb _ _).
  - right. unfold do_initialized in H.
    set (logs := ELog "Initialized" :: _) in H.
    assert (HL : no_abort logs /\ edit_timers logs = [] /\ all_timers logs = []).
    { unfold logs. destruct (cf_user (tk_config s)), (String.eqb (cf_templates (tk_config s)) ""); repeat split; repeat constructor. }
    clearbody logs. destruct HL as (L1 & L2 & L3).
    destruct (negb _).
    { inversion H; subst. rewrite edit_timers_app, all_timers_app, L2, L3. split; [apply no_abort_app; split; [exact L1|repeat constructor]|].
      repeat split; auto. }
    destruct (walkdir T F b (tk_config s)) as [[[m d]|]|] eqn:Ew; cbn [bind] in H; [| |discriminate]; inversion H; subst;
      rewrite edit_timers_app, all_timers_app, L2, L3; (split; [apply no_abort_app; split; [exact L1|repeat constructor]|]); repeat split; auto.
    right. split; [reflexivity|]. cbn. eapply task_walkdir; eauto.
  - right. destruct (did_open F b uri t false (tk_data s)) as [[d r]|] eqn:E; cbn [bind] in H; [|discriminate].
    inversion H; subst. apply task_did_open in E. destruct r; (split; [repeat constructor|]); repeat split; cbn; auto.
  - destruct (did_change (tk_next s) uri cs (tk_data s)) as [[d r]|] eqn:E; cbn [bind snd fst] in H; [|discriminate].
    unfold did_change in E. destruct (sget uri (ls_docs (tk_data s))) as [t|].
    2:{ inversion E; subst. inversion H; subst. right. split; [constructor|]. repeat split; auto. }
    destruct (apply_changes t cs) as [[[t2 early] edits]|]; [|discriminate]. cbn [bind] in E.
    destruct early; inversion E; subst; inversion H; subst.
    + right. split; [constructor|]. repeat split; auto.
    + left. exists uri, cs, (ls_chan (tk_data s)). split; [reflexivity|]. split; [|split; reflexivity].
      cbn [te_abort te_spawn]. now rewrite task_apply_edits.
  - right. destruct (did_save F b uri (tk_data s)) as [[d r]|] eqn:E; cbn [bind] in H; [|discriminate].
    inversion H; subst. apply task_did_save in E. destruct r; (split; [repeat constructor|]); repeat split; cbn; auto.
  - right. destruct (do_completion b uri pos ctx (tk_data s)) as [r|]; cbn [bind] in H; [|discriminate].
    inversion H; subst. split; [repeat constructor|]. repeat split; auto.
  - right. destruct (do_hover b uri pos (tk_data s)) as [r|]; cbn [bind] in H; [|discriminate].
    inversion H; subst. split; [repeat constructor|]. repeat split; auto.
  - right. destruct (goto_definition F url b uri pos (tk_data s)) as [r|]; cbn [bind] in H; [|discriminate].
    inversion H; subst. destruct r; (split; [repeat constructor|]); repeat split; auto.
  - right. destruct (code_action b uri start (tk_data s)) as [[a|]|]; cbn [bind] in H; [| |discriminate].
    + destruct (process_code_actions F url a (tk_data s)) as [p|]; cbn [bind] in H; [|discriminate].
      destruct (snd p); inversion H; subst; (split; [repeat constructor|]); repeat split; auto.
      right. do 2 eexists. split; reflexivity.
    + inversion H; subst. split; [repeat constructor|]. repeat split; auto.
  - right. destruct (String.eqb cmd "reset_variables"); inversion H; subst; (split; [repeat constructor|]); repeat split; auto.
  - right. inversion H; subst. destruct (document_symbols uri (tk_data s')); (split; [repeat constructor|]); repeat split; auto.
  - right. inversion H; subst. destruct (cf_user _); (split; [repeat constructor|]); repeat split; auto.
  - right. inversion H; subst. split; [repeat constructor|]. repeat split; auto.
Qed.
Lemma close_timers m es : all_timers (with_close m es) = all_timers es /\ edit_timers (with_close m es) = edit_timers es /\
  (no_abort es -> no_abort (with_close m es)) /\ (msg_rid m = None -> with_close m es = es).
Proof.
  unfold with_close. destruct (msg_rid m); [|auto]. destruct (existsb _ _); [repeat split; auto; discriminate|].
  rewrite all_timers_app, edit_timers_app. cbn. rewrite !app_nil_r. repeat split; [|discriminate].
  intros H. apply no_abort_app. split; [exact H|repeat constructor].
Qed.
End Steps.

(** ** The number of re-indexings after an edit *)
Definition seen_edit (ms : list msg) : bool := existsb (fun m => match m with MDidChange _ _ => true | _ => false end) ms.
Lemma late_snoc ms : forall seen m, late_reloads seen (ms ++ [m]) =
  (late_reloads seen ms + match m with MInitialized => if seen || seen_edit ms then 1 else 0 | _ => 0 end)%nat.
Proof.
  induction ms as [|a ms IH]; intros seen m; [destruct m; cbn; try reflexivity; destruct seen; reflexivity|].
  cbn [app]. destruct a; cbn [late_reloads seen_edit existsb orb]; rewrite IH; try reflexivity.
  - apply Nat.add_assoc.
  - now rewrite orb_true_r.
Qed.

Section Timers.
Context {T : ts} (url : url_parser) (b : build).
Implicit Types (y : sys T) (s : task_state T).

Definition pending y : list effect := match y_task y with TBusy _ es => es | _ => [] end.
Definition state_is y s : Prop := y_task y = TIdle s \/ exists es, y_task y = TBusy s es.
(** The timer that the state regards as the current one. *)
Definition current (pend : list effect) s (t : N) : Prop :=
  match pend with
  | EAbort a :: _ => t = a
  | _ => edit_timers pend = [] /\ ls_task (tk_data s) = Some t
  end.

Record tinv y s (tr : list (msg * list effect)) : Prop := mktinv {
  ti_state : state_is y s;
  ti_replay : replay url b (task0 T) (y_taken y) = Ok (s, tr);
  ti_last : pending y = [] \/ exists tr0 m es pre, tr = tr0 ++ [(m, es)] /\ with_close m es = pre ++ pending y;
  ti_nodup : NoDup (map tm_id (y_timers y ++ all_timers (pending y)));
  ti_bound : forall x, In x (y_timers y ++ all_timers (pending y)) -> tm_id x < tk_next s;
  ti_live : forall x, In x (y_timers y) -> is_edit x = true -> In x (trace_edits tr);
  ti_trace : NoDup (map tm_id (trace_edits tr));
  ti_trace_bound : forall x, In x (trace_edits tr) -> tm_id x < tk_next s;
  ti_cur : forall t, ls_task (tk_data s) = Some t -> exists pre c u, trace_edits tr = pre ++ [mktm t TimerEdit c u];
  ti_shape : no_abort (pending y) \/ exists a t c u, pending y = [EAbort a; ETimer t TimerEdit c u];
  ti_orphans : exists O, (length O <= late_reloads false (map fst (y_taken y)))%nat /\
    forall x, In x (y_timers y) -> is_edit x = true -> In (tm_id x) O \/ current (pending y) s (tm_id x);
  ti_refresh : forall p m es q t u, tr = p ++ (m, es) :: q -> In (ETimer t TimerEdit true u) es -> trace_edits q = [] ->
    In (ETimer t TimerEdit true u) (pending y) \/ In (mktm t TimerEdit true u) (y_timers y) \/
    In (MDidSave u) (y_lspq y) \/ In (MDidSave u) (map fst q) }.

Lemma tinv0 : tinv (sys0 T) (task0 T) [].
Proof.
  constructor; cbn.
  - now left.
  - reflexivity.
  - now left.
  - constructor.
  - tauto.
  - tauto.
  - constructor.
  - tauto.
  - discriminate.
  - left. constructor.
  - exists []. split; [apply Nat.le_0_l|tauto].
  - intros p m es q t u H. symmetry in H. apply app_eq_nil in H. destruct H; discriminate.
Qed.
Lemma tinv_ext y y' s tr : tinv y s tr -> y_task y' = y_task y -> y_timers y' = y_timers y -> y_taken y' = y_taken y ->
  incl (y_lspq y) (y_lspq y') -> tinv y' s tr.
Proof.
  intros I E1 E2 E3 Hi. destruct I. assert (Ep : pending y' = pending y) by (unfold pending; now rewrite E1).
  constructor; rewrite ?Ep, ?E2, ?E3; auto.
  - unfold state_is in *. now rewrite E1.
  - intros p m es q t u H1 H2 H3. destruct (ti_refresh0 p m es q t u H1 H2 H3) as [H|[H|[H|H]]]; auto.
Qed.
Lemma edit_all es x : In x (edit_timers es) -> In x (all_timers es) /\ is_edit x = true.
Proof.
  induction es as [|e es IH]; [now intros []|]. intros H. destruct e; cbn in *; try (now apply IH).
  destruct k; [|split; [right|]; now apply IH]. destruct H as [<-|H]; [split; [now left|reflexivity]|].
  destruct (IH H). auto.
Qed.
Lemma trace_edits_app a c : trace_edits (a ++ c) = trace_edits a ++ trace_edits c.
Proof. apply flat_map_app. Qed.
Lemma trace_edits_snoc tr m es : trace_edits (tr ++ [(m, es)]) = trace_edits tr ++ edit_timers es.
Proof. rewrite trace_edits_app. unfold trace_edits at 2. cbn [flat_map snd]. now rewrite app_nil_r. Qed.
Lemma edit_in es t c u : In (ETimer t TimerEdit c u) es -> In (mktm t TimerEdit c u) (edit_timers es).
Proof. intros H. apply in_flat_map. exists (ETimer t TimerEdit c u). split; [exact H|now left]. Qed.
Lemma nodup_app_l {A} (l1 l2 : list A) : NoDup (l1 ++ l2) -> NoDup l1.
Proof. induction l1; intros H; [constructor|]. inversion H; subst. constructor; [|auto]. intros Hi. apply H2. apply in_or_app. now left. Qed.
Lemma nodup_snoc {A} (l : list A) x : NoDup l -> ~ In x l -> NoDup (l ++ [x]).
Proof.
  induction l as [|a l IH]; cbn; intros H Hx; [repeat constructor; tauto|]. inversion H; subst. constructor.
  - intros Hi. apply in_app_or in Hi. destruct Hi as [Hi|[Hi|[]]]; [contradiction|]. apply Hx. now left.
  - apply IH; [assumption|]. tauto.
Qed.
Lemma nodup_filter {A B} (f : A -> B) (g : A -> bool) l : NoDup (map f l) -> NoDup (map f (filter g l)).
Proof.
  induction l; cbn; intros H; [constructor|]. inversion H; subst. destruct (g a); cbn; [|auto]. constructor; [|auto].
  intros Hi. apply H2. apply in_map_iff in Hi. destruct Hi as (x & E & Hx). apply filter_In in Hx. apply in_map_iff. exists x. tauto.
Qed.
Lemma nodup_filter_app {A B} (f : A -> B) (g : A -> bool) l r : NoDup (map f (l ++ r)) -> NoDup (map f (filter g l ++ r)).
Proof.
  induction l; cbn; intros H; [exact H|]. inversion H; subst. destruct (g a); cbn; [|auto]. constructor; [|auto].
  intros Hi. apply H2. apply in_map_iff in Hi. destruct Hi as (x & E & Hx). apply in_map_iff. exists x. split; [exact E|].
  apply in_app_or in Hx. apply in_or_app. destruct Hx as [Hx|Hx]; [left; apply filter_In in Hx; tauto|auto].
Qed.
Lemma nodup_same {A} (f : A -> N) l (x y : A) : NoDup (map f l) -> In x l -> In y l -> f x = f y -> x = y.
Proof.
  induction l as [|a l IH]; intros H Hx Hy E; [destruct Hx|]. cbn in H. inversion H; subst.
  assert (Hin : forall z, In z l -> In (f z) (map f l)) by (intros; now apply in_map).
  destruct Hx as [->|Hx], Hy as [->|Hy]; auto; [exfalso; apply H2; rewrite E; auto|exfalso; apply H2; rewrite <- E; auto].
Qed.
Lemma seen_trace tr x : In x (trace_edits tr) ->
  (forall m es, In (m, es) tr -> edit_timers es <> [] -> exists u cs, m = MDidChange u cs) ->
  seen_edit (map fst tr) = true.
Proof.
  intros H Hm. unfold trace_edits in H. apply in_flat_map in H. destruct H as ((m & es) & Hi & He). cbn [snd] in He.
  destruct (Hm m es Hi) as (u & cs & ->); [intros E; rewrite E in He; destruct He|].
  apply existsb_exists. exists (MDidChange u cs). split; [|reflexivity]. apply in_map_iff. now exists (MDidChange u cs, es).
Qed.
Lemma replay_edits s0 ms s tr : replay url b s0 ms = Ok (s, tr) ->
  forall m es, In (m, es) tr -> edit_timers es <> [] -> exists u cs, m = MDidChange u cs.
Proof.
  revert s0 tr. induction ms as [|[m0 F0] ms IH]; intros s0 tr H m es Hi He; cbn [replay] in H.
  - inversion H; subst. destruct Hi.
  - destruct (step F0 url b s0 m0) as [[sx ex]|] eqn:Es; [|discriminate].
    destruct (replay url b sx ms) as [[sy trx]|] eqn:E; [|discriminate]. inversion H; subst.
    destruct Hi as [Hi|Hi]; [|eapply IH; eauto]. inversion Hi; subst.
    destruct (step_timers url b F0 s0 m sx es Es) as [(u & cs & c & -> & _)|(_ & E2 & _)]; [eauto|contradiction].
Qed.

Lemma split_snoc {A} (tr : list A) x p e q : tr ++ [x] = p ++ e :: q ->
  (q = [] /\ e = x /\ p = tr) \/ exists q0, q = q0 ++ [x] /\ tr = p ++ e :: q0.
Proof.
  destruct q as [|z q] using rev_ind.
  - intros H. left. apply app_inj_tail in H. destruct H. auto.
  - intros H. right. rewrite app_comm_cons, app_assoc in H. apply app_inj_tail in H. destruct H as (H1 & <-). eauto.
Qed.

Lemma tinv_take y s tr m q F s' es :
  tinv y s tr -> y_task y = TIdle s -> y_lspq y = m :: q -> step F url b s m = Ok (s', es) ->
  tinv (mksys (TBusy s' (with_close m es)) q (y_diagq y) (y_diag y) (y_timers y)
          (y_enq y) (y_taken y ++ [(m, F)]) (y_replies y) (y_published y)) s' (tr ++ [(m, es)]).
Proof.
  intros I Et Eq Es. destruct I.
  assert (Ep : pending y = []) by (unfold pending; now rewrite Et). rewrite Ep in *. cbn [all_timers flat_map] in *.
  rewrite app_nil_r in *.
  destruct (close_timers m es) as (C1 & C2 & C3 & C4).
  pose proof (replay_edits _ _ _ _ ti_replay0) as Hme. pose proof (replay_msgs url b _ _ _ _ ti_replay0) as Hms.
  assert (Hkeep : forall O, (forall x, In x (y_timers y) -> is_edit x = true -> In (tm_id x) O \/ current [] s (tm_id x)) ->
     forall x, In x (y_timers y) -> is_edit x = true -> In (tm_id x) O \/ ls_task (tk_data s) = Some (tm_id x)).
  { intros O HO x H1 H2. destruct (HO x H1 H2) as [H|(_ & H)]; auto. }
  destruct ti_orphans0 as (O & HO1 & HO2). specialize (Hkeep O HO2).
  pose proof (step_timers url b F s m s' es Es) as Hst.
  assert (Hnext : tk_next s <= tk_next s').
  { destruct Hst as [(u & cs & c & _ & _ & -> & _)|(_ & _ & [(_ & ->)|(c & u & _ & ->)] & _)]; lia. }
  assert (Hnew : forall x, In x (all_timers es) -> tm_id x = tk_next s /\ tk_next s < tk_next s').
  { destruct Hst as [(u & cs & c & _ & -> & -> & _)|(_ & _ & [(-> & ->)|(c & u & -> & ->)] & _)]; intros x Hx.
    - destruct (ls_task (tk_data s)); cbn in Hx; destruct Hx as [<-|[]]; cbn; lia.
    - destruct Hx.
    - destruct Hx as [<-|[]]; cbn; lia. }
  assert (Hone : all_timers es = [] \/ exists x, all_timers es = [x]).
  { destruct Hst as [(u & cs & c & _ & -> & _)|(_ & _ & [(-> & _)|(c & u & -> & _)] & _)]; eauto.
    right. destruct (ls_task (tk_data s)); cbn; eauto. }
  assert (Hedit1 : edit_timers es = [] \/ exists x, edit_timers es = [x] /\ In x (all_timers es)).
  { destruct Hst as [(u & cs & c & _ & -> & _)|(_ & -> & _)]; [|now left]. right.
    destruct (ls_task (tk_data s)); cbn; eauto. }
  constructor; unfold pending, state_is; cbn [y_task y_lspq y_timers y_taken]; rewrite ?C1.
  - right. eauto.
  - eapply replay_snoc; eauto.
  - right. exists tr, m, es, []. auto.
  - destruct Hone as [E|(x & E)]; rewrite E; [now rewrite app_nil_r|].
    destruct (Hnew x) as (E1 & _); [rewrite E; now left|].
    rewrite map_app. cbn [map]. apply nodup_snoc; [exact ti_nodup0|]. intros Hi. apply in_map_iff in Hi. destruct Hi as (z & Ez & Hz). specialize (ti_bound0 z Hz). lia.
  - intros x Hx. apply in_app_or in Hx. destruct Hx as [Hx|Hx]; [specialize (ti_bound0 x Hx); lia|].
    destruct (Hnew x Hx). lia.
  - intros x H1 H2. rewrite trace_edits_app. apply in_or_app. left. auto.
  - rewrite trace_edits_snoc. destruct Hedit1 as [->|(x & E & Hx)]; [now rewrite app_nil_r|].
    rewrite E, map_app. cbn [map]. destruct (Hnew x Hx) as (E1 & _).
    apply nodup_snoc; [exact ti_trace0|]. intros Hi. apply in_map_iff in Hi. destruct Hi as (z & Ez & Hz). specialize (ti_trace_bound0 z Hz). lia.
  - intros x Hx. rewrite trace_edits_snoc in Hx. apply in_app_or in Hx.
    destruct Hx as [Hx|Hx]; [specialize (ti_trace_bound0 x Hx); lia|].
    apply edit_all in Hx. destruct (Hnew x (proj1 Hx)). lia.
  - intros t Ht. rewrite trace_edits_snoc.
    destruct Hst as [(u & cs & c & _ & -> & _ & Hl)|(_ & -> & _ & [Hl|(_ & Hl)])].
    + exists (trace_edits tr), c, u. rewrite Hl in Ht. inversion Ht; subst t. f_equal. now destruct (ls_task (tk_data s)).
    + rewrite app_nil_r. apply ti_cur0. congruence.
    + congruence.
  - destruct Hst as [(u & cs & c & -> & -> & _)|(Hn & _)]; [|left; now apply C3].
    rewrite C4 by reflexivity. destruct (ls_task (tk_data s)) as [a|]; [right; cbn; eauto|left; repeat constructor].
  - rewrite map_app. cbn [map fst]. rewrite late_snoc. cbn [orb].
    destruct Hst as [(u & cs & c & -> & Ees & _ & Hl)|(Hn & He & _ & Hl)].
    + exists O. split; [lia|]. intros x H1 H2. rewrite C4 by reflexivity. rewrite Ees.
      destruct (Hkeep x H1 H2) as [Hx|Hx]; [now left|]. right. rewrite Hx. reflexivity.
    + assert (Hcur : forall z, ls_task (tk_data s') = Some z -> current (with_close m es) s' z).
      { intros z Hz. unfold current. pose proof (C3 Hn) as Hn'. destruct (with_close m es) as [|e es'] eqn:Ec; [auto|].
        rewrite He in C2. destruct e; auto. inversion Hn' as [|? ? Hf _]. destruct Hf. }
      destruct Hl as [Hl|(-> & Hl)].
      * exists O. split; [lia|]. intros x H1 H2. destruct (Hkeep x H1 H2) as [Hx|Hx]; [now left|]. right. apply Hcur. congruence.
      * destruct (ls_task (tk_data s)) as [t0|] eqn:Et0.
        -- destruct (ti_cur0 t0 eq_refl) as (pre & c & u & E).
           assert (Hseen : seen_edit (map fst (y_taken y)) = true).
           { rewrite <- Hms. eapply seen_trace; [|exact Hme]. rewrite E. apply in_or_app. right. now left. }
           rewrite Hseen. exists (t0 :: O). split; [cbn; lia|]. intros x H1 H2.
           destruct (Hkeep x H1 H2) as [Hx|Hx]; [left; now right|]. left. left. congruence.
        -- exists O. split; [lia|]. intros x H1 H2. destruct (Hkeep x H1 H2) as [Hx|Hx]; [now left|discriminate].
  - intros p m0 es0 q0 t u Hsp Hin Hno. apply split_snoc in Hsp. destruct Hsp as [(-> & E & _)|(q1 & -> & Htr)].
    + inversion E; subst m0 es0. left. unfold with_close. destruct (msg_rid m); [|exact Hin].
      destruct (existsb _ _); [exact Hin|]. apply in_or_app. now left.
    + rewrite trace_edits_app in Hno. apply app_eq_nil in Hno. destruct Hno as (Hno & _).
      right. destruct (ti_refresh0 p m0 es0 q1 t u Htr Hin Hno) as [[]|[H|[H|H]]].
      * now left.
      * rewrite Eq in H. destruct H as [<-|H]; [|right; now left]. right. right. rewrite map_app. apply in_or_app. right. now left.
      * right. right. rewrite map_app. apply in_or_app. now left.
Qed.
Lemma last_step sx tk s tr0 m es : replay url b sx tk = Ok (s, tr0 ++ [(m, es)]) -> exists s0 F, step F url b s0 m = Ok (s, es).
Proof.
  intros H. destruct tk as [|[m' F'] tk] using rev_ind.
  - cbn in H. inversion H. destruct tr0; discriminate.
  - apply replay_split in H. destruct H as (s1 & t1 & t2 & _ & R2 & Et2). cbn [replay] in R2.
    destruct (step F' url b s1 m') as [[s2 e2]|] eqn:Es; [|discriminate]. inversion R2 as [[R3 R4]]. rewrite <- R4 in Et2.
    apply app_inj_tail in Et2. destruct Et2 as (_ & Et2). inversion Et2; subst. eauto.
Qed.
Lemma tinv_effect y s tr e es y' :
  tinv y s tr -> y_task y = TBusy s (e :: es) -> do_effect s e es y = Some y' -> tinv y' s tr.
Proof.
  intros I Et H.
  assert (Ep : pending y = e :: es) by (unfold pending; now rewrite Et).
  assert (Hy' : y_task y' = TBusy s es /\ y_taken y' = y_taken y /\ incl (y_lspq y) (y_lspq y') /\
    y_timers y' = match e with EAbort t => filter (fun x => negb (tm_id x =? t)) (y_timers y)
                          | ETimer t k c u => y_timers y ++ [mktm t k c u] | _ => y_timers y end).
  { destruct e; cbn [do_effect] in H.
    - destruct (y_diag y); try (destruct (Nat.ltb _ _); [|discriminate]); inversion H; subst; cbn; repeat split; apply incl_refl.
    - destruct (Nat.ltb _ _); [|discriminate]; inversion H; subst; cbn; repeat split. apply incl_appl, incl_refl.
    - inversion H; subst; cbn; repeat split; apply incl_refl.
    - inversion H; subst; cbn; repeat split; apply incl_refl.
    - inversion H; subst; cbn; repeat split; apply incl_refl.
    - inversion H; subst; cbn; repeat split; apply incl_refl. }
  clear H. destruct Hy' as (E1 & E2 & E3 & E4).
  assert (Ep' : pending y' = es) by (unfold pending; now rewrite E1).
  destruct I. rewrite Ep in *.
  assert (Hsub : forall x, In x (y_timers y' ++ all_timers es) -> In x (y_timers y ++ all_timers (e :: es))).
  { intros x Hx. rewrite E4 in Hx. apply in_app_or in Hx. apply in_or_app. destruct e; cbn [all_timers flat_map app]; auto.
    - destruct Hx as [Hx|Hx]; [left; apply filter_In in Hx; tauto|auto].
    - destruct Hx as [Hx|Hx]; [|right; now right]. apply in_app_or in Hx. destruct Hx as [Hx|[<-|[]]]; [auto|right; now left]. }
  assert (Hnoab : no_abort es).
  { destruct ti_shape0 as [Hn|(a & t & c & u & E)]; [now inversion Hn|]. inversion E; subst. repeat constructor. }
  constructor; rewrite ?Ep', ?E2.
  - unfold state_is. rewrite E1. eauto.
  - exact ti_replay0.
  - right. destruct ti_last0 as [H|(tr0 & m & es0 & pre & H1 & H2)]; [discriminate|].
    exists tr0, m, es0, (pre ++ [e]). split; [exact H1|]. rewrite H2, <- app_assoc. reflexivity.
  - rewrite E4. destruct e; try exact ti_nodup0.
    + apply nodup_filter_app. exact ti_nodup0.
    + cbn [all_timers flat_map app] in ti_nodup0. rewrite <- app_assoc. exact ti_nodup0.
  - intros x Hx. auto.
  - intros x Hx He. rewrite E4 in Hx. destruct e; auto.
    + apply filter_In in Hx. apply ti_live0; tauto.
    + apply in_app_or in Hx. destruct Hx as [Hx|[<-|[]]]; [auto|]. destruct k; [|discriminate].
      destruct ti_last0 as [H|(tr0 & m & es0 & pre & -> & H2)]; [discriminate|].
      rewrite trace_edits_snoc. apply in_or_app. right.
      destruct (close_timers m es0) as (_ & <- & _). rewrite H2, edit_timers_app. apply in_or_app. right. now left.
  - exact ti_trace0.
  - exact ti_trace_bound0.
  - exact ti_cur0.
  - now left.
  - destruct ti_orphans0 as (O & HO1 & HO2). exists O. split; [exact HO1|].
    assert (Hcur : forall z, (edit_timers es = [] /\ ls_task (tk_data s) = Some z) -> current es s z).
    { intros z Hz. unfold current. destruct es as [|e' es']; [exact Hz|]. destruct e'; auto. inversion Hnoab as [|? ? Hf _]. destruct Hf. }
    destruct e as [d|m|r a|t|t k c u|g].
    + intros x Hx He. rewrite E4 in Hx. destruct (HO2 x Hx He) as [H|H]; [now left|right; now apply Hcur].
    + intros x Hx He. rewrite E4 in Hx. destruct (HO2 x Hx He) as [H|H]; [now left|right; now apply Hcur].
    + intros x Hx He. rewrite E4 in Hx. destruct (HO2 x Hx He) as [H|H]; [now left|right; now apply Hcur].
    + intros x Hx He. rewrite E4 in Hx. apply filter_In in Hx. destruct Hx as (Hx & Hne).
      destruct (HO2 x Hx He) as [H|H]; [now left|]. cbn in H. subst t. rewrite N.eqb_refl in Hne. discriminate.
    + intros x Hx He. rewrite E4 in Hx. apply in_app_or in Hx. destruct k.
      * destruct Hx as [Hx|[<-|[]]].
        -- destruct (HO2 x Hx He) as [H|(H & _)]; [now left|discriminate].
        -- right. cbn [tm_id]. apply Hcur.
           destruct ti_last0 as [H|(tr0 & m & es0 & pre & Htr & H2)]; [discriminate|].
           (* the message is the edit itself *)
           assert (Hr : exists s0 F, step F url b s0 m = Ok (s, es0)).
           { rewrite Htr in ti_replay0. eapply last_step; eauto. }
           destruct Hr as (s0 & F & Es). destruct (step_timers url b F s0 m s es0 Es) as [(u' & cs & c' & -> & -> & _ & Hl)|(_ & He0 & _)].
           ++ rewrite (proj2 (proj2 (proj2 (close_timers (MDidChange u' cs) _))) eq_refl) in H2.
              assert (Hend : pre ++ ETimer t TimerEdit c u :: es = (match ls_task (tk_data s0) with Some a => [EAbort a] | None => [] end) ++ [ETimer (tk_next s0) TimerEdit c' u'] /\ True) by (split; [now symmetry|exact I]).
              destruct Hend as (Hend & _).
              assert (es = [] /\ t = tk_next s0).
              { destruct (ls_task (tk_data s0)) as [a|].
                - destruct pre as [|p1 [|p2 pre]]; cbn in Hend; inversion Hend; subst; auto. destruct pre; discriminate.
                - destruct pre as [|p1 pre]; cbn in Hend; inversion Hend; subst; auto. destruct pre; discriminate. }
              destruct H as (-> & ->). split; [reflexivity|exact Hl].
           ++ exfalso. destruct (close_timers m es0) as (_ & Hc & _). rewrite H2, He0, edit_timers_app in Hc.
              apply app_eq_nil in Hc. destruct Hc as (_ & Hc). discriminate.
      * destruct Hx as [Hx|[<-|[]]]; [|discriminate].
        destruct (HO2 x Hx He) as [H|H]; [now left|right; apply Hcur]. exact H.
    + intros x Hx He. rewrite E4 in Hx. destruct (HO2 x Hx He) as [H|H]; [now left|right; now apply Hcur].
  - intros p m0 es0 q t u Hsp Hin Hno. destruct (ti_refresh0 p m0 es0 q t u Hsp Hin Hno) as [[H|H]|[H|[H|H]]].
    + subst e. right. left. rewrite E4. apply in_or_app. right. now left.
    + now left.
    + destruct e as [d|m|r a|a|t' k c u'|g]; try (right; left; rewrite E4; exact H).
      * (* abort: then the last edit is the one being started *)
        destruct ti_shape0 as [Hn|(a' & t' & c & u' & E)]; [inversion Hn as [|? ? Hf _]; destruct Hf|].
        injection E as Ea Ees0. subst a' es. left. left.
        destruct ti_last0 as [Hl|(tr0 & m & es1 & pre & Htr & H2)]; [discriminate|].
        assert (Hed : edit_timers es1 <> []).
        { destruct (close_timers m es1) as (_ & <- & _). rewrite H2, edit_timers_app. intros Hc. apply app_eq_nil in Hc.
          destruct Hc as (_ & Hc). discriminate. }
        rewrite Htr in Hsp. apply split_snoc in Hsp. destruct Hsp as [(-> & Ee & _)|(q0 & -> & _)].
        -- inversion Ee; subst m0 es0.
           assert (Hin' : In (ETimer t TimerEdit true u) (with_close m es1)).
           { unfold with_close. destruct (msg_rid m); [|exact Hin]. destruct (existsb _ _); [exact Hin|apply in_or_app; now left]. }
           (* a handler starts at most one edit timer *)
           assert (Hr : exists s0 F, step F url b s0 m = Ok (s, es1)).
           { rewrite Htr in ti_replay0. eapply last_step; eauto. }
           destruct Hr as (s0 & F & Es). destruct (step_timers url b F s0 m s es1 Es) as [(u1 & cs & c1 & -> & Ees & _)|(_ & He0 & _)]; [|contradiction].
           rewrite (proj2 (proj2 (proj2 (close_timers (MDidChange u1 cs) _))) eq_refl) in H2. rewrite Ees in H2, Hin.
           destruct (ls_task (tk_data s0)) as [a0|].
           ++ destruct pre as [|p1 [|p2 pre]]; cbn in H2; inversion H2; subst; [|destruct pre; discriminate].
              destruct Hin as [Hx|[Hx|[]]]; [discriminate|]. exact Hx || (symmetry; exact Hx).
           ++ destruct pre as [|p1 pre]; cbn in H2; [discriminate|]. inversion H2. destruct pre; discriminate.
        -- exfalso. rewrite trace_edits_snoc in Hno. apply app_eq_nil in Hno. destruct Hno as (_ & Hno). contradiction.
      * right. left. rewrite E4. apply in_or_app. now left.
    + right. right. left. auto.
    + right. right. right. exact H.
Qed.
Lemma tinv_act y s tr a y' : tinv y s tr -> act url b y a = Some y' -> alive y' -> exists s' tr', tinv y' s' tr'.
Proof.
  intros I H Ha'. assert (Ha : alive y) by (intros E; apply Ha'; eapply act_dead; eauto).
  destruct a; cbn [act] in H.
  - exists s, tr. destruct m; try discriminate; destruct (send_alive _ _ _ Ha H) as (_ & ->);
      (eapply tinv_ext; [exact I|reflexivity|reflexivity|reflexivity|apply incl_appl, incl_refl]).
  - destruct (y_task y) as [s0| |] eqn:Et; try discriminate. destruct (y_lspq y) as [|m q] eqn:Eq; [discriminate|].
    assert (s0 = s).
    { destruct (ti_state _ _ _ I) as [E|(es & E)]; rewrite Et in E; [now inversion E|discriminate]. } subst s0.
    destruct (step F url b s m) as [[s' es]|] eqn:Es.
    + inversion H; subst y'. exists s', (tr ++ [(m, es)]). eapply tinv_take; eauto.
    + inversion H; subst y'. now elim Ha'.
  - destruct (y_task y) as [s0|s0 es|] eqn:Et; try discriminate.
    assert (s0 = s).
    { destruct (ti_state _ _ _ I) as [E|(es' & E)]; rewrite Et in E; [discriminate|now inversion E]. } subst s0.
    exists s, tr. destruct es as [|e es]; [|eapply tinv_effect; eauto].
    inversion H; subst y'. destruct I. constructor; unfold pending, state_is in *; rewrite ?Et in *; cbn; auto.
  - exists s, tr. destruct (y_diag y); try discriminate. destruct (y_diagq y); inversion H; subst.
    eapply tinv_ext; [exact I|reflexivity|reflexivity|reflexivity|apply incl_refl].
  - exists s, tr. destruct (y_diag y) as [|rest acts|acts|]; try discriminate.
    destruct rest as [|[u e] rest]; [|destruct (url u)]; inversion H; subst;
      (eapply tinv_ext; [exact I|reflexivity|reflexivity|reflexivity|apply incl_refl]).
  - exists s, tr. destruct (y_diag y); try discriminate. destruct (send_lsp (MCodeActions acts) y) as [y1|] eqn:Es; [|discriminate].
    inversion H; subst y'. destruct (send_alive _ _ _ Ha Es) as (_ & ->).
    eapply tinv_ext; [exact I|reflexivity|reflexivity|reflexivity|apply incl_appl, incl_refl].
  - exists s, tr. destruct (find _ (y_timers y)) as [x|] eqn:Ef; [|discriminate].
    apply find_some in Ef. destruct Ef as (Hx & Hid). apply N.eqb_eq in Hid.
    assert (Hy' : y_task y' = y_task y /\ y_taken y' = y_taken y /\
      y_timers y' = filter (fun x => negb (tm_id x =? tid)) (y_timers y) /\ incl (y_lspq y) (y_lspq y') /\
      (tm_chan x = true -> In (MDidSave (tm_uri x)) (y_lspq y'))).
    { destruct (tm_chan x).
      - match type of H with send_lsp _ ?z = _ => destruct (send_alive _ z _ Ha H) as (_ & ->) end. cbn. repeat split.
        + apply incl_appl, incl_refl.
        + intros _. apply in_or_app. right. now left.
      - inversion H; subst. cbn. repeat split; [apply incl_refl|discriminate]. }
    clear H. destruct Hy' as (E1 & E2 & E3 & E4 & E5). destruct I.
    assert (Ep : pending y' = pending y) by (unfold pending; now rewrite E1).
    constructor; rewrite ?Ep, ?E2; auto.
    + unfold state_is in *. now rewrite E1.
    + rewrite E3. now apply nodup_filter_app.
    + intros z Hz. rewrite E3 in Hz. apply ti_bound0. apply in_app_or in Hz. apply in_or_app.
      destruct Hz as [Hz|Hz]; [left; apply filter_In in Hz; tauto|auto].
    + intros z Hz. rewrite E3 in Hz. apply filter_In in Hz. apply ti_live0. tauto.
    + destruct ti_orphans0 as (O & HO1 & HO2). exists O. split; [exact HO1|]. intros z Hz. rewrite E3 in Hz.
      apply filter_In in Hz. apply HO2. tauto.
    + intros p m0 es0 q t u Hsp Hin Hno. destruct (ti_refresh0 p m0 es0 q t u Hsp Hin Hno) as [Hr|[Hr|[Hr|Hr]]].
      * now left.
      * destruct (N.eq_dec t tid) as [Eq|Ne].
        -- right. right. left. assert (x = mktm t TimerEdit true u).
           { rewrite map_app in ti_nodup0. apply nodup_app_l in ti_nodup0. apply (nodup_same tm_id (y_timers y)); [exact ti_nodup0|exact Hx|exact Hr|cbn; congruence]. }
           subst x. apply E5. reflexivity.
        -- right. left. rewrite E3. apply filter_In. split; [exact Hr|]. cbn. apply negb_true_iff. now apply N.eqb_neq.
      * right. right. left. auto.
      * right. right. now right.
Qed.
Lemma tinv_reach l y : exec url b (sys0 T) l = Some y -> alive y -> exists s tr, tinv y s tr.
Proof.
  revert l y. apply (exec_ind url b (fun l y => alive y -> exists s tr, tinv y s tr)).
  - intros _. exists (task0 T), []. exact tinv0.
  - intros l y a y' _ IH Hact Ha'. assert (Ha : alive y) by (intros E; apply Ha'; eapply act_dead; eauto).
    destruct (IH Ha) as (s & tr & I). eapply tinv_act; eauto.
Qed.

(** ** C45: the number of live refresh timers *)
Lemma current_one pend s t1 t2 : current pend s t1 -> current pend s t2 -> t1 = t2.
Proof.
  unfold current. destruct pend as [|e pend]; [intros (_ & H1) (_ & H2); congruence|].
  destruct e; try (intros (_ & H1) (_ & H2); congruence). congruence.
Qed.
Theorem live_timers l y : exec url b (sys0 T) l = Some y -> alive y ->
  (length (filter is_edit (y_timers y)) <= 1 + late_reloads false (map fst (y_taken y)))%nat.
Proof.
  intros H Ha. destruct (tinv_reach l y H Ha) as (s & tr & I). destruct I.
  destruct ti_orphans0 as (O & HO1 & HO2).
  assert (Hnd : NoDup (map tm_id (filter is_edit (y_timers y)))).
  { apply nodup_filter. rewrite map_app in ti_nodup0. now apply nodup_app_l in ti_nodup0. }
  assert (Hc : exists z, incl (map tm_id (filter is_edit (y_timers y))) (z :: O)).
  { destruct (existsb (fun x => is_edit x && negb (existsb (N.eqb (tm_id x)) O)) (y_timers y)) eqn:E.
    - apply existsb_exists in E. destruct E as (x & Hx & Hb). apply andb_true_iff in Hb. destruct Hb as (Hb1 & Hb2).
      exists (tm_id x). intros i Hi. apply in_map_iff in Hi. destruct Hi as (z & <- & Hz). apply filter_In in Hz. destruct Hz as (Hz1 & Hz2).
      destruct (HO2 z Hz1 Hz2) as [Hz|Hz]; [now right|]. destruct (HO2 x Hx Hb1) as [Hxx|Hxx].
      + exfalso. apply negb_true_iff in Hb2. assert (existsb (N.eqb (tm_id x)) O = true); [|congruence].
        apply existsb_exists. exists (tm_id x). split; [exact Hxx|apply N.eqb_refl].
      + left. eapply current_one; eauto.
    - exists 0. intros i Hi. apply in_map_iff in Hi. destruct Hi as (z & <- & Hz). apply filter_In in Hz. destruct Hz as (Hz1 & Hz2).
      right. destruct (existsb (N.eqb (tm_id z)) O) eqn:Ez.
      + apply existsb_exists in Ez. destruct Ez as (w & Hw & Ew). apply N.eqb_eq in Ew. now rewrite Ew.
      + exfalso. assert (existsb (fun x => is_edit x && negb (existsb (N.eqb (tm_id x)) O)) (y_timers y) = true); [|congruence].
        apply existsb_exists. exists z. split; [exact Hz1|]. now rewrite Hz2, Ez. }
  destruct Hc as (z & Hz). pose proof (NoDup_incl_length Hnd Hz) as Hlen. rewrite map_length in Hlen. cbn in Hlen. lia.
Qed.
Theorem timer_of_last_edit l y s tr : exec url b (sys0 T) l = Some y -> y_task y = TIdle s ->
  replay url b (task0 T) (y_taken y) = Ok (s, tr) ->
  late_reloads false (map fst (y_taken y)) = 0%nat ->
  forall x, In x (y_timers y) -> is_edit x = true -> exists earlier, trace_edits tr = earlier ++ [x].
Proof.
  intros H Et Hr Hlate x Hx He.
  assert (Ha : alive y) by (intros E; rewrite Et in E; discriminate).
  destruct (tinv_reach l y H Ha) as (s' & tr' & I). destruct I.
  rewrite Hr in ti_replay0. inversion ti_replay0; subst s' tr'. destruct ti_orphans0 as (O & HO1 & HO2).
  rewrite Hlate in HO1. destruct O; [|cbn in HO1; lia]. destruct (HO2 x Hx He) as [[]|Hc].
  unfold pending in Hc. rewrite Et in Hc. destruct Hc as (_ & Hc). destruct (ti_cur0 _ Hc) as (pre & c & u & E).
  exists pre. rewrite E. do 2 f_equal. symmetry. eapply (nodup_same tm_id); [exact ti_trace0| | |reflexivity].
  - now apply ti_live0.
  - rewrite E. apply in_or_app. right. now left.
Qed.
(** ** C46: the last edit is refreshed *)
Theorem last_edit_refreshed l y s tr : exec url b (sys0 T) l = Some y -> at_rest y ->
  replay url b (task0 T) (y_taken y) = Ok (s, tr) ->
  forall p m es q t u, tr = p ++ (m, es) :: q -> In (ETimer t TimerEdit true u) es -> trace_edits q = [] ->
    In (MDidSave u) (map fst q).
Proof.
  intros H ((s0 & Et) & Hq & _ & _ & Ht) Hr p m es q t u Hsp Hin Hno.
  assert (Ha : alive y) by (intros E; rewrite Et in E; discriminate).
  destruct (tinv_reach l y H Ha) as (s' & tr' & I). destruct I.
  rewrite Hr in ti_replay0. inversion ti_replay0; subst s' tr'.
  destruct (ti_refresh0 p m es q t u Hsp Hin Hno) as [Hx|[Hx|[Hx|Hx]]]; [| | |exact Hx].
  - unfold pending in Hx. rewrite Et in Hx. destruct Hx.
  - rewrite Ht in Hx. destruct Hx.
  - rewrite Hq in Hx. destruct Hx.
Qed.
Theorem one_document_refreshed l y s tr u : exec url b (sys0 T) l = Some y -> at_rest y ->
  replay url b (task0 T) (y_taken y) = Ok (s, tr) ->
  forall p m es q t, tr = p ++ (m, es) :: q -> In (ETimer t TimerEdit true u) es ->
    (forall x, In x (trace_edits q) -> tm_chan x = true /\ tm_uri x = u) ->
    In (MDidSave u) (map fst q).
Proof.
  intros H Hrest Hr p m es q. remember (length q) as n eqn:Hn. revert p m es q Hn.
  induction n as [n IH] using (well_founded_induction lt_wf). intros p m es q Hn t Hsp Hin Hall.
  destruct (trace_edits q) as [|z zs] eqn:E2; [eapply last_edit_refreshed; eauto|].
  assert (Hz : In z (trace_edits q)) by (rewrite E2; now left). rewrite <- E2 in Hall.
  destruct (Hall z Hz) as (Hc & Hu).
  unfold trace_edits in Hz. apply in_flat_map in Hz. destruct Hz as ((m2 & es2) & Hi & Hz). cbn [snd] in Hz.
  apply in_split in Hi. destruct Hi as (q1 & q2 & Eq).
  assert (Hzt : In (ETimer (tm_id z) TimerEdit true u) es2).
  { unfold edit_timers in Hz. apply in_flat_map in Hz. destruct Hz as (e & He & Hz). destruct e; try (now destruct Hz).
    destruct k; [|now destruct Hz]. destruct Hz as [<-|[]]. cbn in *. subst. exact He. }
  assert (Hq : In (MDidSave u) (map fst q2)).
  { apply (IH (length q2)) with (p := p ++ (m, es) :: q1) (m := m2) (es := es2) (t := tm_id z); [|reflexivity| |exact Hzt|].
    - rewrite Hn, Eq, app_length. cbn. lia.
    - rewrite Hsp, Eq. rewrite <- app_assoc. reflexivity.
    - intros x Hx. apply Hall. rewrite Eq, trace_edits_app. apply in_or_app. right. cbn. apply in_or_app. now right. }
  rewrite Eq, map_app. apply in_or_app. right. now right.
Qed.
End Timers.
