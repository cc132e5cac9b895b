(** * PFiles: proofs about the document store. *)
From Verif Require Import Base RString Utf8 Rope Types Captures.
From Verif Require Import MDefinition MObjects MTemplates MSearchErrors MLspFiles.
From Verif Require Import SpecText SpecFiles PText PUtf8.

Tactic Notation "lsimp" := cbn [set_trees set_docs set_vars set_actions set_task trees_of ls_docs ls_tt ls_bt ls_vars ls_actions ls_parser ls_query ls_config ls_chan ls_vscode ls_ignore].
Tactic Notation "lsimp" "in" hyp(H) := cbn [set_trees set_docs set_vars set_actions set_task trees_of ls_docs ls_tt ls_bt ls_vars ls_actions ls_parser ls_query ls_config ls_chan ls_vscode ls_ignore] in H.

Section Files.
Context {T : ts}.
Implicit Types s : lsp_files T.

(** ** Frame lemmas *)
Ltac frame uri :=
  let k := fresh "k" in let Hk := fresh "Hk" in
  split; [|repeat split]; intros k Hk; lsimp;
  repeat rewrite (sget_sinsert_other k uri) by assumption; repeat split.
Lemma same_refl uri s : same_elsewhere uri s s.
Proof. repeat split. Qed.
Lemma same_trans uri s1 s2 s3 :
  same_elsewhere uri s1 s2 -> same_elsewhere uri s2 s3 -> same_elsewhere uri s1 s3.
Proof.
  intros (H1 & A1 & A2 & A3 & A4 & A5 & A6) (H2 & B1 & B2 & B3 & B4 & B5 & B6).
  split; [|repeat split; congruence].
  intros k Hk. destruct (H1 k Hk) as (C1 & C2 & C3 & C4 & C5).
  destruct (H2 k Hk) as (D1 & D2 & D3 & D4 & D5). repeat split; congruence.
Qed.
Lemma same_set_trees uri l tr s : same_elsewhere uri s (set_trees l (sinsert uri tr (trees_of l s)) s).
Proof. destruct l; frame uri. Qed.
Lemma same_set_docs uri t s : same_elsewhere uri s (set_docs (sinsert uri t (ls_docs s)) s).
Proof. frame uri. Qed.
Lemma same_set_vars uri t s : same_elsewhere uri s (set_vars (sinsert uri t (ls_vars s)) s).
Proof. frame uri. Qed.
Lemma same_store uri v a s :
  same_elsewhere uri s
    (set_actions (sinsert uri a (ls_actions s)) (set_vars (sinsert uri v (ls_vars s)) s)).
Proof. frame uri. Qed.
Lemma same_add_tree uri l c s : same_elsewhere uri s (add_tree uri l c s).
Proof. unfold add_tree. destruct (parse _ _ _ _); [apply same_set_trees|apply same_refl]. Qed.
Lemma same_add_variables uri l c s s' :
  add_variables uri l c s = Ok s' -> same_elsewhere uri s s'.
Proof.
  unfold add_variables. destruct (sget uri (trees_of l s)) as [tr|].
  2:{ intros H; inversion H; subst; apply same_refl. }
  destruct l.
  - destruct (snippets_query _ _ _) as [sn|]; [|discriminate]. cbn [bind].
    destruct (sn_error sn).
    { intros H; inversion H; subst; apply same_refl. }
    destruct (definition_query _ _ _ _ _) as [d|]; [|discriminate]. cbn [bind].
    intros H; inversion H; subst. apply same_store.
  - destruct (backend_definition_query _ _ _ _) as [ids|]; [|discriminate]. cbn [bind].
    destruct (backend_templates_query _ _ _ _) as [tp|]; [|discriminate]. cbn [bind].
    intros H; inversion H; subst. apply same_store.
Qed.
Lemma same_delete_variables uri s : same_elsewhere uri s (delete_variables uri s).
Proof. unfold delete_variables. destruct (sget uri (ls_vars s)); [apply same_set_vars|apply same_refl]. Qed.
Lemma same_input_edit uri c ie l s : same_elsewhere uri s (input_edit_tree uri c ie l s).
Proof.
  unfold input_edit_tree. destruct l as [l|]; [|apply same_refl].
  destruct (sget uri (trees_of l s)) as [old|]; [|apply same_refl].
  set (s1 := set_trees l (sinsert uri (t_edit T old ie) (trees_of l s)) s).
  assert (H1 : same_elsewhere uri s s1) by apply same_set_trees.
  destruct (parse s1 l c _); [|exact H1].
  eapply same_trans; [exact H1|apply same_set_trees].
Qed.
Lemma same_apply_edits uri l edits : forall s, same_elsewhere uri s (apply_edits uri l edits s).
Proof.
  unfold apply_edits. induction edits as [|e edits IH]; intros s; [apply same_refl|].
  cbn [fold_left]. eapply same_trans; [apply same_input_edit|apply IH].
Qed.

(** C09 *)
Lemma did_change_frame tid uri cs s s' te :
  did_change tid uri cs s = Ok (s', te) -> same_elsewhere uri s s'.
Proof.
  unfold did_change. destruct (sget uri (ls_docs s)) as [t|].
  2:{ intros H; inversion H; subst; apply same_refl. }
  destruct (apply_changes t cs) as [[[t2 early] edits]|]; [|discriminate]. cbn [bind].
  destruct early; intros H; inversion H; subst.
  - apply same_set_docs.
  - eapply same_trans; [apply (same_set_docs uri t2)|].
    exact (same_apply_edits uri (file_ext uri) edits _).
Qed.
Lemma did_change_unknown tid uri cs s :
  sget uri (ls_docs s) = None -> did_change tid uri cs s = Ok (s, None).
Proof. intros H. unfold did_change. now rewrite H. Qed.
Lemma did_open_frame F b uri t ig s s' d :
  did_open F b uri t ig s = Ok (s', d) -> same_elsewhere uri s s'.
Proof.
  unfold did_open. destruct (file_ext uri) as [l|].
  2:{ intros H; inversion H; subst; apply same_refl. }
  set (s2 := set_docs _ _).
  assert (H2 : same_elsewhere uri s s2).
  { eapply same_trans; [apply same_delete_variables|]. apply same_set_docs. }
  destruct (add_variables uri l (encode t) (add_tree uri l (encode t) s2)) as [s3|] eqn:E;
    [|discriminate].
  cbn [bind].
  assert (H3 : same_elsewhere uri s s3).
  { eapply same_trans; [exact H2|]. eapply same_trans; [apply same_add_tree|].
    eapply same_add_variables; eauto. }
  destruct ig; [intros H; inversion H; subst; exact H3|].
  destruct (read_tree F b uri s3) as [v|]; [|discriminate]. cbn [bind].
  destruct v; intros H; inversion H; subst; exact H3.
Qed.
Lemma did_save_frame F b uri s s' d :
  did_save F b uri s = Ok (s', d) -> same_elsewhere uri s s'.
Proof.
  unfold did_save. destruct (file_ext uri) as [l|].
  2:{ intros H; inversion H; subst; apply same_refl. }
  destruct (sget uri (ls_docs s)) as [t|].
  2:{ intros H; inversion H; subst; apply same_refl. }
  destruct (add_variables uri l (rope_content t) (delete_variables uri s)) as [s1|] eqn:E;
    [|discriminate].
  cbn [bind]. destruct (read_tree F b uri s1) as [v|]; [|discriminate]. cbn [bind].
  intros H; inversion H; subst.
  eapply same_trans; [apply same_delete_variables|]. eapply same_add_variables; eauto.
Qed.

Lemma doc_step_frame b e uri s s' :
  match e with EvOpen _ u _ | EvChange _ u _ | EvSave _ u => u = uri end ->
  doc_step b s e = Ok s' -> same_elsewhere uri s s'.
Proof.
  destruct e as [F u t|tid u cs|F u]; intros -> H; cbn [doc_step] in H.
  - destruct (did_open F b uri t false s) as [[s2 d]|] eqn:E; [|discriminate].
    cbn in H. inversion H; subst. eapply did_open_frame; eauto.
  - destruct (did_change tid uri cs s) as [[s2 d]|] eqn:E; [|discriminate].
    cbn in H. inversion H; subst. eapply did_change_frame; eauto.
  - destruct (did_save F b uri s) as [[s2 d]|] eqn:E; [|discriminate].
    cbn in H. inversion H; subst. eapply did_save_frame; eauto.
Qed.

(** ** C08: trees are current *)
Lemma trees_of_set_same l m s : trees_of l (set_trees l m s) = m.
Proof. destruct l; reflexivity. Qed.
Lemma set_trees_parser l m s : ls_parser (set_trees l m s) = ls_parser s.
Proof. destruct l; reflexivity. Qed.

(** [add_variables] and [delete_variables] touch neither documents nor trees. *)
Definition same_docs s s' : Prop :=
  ls_docs s' = ls_docs s /\ ls_tt s' = ls_tt s /\ ls_bt s' = ls_bt s /\ ls_parser s' = ls_parser s.
Lemma add_variables_docs uri l c s s' : add_variables uri l c s = Ok s' -> same_docs s s'.
Proof.
  unfold add_variables. destruct (sget uri (trees_of l s)) as [tr|].
  2:{ intros H; inversion H; subst; repeat split. }
  destruct l.
  - destruct (snippets_query _ _ _) as [sn|]; [|discriminate]. cbn [bind].
    destruct (sn_error sn).
    { intros H; inversion H; subst; repeat split. }
    destruct (definition_query _ _ _ _ _) as [d|]; [|discriminate]. cbn [bind].
    intros H; inversion H; subst. repeat split.
  - destruct (backend_definition_query _ _ _ _) as [ids|]; [|discriminate]. cbn [bind].
    destruct (backend_templates_query _ _ _ _) as [tp|]; [|discriminate]. cbn [bind].
    intros H; inversion H; subst. repeat split.
Qed.
Lemma delete_variables_docs uri s : same_docs s (delete_variables uri s).
Proof. unfold delete_variables. destruct (sget uri (ls_vars s)); repeat split. Qed.
Lemma same_docs_current s s' : same_docs s s' -> trees_current s -> trees_current s'.
Proof.
  intros (H1 & H2 & H3 & H4) H uri l t Hl Ht. rewrite H1 in Ht.
  destruct (H uri l t Hl Ht) as (Hs & tr & old & Htr & Hp). split; [exact Hs|].
  exists tr, old. rewrite H4. split; [|exact Hp]. destruct l; cbn in *; congruence.
Qed.

Lemma trees_of_other uri k l s s' :
  same_elsewhere uri s s' -> k <> uri -> sget k (trees_of l s') = sget k (trees_of l s).
Proof. intros (H & _) Hk. destruct (H k Hk) as (_ & H1 & H2 & _). destruct l; assumption. Qed.

(** Updating one URI: the invariant only has to be re-established there. *)
Lemma current_update uri s s' :
  same_elsewhere uri s s' -> trees_current s ->
  (forall l t, file_ext uri = Some l -> sget uri (ls_docs s') = Some t ->
     scalars t /\ exists tr old, sget uri (trees_of l s') = Some tr /\
       t_parse T (match l with Template => PJinja | Backend => ls_parser s' end) (encode t) old = Some tr) ->
  trees_current s'.
Proof.
  intros Hse Hc Hu k l t Hl Ht.
  destruct (String.string_dec k uri) as [->|Hk]; [now apply Hu|].
  pose proof (trees_of_other uri k l s s' Hse Hk) as Htr.
  destruct Hse as (H & Hp & _). destruct (H k Hk) as (Hd & _).
  rewrite Hd in Ht. destruct (Hc k l t Hl Ht) as (Hs & tr & old & H1 & H2).
  split; [exact Hs|]. exists tr, old. rewrite Htr, Hp. auto.
Qed.

Lemma scalars_firstn t k : scalars t -> scalars (firstn k t).
Proof. apply Forall_firstn. Qed.
Lemma scalars_skipn t k : scalars t -> scalars (skipn k t).
Proof. apply Forall_skipn. Qed.

Lemma apply_change_scalars t r x t' ie :
  scalars t -> scalars x -> apply_change t r x = Ok (t', ie) -> scalars t'.
Proof.
  intros Ht Hx H. unfold apply_change in H.
  destruct (to_input_edit t r x) as [ie'|]; [|discriminate]. cbn [bind] in H.
  destruct (to_byte t (rstart r)) as [a|]; [|discriminate]. cbn [bind] in H.
  destruct (to_byte t (rend r)) as [e|]; [|discriminate]. cbn [bind] in H.
  assert (Hr : forall p q u, rope_remove t p q = Ok u -> scalars u).
  { intros p q u Hu. unfold rope_remove in Hu.
    destruct ((p <=? q) && (q <=? len_chars t)); [|discriminate].
    inversion Hu; subst. apply Forall_app.
    split; [now apply scalars_firstn|now apply scalars_skipn]. }
  assert (Hi : forall u p v, scalars u -> rope_insert u p x = Ok v -> scalars v).
  { intros u p v Hu Hv. unfold rope_insert in Hv. destruct (p <=? len_chars u); [|discriminate].
    inversion Hv; subst. apply Forall_app. split; [now apply scalars_firstn|].
    apply Forall_app. split; [exact Hx|now apply scalars_skipn]. }
  destruct (if a <=? e then rope_remove t a e else rope_remove t e a) as [t1|] eqn:E; [|discriminate].
  cbn [bind] in H.
  assert (Ht1 : scalars t1) by (destruct (a <=? e); eauto).
  destruct x as [|c x].
  - cbn [bind] in H. inversion H; subst. exact Ht1.
  - destruct (rope_insert t1 a (c :: x)) as [t2|] eqn:E2; [|discriminate].
    cbn [bind] in H. inversion H; subst. eauto.
Qed.

(** The last edit handed to the parser carries the final text. *)
Lemma apply_changes_last cs : forall t t' edits,
  scalars t -> Forall (fun c => ch_range c <> None /\ scalars (ch_text c)) cs ->
  apply_changes t cs = Ok (t', false, edits) ->
  scalars t' /\ (edits = [] -> t' = t) /\
  (forall e, last_opt edits = Some e -> fst e = rope_content t').
Proof.
  induction cs as [|c cs IH]; intros t t' edits Ht Hcs H.
  - cbn in H. inversion H; subst. repeat split; auto. discriminate.
  - inversion Hcs as [|? ? [Hc1 Hc2] Hcs']; subst. cbn [apply_changes] in H.
    destruct (ch_range c) as [r|]; [|congruence].
    destruct (apply_change t r (ch_text c)) as [te|] eqn:E; [|discriminate]. cbn [bind] in H.
    destruct (apply_changes (fst te) cs) as [[[t2 early] ed]|] eqn:E2; [|discriminate].
    cbn [bind] in H. inversion H; subst. destruct te as [t1 ie]. cbn [fst snd] in *.
    pose proof (apply_change_scalars _ _ _ _ _ Ht Hc2 E) as Ht1.
    destruct (IH _ _ _ Ht1 Hcs' E2) as (Hs & He & Hl).
    repeat split; auto; [discriminate|].
    intros e He'. destruct ed as [|e0 ed].
    + cbn in He'. inversion He'; subst. cbn. now rewrite (He eq_refl).
    + apply Hl. exact He'.
Qed.

Lemma last_opt_none {A} (x : A) l : last_opt (x :: l) = None -> False.
Proof. revert x. induction l as [|y l IH]; intros x H; [discriminate|exact (IH y H)]. Qed.

(** Applying edits leaves a tree parsed from the content of the last edit. *)
Lemma apply_edits_tree uri l (Hp : parse_total T) edits : forall s tr0,
  sget uri (trees_of l s) = Some tr0 ->
  exists tr, sget uri (trees_of l (apply_edits uri (Some l) edits s)) = Some tr /\
    match last_opt edits with
    | None => tr = tr0
    | Some e => exists old, t_parse T (match l with Template => PJinja | Backend => ls_parser s end)
                              (fst e) old = Some tr
    end.
Proof.
  unfold apply_edits. induction edits as [|e edits IH]; intros s tr0 H0.
  - exists tr0. split; [exact H0|reflexivity].
  - cbn [fold_left].
    assert (H1 : exists tr1 old, sget uri (trees_of l (input_edit_tree uri (fst e) (snd e) (Some l) s)) = Some tr1
               /\ t_parse T (match l with Template => PJinja | Backend => ls_parser s end) (fst e) old = Some tr1
               /\ ls_parser (input_edit_tree uri (fst e) (snd e) (Some l) s) = ls_parser s).
    { unfold input_edit_tree. rewrite H0.
      unfold parse. rewrite set_trees_parser.
      destruct (t_parse T _ (fst e) (Some (t_edit T tr0 (snd e)))) as [new|] eqn:E; [|now apply Hp in E].
      exists new, (Some (t_edit T tr0 (snd e))). rewrite trees_of_set_same, sget_sinsert_same.
      rewrite !set_trees_parser. auto. }
    destruct H1 as (tr1 & old & H1 & H2 & H3).
    destruct (IH _ _ H1) as (tr & Htr & Hl). exists tr. split; [exact Htr|].
    destruct edits as [|e1 edits].
    + cbn in Hl |- *. subst tr. eauto.
    + change (last_opt (e :: e1 :: edits)) with (last_opt (e1 :: edits)).
      destruct (last_opt (e1 :: edits)) eqn:El; [rewrite H3 in Hl; exact Hl|].
      now apply last_opt_none in El.
Qed.

Lemma set_docs_trees l m s : trees_of l (set_docs m s) = trees_of l s.
Proof. destruct l; reflexivity. Qed.
Lemma set_task_trees l m s : trees_of l (set_task m s) = trees_of l s.
Proof. destruct l; reflexivity. Qed.

Lemma apply_edits_parser uri l edits : forall s, ls_parser (apply_edits uri l edits s) = ls_parser s.
Proof. intros s. apply (same_apply_edits uri l edits s). Qed.

Lemma did_open_current F b uri t s s' d :
  parse_total T -> scalars t -> trees_current s ->
  did_open F b uri t false s = Ok (s', d) -> trees_current s'.
Proof.
  intros Hp Hs Hc H. pose proof (did_open_frame _ _ _ _ _ _ _ _ H) as Hf.
  unfold did_open in H. destruct (file_ext uri) as [l|] eqn:El.
  2:{ inversion H; subst; exact Hc. }
  set (s2 := set_docs (sinsert uri t (ls_docs (delete_variables uri s))) (delete_variables uri s)) in *.
  destruct (add_variables uri l (encode t) (add_tree uri l (encode t) s2)) as [s3|] eqn:E;
    [|discriminate].
  cbn [bind] in H.
  assert (s' = s3).
  { destruct (read_tree F b uri s3) as [v|]; [|discriminate]. cbn [bind] in H.
    destruct v; inversion H; reflexivity. }
  subst s'. apply add_variables_docs in E. destruct E as (E1 & E2 & E3 & E4).
  eapply current_update; [exact Hf|exact Hc|]. intros l' t' Hl' Ht'.
  rewrite El in Hl'. inversion Hl'; subst l'.
  assert (Etr : trees_of l s3 = trees_of l (add_tree uri l (encode t) s2)) by (destruct l; assumption).
  rewrite E1 in Ht'. rewrite Etr, E4. unfold add_tree in *.
  destruct (parse s2 l (encode t) (sget uri (trees_of l s2))) as [tr|] eqn:Ep.
  2:{ unfold parse in Ep. now apply Hp in Ep. }
  assert (Et : t' = t).
  { rewrite set_trees_docs in Ht'. unfold s2 in Ht'. lsimp in Ht'.
    rewrite sget_sinsert_same in Ht'. congruence. }
  subst t'. split; [exact Hs|]. exists tr, (sget uri (trees_of l s2)).
  rewrite trees_of_set_same, sget_sinsert_same, set_trees_parser. split; [reflexivity|exact Ep].
Qed.

Lemma did_open_tree F b uri l t ig s s' d :
  parse_total T -> file_ext uri = Some l -> did_open F b uri t ig s = Ok (s', d) ->
  sget uri (trees_of l s') =
    t_parse T (match l with Template => PJinja | Backend => ls_parser s end) (encode t)
      (sget uri (trees_of l s)).
Proof.
  intros Hp El H. unfold did_open in H. rewrite El in H.
  set (s2 := set_docs (sinsert uri t (ls_docs (delete_variables uri s))) (delete_variables uri s)) in *.
  destruct (add_variables uri l (encode t) (add_tree uri l (encode t) s2)) as [s3|] eqn:E;
    [|discriminate].
  cbn [bind] in H.
  assert (s' = s3).
  { destruct ig; [inversion H; reflexivity|]. destruct (read_tree F b uri s3) as [v|]; [|discriminate]. cbn [bind] in H.
    destruct v; inversion H; reflexivity. }
  subst s'. apply add_variables_docs in E. destruct E as (E1 & E2 & E3 & E4).
  assert (Etr : trees_of l s3 = trees_of l (add_tree uri l (encode t) s2)) by (destruct l; assumption).
  destruct (delete_variables_docs uri s) as (D1 & D2 & D3 & D4).
  assert (Es2 : trees_of l s2 = trees_of l s).
  { unfold s2. rewrite set_docs_trees. destruct l; assumption. }
  assert (Ep2 : ls_parser s2 = ls_parser s) by exact D4.
  rewrite Etr. unfold add_tree, parse. rewrite Es2, Ep2.
  destruct (t_parse T _ (encode t) (sget uri (trees_of l s))) as [tr|] eqn:Ep; [|now apply Hp in Ep].
  now rewrite trees_of_set_same, sget_sinsert_same.
Qed.

Lemma did_save_current F b uri s s' d :
  trees_current s -> did_save F b uri s = Ok (s', d) -> trees_current s'.
Proof.
  intros Hc H. unfold did_save in H. destruct (file_ext uri) as [l|].
  2:{ inversion H; subst; exact Hc. }
  destruct (sget uri (ls_docs s)) as [t|].
  2:{ inversion H; subst; exact Hc. }
  destruct (add_variables uri l (rope_content t) (delete_variables uri s)) as [s1|] eqn:E;
    [|discriminate].
  cbn [bind] in H. destruct (read_tree F b uri s1) as [v|]; [|discriminate]. cbn [bind] in H.
  inversion H; subst. eapply same_docs_current; [eapply add_variables_docs; exact E|].
  eapply same_docs_current; [apply delete_variables_docs|exact Hc].
Qed.

Lemma did_change_current tid uri cs s s' te :
  parse_total T -> Forall (fun c => ch_range c <> None /\ scalars (ch_text c)) cs ->
  trees_current s -> did_change tid uri cs s = Ok (s', te) -> trees_current s'.
Proof.
  intros Hp Hcs Hc H. pose proof (did_change_frame _ _ _ _ _ _ H) as Hf.
  unfold did_change in H. destruct (sget uri (ls_docs s)) as [t|] eqn:Et.
  2:{ inversion H; subst; exact Hc. }
  eapply current_update; [exact Hf|exact Hc|]. intros l t' Hl Ht'.
  destruct (Hc uri l t Hl Et) as (Hst & tr0 & old0 & Htr0 & Hp0).
  destruct (apply_changes t cs) as [[[t2 early] edits]|] eqn:E; [|discriminate]. cbn [bind] in H.
  destruct early.
  { exfalso. clear -Hcs E. revert t t2 edits E.
    induction cs as [|c cs IH]; intros t t2 edits E; [discriminate|].
    inversion Hcs as [|? ? [Hc1 _] Hcs']; subst. cbn [apply_changes] in E.
    destruct (ch_range c) as [r|]; [|congruence].
    destruct (apply_change t r (ch_text c)) as [x|]; [|discriminate]. cbn [bind] in E.
    destruct (apply_changes (fst x) cs) as [[[t3 e3] ed]|] eqn:E2; [|discriminate].
    cbn [bind] in E. inversion E; subst. eapply IH; eauto. }
  assert (Es : s' = set_task (Some tid)
     (apply_edits uri (file_ext uri) edits (set_docs (sinsert uri t2 (ls_docs s)) s)))
    by (inversion H; reflexivity).
  clear H. subst s'. rewrite Hl in *.
  destruct (apply_changes_last cs t t2 edits Hst Hcs E) as (Hs2 & He & Hlast).
  assert (t' = t2).
  { change (sget uri (ls_docs (apply_edits uri (Some l) edits
              (set_docs (sinsert uri t2 (ls_docs s)) s))) = Some t') in Ht'.
    rewrite apply_edits_docs in Ht'. lsimp in Ht'. rewrite sget_sinsert_same in Ht'. congruence. }
  subst t'. split; [exact Hs2|].
  rewrite set_task_trees.
  change (ls_parser (set_task (Some tid) ?x)) with (ls_parser x). rewrite apply_edits_parser.
  set (s1 := set_docs (sinsert uri t2 (ls_docs s)) s).
  assert (H1 : sget uri (trees_of l s1) = Some tr0) by (unfold s1; now rewrite set_docs_trees).
  destruct (apply_edits_tree uri l Hp edits s1 tr0 H1) as (tr & Htr & Hl2).
  exists tr. destruct (last_opt edits) as [e|] eqn:Ee.
  - destruct Hl2 as (old & Hold). exists old. split; [exact Htr|].
    rewrite (Hlast e eq_refl) in Hold. rewrite rope_content_encode in Hold; assumption.
  - exists old0. subst tr. split; [exact Htr|].
    assert (edits = []) by (destruct edits; [reflexivity|]; now apply last_opt_none in Ee).
    rewrite (He H). exact Hp0.
Qed.

Lemma history_current b es : forall s s',
  parse_total T -> Forall event_ok es -> trees_current s ->
  doc_history b es s = Ok s' -> trees_current s'.
Proof.
  induction es as [|e es IH]; intros s s' Hp Hes Hc H.
  - cbn in H. inversion H; subst; exact Hc.
  - inversion Hes as [|? ? He Hes']; subst. cbn [doc_history] in H.
    destruct (doc_step b s e) as [s1|] eqn:E; [|discriminate]. cbn [bind] in H.
    refine (IH s1 s' Hp Hes' _ H). clear IH H.
    destruct e as [F uri t|tid uri cs|F uri]; cbn [doc_step event_ok] in *.
    + destruct (did_open F b uri t false s) as [[s2 d]|] eqn:E2; [|discriminate].
      cbn in E. inversion E; subst. eapply did_open_current; eauto.
    + destruct (did_change tid uri cs s) as [[s2 d]|] eqn:E2; [|discriminate].
      cbn in E. inversion E; subst. eapply did_change_current; eauto.
    + destruct (did_save F b uri s) as [[s2 d]|] eqn:E2; [|discriminate].
      cbn in E. inversion E; subst. eapply did_save_current; eauto.
Qed.

Lemma default_current : trees_current (ls_default T).
Proof. intros uri l t _ H. discriminate. Qed.

(** Indexing a directory. *)
Lemma read_file_current F p l s s' :
  parse_total T -> disk_ok F -> file_ext p = Some l -> trees_current s ->
  read_file F p l s = Ok s' -> trees_current s'.
Proof.
  intros Hp (Hd1 & Hd2) Hl Hc H. unfold read_file in H.
  destruct (f_canon F p) as [name| |] eqn:Ec; try (inversion H; subst; exact Hc).
  destruct (f_read F name) as [t|] eqn:Er; [|inversion H; subst; exact Hc].
  pose proof (Hd1 _ _ Ec) as Hext. rewrite Hl in Hext.
  set (uri := file_uri name) in *. set (s1 := set_docs (sinsert uri t (ls_docs s)) s) in *.
  assert (Hf : same_elsewhere uri s s').
  { eapply same_trans; [apply (same_set_docs uri t)|]. eapply same_trans; [apply same_add_tree|].
    eapply same_add_variables; exact H. }
  apply add_variables_docs in H. destruct H as (E1 & E2 & E3 & E4).
  eapply current_update; [exact Hf|exact Hc|]. intros l' t' Hl' Ht'.
  rewrite Hext in Hl'. inversion Hl'; subst l'.
  assert (Etr : trees_of l s' = trees_of l (add_tree uri l (encode t) s1)) by (destruct l; assumption).
  rewrite E1 in Ht'. rewrite Etr, E4. unfold add_tree in *.
  destruct (parse s1 l (encode t) (sget uri (trees_of l s1))) as [tr|] eqn:Ep.
  2:{ unfold parse in Ep. now apply Hp in Ep. }
  assert (Et : t' = t).
  { rewrite set_trees_docs in Ht'. unfold s1 in Ht'. lsimp in Ht'.
    rewrite sget_sinsert_same in Ht'. congruence. }
  subst t'. split; [eapply Hd2; exact Er|]. exists tr, (sget uri (trees_of l s1)).
  rewrite trees_of_set_same, sget_sinsert_same, set_trees_parser. split; [reflexivity|exact Ep].
Qed.
Lemma walk_entries_current F es : forall s s',
  parse_total T -> disk_ok F -> trees_current s ->
  walk_entries F es s = Ok (Some s') -> trees_current s'.
Proof.
  induction es as [|e es IH]; intros s s' Hp Hd Hc H.
  - cbn in H. inversion H; subst; exact Hc.
  - destruct e as [|p|p]; cbn [walk_entries] in H; [discriminate| |eapply IH; eauto].
    destruct (file_ext p) as [l|] eqn:El; [|eapply IH; eauto].
    destruct (read_file F p l s) as [s1|] eqn:E; [|discriminate]. cbn [bind] in H.
    refine (IH s1 s' Hp Hd _ H). eapply read_file_current; eauto.
Qed.
Lemma walk_dirs_current F ds : forall s s',
  parse_total T -> disk_ok F -> trees_current s ->
  walk_dirs F ds s = Ok (Some s') -> trees_current s'.
Proof.
  induction ds as [|d ds IH]; intros s s' Hp Hd Hc H.
  - cbn in H. inversion H; subst; exact Hc.
  - cbn [walk_dirs] in H.
    destruct (walk_entries F (f_walk F d) s) as [[s1|]|] eqn:E; cbn [bind] in H; try discriminate.
    refine (IH s1 s' Hp Hd _ H). eapply walk_entries_current; eauto.
Qed.
Lemma walkdir_current F b c d s :
  parse_total T -> disk_ok F -> walkdir T F b c = Ok (Some (d, s)) -> trees_current s.
Proof.
  intros Hp Hd H. unfold walkdir in H.
  destruct (walk_dirs F _ (walk_init T c)) as [[s1|]|] eqn:E; cbn [bind] in H; try discriminate.
  destruct (read_trees F b s1) as [d1|]; cbn [bind] in H; [|discriminate].
  inversion H; subst. eapply walk_dirs_current; eauto.
  unfold walk_init, update_backend. intros uri l t _ Ht.
  destruct (String.eqb _ _) in Ht; discriminate.
Qed.
End Files.
