(** * PClient: the server as an editor sees it (C86 to C91). *)
From Coq Require Import ZArith.
From Verif Require Import Base RString Utf8 Rope Types Captures.
From Verif Require Import MDefinition MObjects MTemplates MSearchErrors MLspFiles MLspTask MChannels MBackend MNode.
From Verif Require Import SpecText SpecFiles SpecScope SpecScope2 SpecObjects SpecLint SpecConfig SpecChannels SpecServer SpecClient.
From Verif Require Import PText PText2 PUtf8 PFiles PScope PObjects PLint PLint2 PLint3 PConfig PChannels PChannels4 PChannels5 PServer.

(** ** The text of a document (C86) *)
Section Text.
Context {T : ts} (url : url_parser) (b : build).
Implicit Types s : task_state T.
Lemma did_save_docs F uri (d d' : lsp_files T) r : did_save F b uri d = Ok (d', r) -> ls_docs d' = ls_docs d.
Proof.
  unfold did_save. destruct (file_ext uri) as [l|]; [|intros H; inversion H; reflexivity].
  destruct (sget uri (ls_docs d)) as [t|]; [|intros H; inversion H; reflexivity].
  destruct (add_variables uri l (rope_content t) (delete_variables uri d)) as [d1|] eqn:E; cbn [bind]; [|discriminate].
  destruct (read_tree F b uri d1); cbn [bind]; [|discriminate]. intros H. inversion H; subst.
  apply add_variables_docs in E. destruct E as (E & _). rewrite E. unfold delete_variables. destruct (sget uri (ls_vars d)); reflexivity.
Qed.
Lemma did_open_docs F uri t (d d' : lsp_files T) r : file_ext uri <> None ->
  did_open F b uri t false d = Ok (d', r) -> sget uri (ls_docs d') = Some t.
Proof.
  intros Hx. unfold did_open. destruct (file_ext uri) as [l|]; [|congruence]. set (d2 := set_docs _ _).
  destruct (add_variables uri l (encode t) (add_tree uri l (encode t) d2)) as [d3|] eqn:E; cbn [bind]; [|discriminate].
  assert (H3 : sget uri (ls_docs d3) = Some t).
  { apply add_variables_docs in E. destruct E as (E & _). rewrite E, (proj1 (add_tree_same _ _ _ _)). unfold d2. lsimp. apply sget_sinsert_same. }
  destruct (read_tree F b uri d3) as [v|]; cbn [bind]; [|discriminate]. destruct v; intros H; inversion H; subst; exact H3.
Qed.
(** Messages that neither open nor change [uri], nor index, keep its text. *)
Lemma step_untouched F uri s s' m es : untouched uri m -> step F url b s m = Ok (s', es) ->
  sget uri (ls_docs (tk_data s')) = sget uri (ls_docs (tk_data s)).
Proof.
  intros Hm H. destruct m; cbn [step untouched] in *.
  - inversion H; subst. cbn. destruct client as [n|]; [|reflexivity]. destruct (String.eqb n _); reflexivity.
  - destruct Hm.
  - destruct (did_open F b uri0 t false (tk_data s)) as [(d & r)|] eqn:E; cbn [bind] in H; inversion H; subst. cbn.
    destruct (did_open_frame _ _ _ _ _ _ _ _ E) as (Hs & _). destruct (Hs uri (not_eq_sym Hm)) as (Hd & _). now rewrite Hd.
  - destruct (did_change (tk_next s) uri0 cs (tk_data s)) as [(d & r)|] eqn:E; cbn [bind snd fst] in H; [|discriminate].
    destruct (did_change_frame _ _ _ _ _ _ E) as (Hs & _). destruct (Hs uri (not_eq_sym Hm)) as (Hd & _).
    destruct r; inversion H; subst; cbn; now rewrite Hd.
  - destruct (did_save F b uri0 (tk_data s)) as [(d & r)|] eqn:E; cbn [bind] in H; inversion H; subst. cbn.
    now rewrite (did_save_docs _ _ _ _ _ E).
  - destruct (do_completion _ _ _ _ _); cbn [bind] in H; inversion H; subst; reflexivity.
  - destruct (do_hover _ _ _ _); cbn [bind] in H; inversion H; subst; reflexivity.
  - destruct (goto_definition _ _ _ _ _ _); cbn [bind] in H; inversion H; subst; reflexivity.
  - destruct (code_action _ _ _ _) as [[a|]|]; cbn [bind] in H; [|inversion H; subst; reflexivity|discriminate].
    destruct (process_code_actions _ _ _ _) as [p|]; cbn [bind] in H; [|discriminate]. destruct (snd p); inversion H; subst; reflexivity.
  - destruct (String.eqb cmd _); inversion H; subst; reflexivity.
  - inversion H; subst; reflexivity.
  - inversion H; subst; reflexivity.
  - inversion H; subst; reflexivity.
Qed.
Lemma step_change_text F uri cs t t' s s' es : sget uri (ls_docs (tk_data s)) = Some t -> easy_changes t cs t' ->
  step F url b s (MDidChange uri cs) = Ok (s', es) -> sget uri (ls_docs (tk_data s')) = Some t'.
Proof.
  intros Ht Hc H. destruct (easy_session_text T uri [cs] (tk_next s) (tk_data s) t t' Ht) as (d & E & Hd).
  { eapply esess_cons; [exact Hc|constructor]. }
  cbn [server_session step] in *. destruct (did_change (tk_next s) uri cs (tk_data s)) as [(d1 & r)|]; [|discriminate].
  inversion E; subst d1. cbn [bind snd fst] in H. destruct r; inversion H; subst; exact Hd.
Qed.
Lemma replay_snoc_inv ms m F s s2 tr : replay url b s (ms ++ [(m, F)]) = Ok (s2, tr) ->
  exists s1 tr1 es, replay url b s ms = Ok (s1, tr1) /\ step F url b s1 m = Ok (s2, es) /\ tr = tr1 ++ [(m, es)].
Proof.
  intros H. destruct (replay_split url b _ _ _ _ _ H) as (s1 & tr1 & tr2 & H1 & H2 & ->). cbn [replay] in H2.
  destruct (step F url b s1 m) as [(s3 & es)|] eqn:E; [|discriminate]. inversion H2; subst. eauto 8.
Qed.
Lemma replay_text uri : file_ext uri <> None -> forall ms t, editor_text uri ms t -> forall s l s' tr,
  map fst l = ms -> replay url b s l = Ok (s', tr) -> sget uri (ls_docs (tk_data s')) = Some t.
Proof.
  intros Hx ms t He. induction He as [ms t|ms t cs t' He IH Hc|ms t m He IH Hm]; intros s l s' tr Hl Hr;
    apply map_eq_app in Hl; destruct Hl as (l1 & l2 & -> & Hl1 & Hl2);
    (destruct l2 as [|(m', F) [|? ?]]; try discriminate); cbn in Hl2; inversion Hl2; subst;
    destruct (replay_snoc_inv _ _ _ _ _ _ Hr) as (s1 & tr1 & es & H1 & H2 & _).
  - cbn [step] in H2. destruct (did_open F b uri t false (tk_data s1)) as [(d & r)|] eqn:E; cbn [bind] in H2; inversion H2; subst.
    cbn. exact (did_open_docs _ _ _ _ _ _ Hx E).
  - eapply step_change_text; [eapply IH; [reflexivity|exact H1]|exact Hc|exact H2].
  - rewrite (step_untouched _ _ _ _ _ _ Hm H2). eapply IH; [reflexivity|exact H1].
Qed.
Lemma reach_replay l (y : sys T) s : exec url b (sys0 T) l = Some y -> state_of y s ->
  exists tr, replay url b (task0 T) (y_taken y) = Ok (s, tr).
Proof.
  intros He Hs. assert (Ha : alive y) by (unfold alive; destruct Hs as [->|(es & ->)]; discriminate).
  destruct (inv_reach url b l y He Ha) as (s' & tr & perf & pend & [I1 I2 _ _ _ _ _]).
  assert (s' = s).
  { destruct I1 as [(I1 & _)|I1], Hs as [Hs|(es & Hs)]; rewrite I1 in Hs; inversion Hs; reflexivity. }
  subst s'. eauto.
Qed.
Lemma reachable_text l (y : sys T) s uri t : exec url b (sys0 T) l = Some y -> state_of y s ->
  file_ext uri <> None -> editor_text uri (map fst (y_taken y)) t -> sget uri (ls_docs (tk_data s)) = Some t.
Proof.
  intros He Hs Hx Ht. destruct (reach_replay l y s He Hs) as (tr & Hr). exact (replay_text uri Hx _ _ Ht _ _ _ _ eq_refl Hr).
Qed.

(** ** Only indexed files are known to an editor that is not asked to open *)
Definition seen (l : list (msg * fs)) (uri : string) : Prop :=
  exists F c t k, In (MInitialized, F) l /\ on_disk F (entry F c) uri t k.
Lemma sget_known uri t cs tid (d d' : lsp_files T) r : did_change tid uri cs d = Ok (d', r) ->
  sget uri (ls_docs d') = Some t -> exists t0, sget uri (ls_docs d) = Some t0.
Proof.
  intros H Ht. destruct (sget uri (ls_docs d)) as [t0|] eqn:E; [eauto|]. rewrite (did_change_unknown _ _ _ _ E) in H.
  inversion H; subst. congruence.
Qed.
Lemma step_seen F s s' m es l : parse_total T -> (forall u t, m <> MDidOpen u t) ->
  (forall u t, sget u (ls_docs (tk_data s)) = Some t -> seen l u) ->
  step F url b s m = Ok (s', es) -> forall u t, sget u (ls_docs (tk_data s')) = Some t -> seen (l ++ [(m, F)]) u.
Proof.
  intros Hp Hm Hk H u t Ht.
  assert (Hold : forall t0, sget u (ls_docs (tk_data s)) = Some t0 -> seen (l ++ [(m, F)]) u).
  { intros t0 H0. destruct (Hk u t0 H0) as (F0 & c & t1 & k & HI & HD). exists F0, c, t1, k. split; [apply in_or_app; now left|exact HD]. }
  destruct m; try (apply (Hold t); rewrite <- Ht; symmetry; eapply step_untouched; [|exact H]; exact I).
  - destruct (do_initialized_cases F b s s' es Hp H) as [(_ & _ & _ & _ & HX & _)|HN].
    + apply (ix_docs _ _ _ _ HX) in Ht. destruct Ht as (k & Ht). exists F, (tk_config s), t, k. split; [apply in_or_app; right; now left|exact Ht].
    + destruct HN as (_ & -> & _). eauto.
  - now elim (Hm uri t0).
  - cbn [step] in H. destruct (did_change (tk_next s) uri cs (tk_data s)) as [(d & r)|] eqn:E; cbn [bind snd fst] in H; [|discriminate].
    assert (Hd : sget u (ls_docs d) = Some t) by (destruct r; inversion H; subst; exact Ht).
    destruct (String.string_dec u uri) as [->|Hne].
    + destruct (sget_known _ _ _ _ _ _ _ E Hd) as (t0 & H0). eauto.
    + destruct (did_change_frame _ _ _ _ _ _ E) as (Hs & _). destruct (Hs u Hne) as (Hd' & _). apply (Hold t). congruence.
Qed.
Lemma replay_seen : parse_total T -> forall l s tr,
  (forall m F, In (m, F) l -> forall u t, m <> MDidOpen u t) -> replay url b (task0 T) l = Ok (s, tr) ->
  forall u t, sget u (ls_docs (tk_data s)) = Some t -> seen l u.
Proof.
  intros Hp l. induction l as [|(m, F) l IH] using rev_ind; intros s tr Hm Hr u t Ht.
  - inversion Hr; subst. discriminate.
  - destruct (replay_snoc_inv _ _ _ _ _ _ Hr) as (s1 & tr1 & es & H1 & H2 & _).
    eapply step_seen; [exact Hp| | |exact H2|exact Ht].
    + apply (Hm m F). apply in_or_app. right. now left.
    + apply (IH s1 tr1); [|exact H1]. intros m0 F0 H0. apply (Hm m0 F0). apply in_or_app. now left.
Qed.
End Text.

(** ** From what the user does to the messages *)
Lemma delivered_app c us us' : delivered c (us ++ us') = delivered c us ++ delivered c us'.
Proof. unfold delivered. now rewrite !flat_map_app. Qed.
Lemma told c uri us t : ca_open_close c = Some true -> ca_change c = Some SyncIncremental ->
  in_editor easy_changes uri us t -> editor_text uri (delivered c us) t.
Proof.
  intros Ho Hc H.
  assert (Hone : forall ms t0, editor_text uri ms t0 -> forall ms', Forall (untouched uri) ms' -> editor_text uri (ms ++ ms') t0).
  { intros ms t0 H0 ms' HF. revert ms H0. induction HF as [|m ms' Hm _ IH]; intros ms H0; [now rewrite app_nil_r|].
    change (m :: ms') with ([m] ++ ms'). rewrite app_assoc. apply IH. now apply et_other. }
  induction H as [us t|us t cs t' H IH HE|us t H IH|us t a H IH Ha]; rewrite delivered_app.
  - unfold delivered at 2. cbn [flat_map tell app]. rewrite Ho. cbn. apply et_open.
  - unfold delivered at 2. cbn [flat_map tell app]. rewrite Hc. cbn. eapply et_change; eauto.
  - apply Hone; [exact IH|]. unfold delivered. cbn [flat_map tell]. rewrite app_nil_r.
    destruct (yes (ca_will_save c)), (yes (ca_save c)); cbn; repeat constructor.
  - apply Hone; [exact IH|]. unfold delivered. cbn [flat_map]. rewrite app_nil_r. destruct a; cbn [about tell] in *.
    + destruct (yes (ca_open_close c)); cbn; repeat constructor; exact Ha.
    + destruct (ca_change c) as [[]|]; cbn; repeat constructor; exact Ha.
    + destruct (yes (ca_will_save c)), (yes (ca_save c)); cbn; repeat constructor.
    + destruct (yes (ca_open_close c)); cbn; repeat constructor.
Qed.
Lemma close_ignored c us us' uri : delivered c (us ++ UClose uri :: us') = delivered c (us ++ us').
Proof.
  rewrite !delivered_app. f_equal. change (UClose uri :: us') with ([UClose uri] ++ us'). rewrite delivered_app.
  unfold delivered at 1. cbn. destruct (yes (ca_open_close c)); reflexivity.
Qed.
Lemma never_opens us u t : ~ In (MDidOpen u t) (delivered server_caps us).
Proof.
  unfold delivered. intros H. apply in_flat_map in H. destruct H as (e & He & H). apply in_flat_map in He. destruct He as (a & _ & He).
  destruct a; cbn in He; [destruct He| | |destruct He].
  - destruct He as [<-|[]]. destruct H as [H|[]]. discriminate.
  - destruct He as [<-|[<-|[]]]; [destruct H|]. destruct H as [H|[]]. discriminate.
Qed.
Lemma conforming_known T url b l (y : sys T) s us : parse_total T -> exec url b (sys0 T) l = Some y -> state_of y s ->
  (forall u t F, In (MDidOpen u t, F) (y_taken y) -> In (MDidOpen u t) (delivered server_caps us)) ->
  forall u t, sget u (ls_docs (tk_data s)) = Some t ->
    exists F c t' k, In (MInitialized, F) (y_taken y) /\ on_disk F (entry F c) u t' k.
Proof.
  intros Hp He Hs Hc u t Ht. destruct (reach_replay url b l y s He Hs) as (tr & Hr).
  refine (replay_seen url b Hp _ _ _ _ Hr u t Ht). intros m F Hm u0 t0 ->. exact (never_opens us u0 t0 (Hc _ _ _ Hm)).
Qed.

(** ** Commands (C88) *)
Lemma offered_known T F url b (s s' : task_state T) es rid uri pos l title cmd :
  step F url b s (MCodeAction rid uri pos) = Ok (s', es) -> In (EReply rid (RCodeActions l)) es ->
  In (CaCommand title cmd) l -> In cmd (ca_commands server_caps).
Proof.
  intros H Hr Hc. cbn [step] in H.
  destruct (code_action b uri pos (tk_data s)) as [[a|]|]; cbn [bind] in H; [|inversion H; subst; destruct Hr|discriminate].
  assert (HP : forall p, process_code_actions F url a (tk_data s) = Ok p -> forall t0 c0, In (CaCommand t0 c0) (fst p) -> In c0 (ca_commands server_caps)).
  { intros p Hp t0 c0 H0. unfold process_code_actions in Hp. destruct a.
    - inversion Hp; subst. destruct H0 as [H0|[H0|[]]]; inversion H0; cbn; auto.
    - destruct (f_canon F _); [destruct (url _); [|discriminate]| |]; inversion Hp; subst; cbn in H0; destruct H0 as [H0|[]] || destruct H0; discriminate. }
  destruct (process_code_actions F url a (tk_data s)) as [p|] eqn:Ep; cbn [bind] in H; [|discriminate].
  destruct (snd p); inversion H; subst.
  - destruct Hr as [Hr|[Hr|[]]]; [discriminate|]. inversion Hr; subst. eapply HP; eauto.
  - destruct Hr as [Hr|[]]. inversion Hr; subst. eapply HP; eauto.
Qed.
Definition is_index (e : effect) : nat := match e with ESelf m => asks_index m | _ => 0%nat end.
Definition indexings (es : list effect) : nat := fold_right (fun e n => is_index e + n)%nat 0%nat es.
Lemma indexings_app a c : indexings (a ++ c) = (indexings a + indexings c)%nat.
Proof. induction a as [|e a IH]; cbn; [reflexivity|]. unfold indexings in *. lia. Qed.
Lemma total_app f a c : total f (a ++ c) = (total f a + total f c)%nat.
Proof. induction a as [|e a IH]; cbn; [reflexivity|]. unfold total in *. lia. Qed.
Lemma indexings_close m es : indexings (with_close m es) = indexings es.
Proof.
  unfold with_close. destruct (msg_rid m); [|reflexivity]. destruct (existsb _ _); [reflexivity|]. rewrite indexings_app. cbn. lia.
Qed.
Lemma logs_none es : Forall (fun e => exists m, e = ELog m) es -> indexings es = 0%nat.
Proof. induction 1 as [|e es (m & ->) _ IH]; [reflexivity|exact IH]. Qed.
Lemma step_indexings T F url b (s s' : task_state T) m es : m <> MDidChangeConfiguration None ->
  step F url b s m = Ok (s', es) -> indexings es = asks_reset m.
Proof.
  intros Hm H. destruct m; cbn [step asks_reset] in *.
  - inversion H; subst. reflexivity.
  - unfold do_initialized in H. pose proof (init_logs (tk_config s)) as HL. set (logs := ELog "Initialized" :: _) in *. clearbody logs.
    destruct (negb _); [inversion H; subst; rewrite indexings_app, logs_none; [reflexivity|exact HL]|].
    destruct (walkdir T F b (tk_config s)) as [[(d & data)|]|]; cbn [bind] in H; inversion H; subst; rewrite indexings_app, logs_none; try exact HL; reflexivity.
  - destruct (did_open F b uri t false (tk_data s)) as [(d & r)|] eqn:E; cbn [bind] in H; inversion H; subst. destruct r; reflexivity.
  - destruct (did_change (tk_next s) uri cs (tk_data s)) as [(d & r)|] eqn:E; cbn [bind snd fst] in H; [|discriminate].
    destruct r as [te|]; inversion H; subst; [|reflexivity]. rewrite indexings_app. destruct (te_abort te); reflexivity.
  - destruct (did_save F b uri (tk_data s)) as [(d & r)|] eqn:E; cbn [bind] in H; inversion H; subst. destruct r; reflexivity.
  - destruct (do_completion _ _ _ _ _); cbn [bind] in H; inversion H; subst; reflexivity.
  - destruct (do_hover _ _ _ _); cbn [bind] in H; inversion H; subst; reflexivity.
  - destruct (goto_definition _ _ _ _ _ _) as [r|]; cbn [bind] in H; inversion H; subst. destruct r; reflexivity.
  - destruct (code_action _ _ _ _) as [[a|]|]; cbn [bind] in H; [|inversion H; subst; reflexivity|discriminate].
    destruct (process_code_actions _ _ _ _) as [p|]; cbn [bind] in H; [|discriminate]. destruct (snd p); inversion H; subst; reflexivity.
  - destruct (String.eqb_spec cmd "reset_variables"), (string_dec cmd "reset_variables"); try congruence; inversion H; subst; reflexivity.
  - injection H as <- <-. destruct (document_symbols uri (tk_data s)); reflexivity.
  - destruct settings as [c|]; [|congruence]. inversion H; subst. cbn. reflexivity.
  - inversion H; subst; reflexivity.
Qed.
Section Count.
Context {T : ts} (url : url_parser) (b : build).
Definition plain (ms : list (msg * fs)) : Prop := forall F, ~ In (MDidChangeConfiguration None, F) ms.
Definition pending (y : sys T) : nat := match y_task y with TBusy _ es => indexings es | _ => 0%nat end.
Lemma send_count m (y y' : sys T) : alive y -> send_lsp m y = Some y' ->
  y_enq y' = y_enq y ++ [m] /\ pending y' = pending y /\ y_taken y' = y_taken y.
Proof.
  intros Ha H. unfold send_lsp in H. destruct (y_task y) eqn:E; try now elim Ha.
  - destruct (Nat.ltb _ _); inversion H; subst. unfold pending. cbn. rewrite E. auto.
  - destruct (Nat.ltb _ _); inversion H; subst. unfold pending. cbn. rewrite E. auto.
Qed.
Lemma count_reach l (y : sys T) : exec url b (sys0 T) l = Some y -> alive y -> plain (y_taken y) ->
  (total asks_index (y_enq y) + pending y = total asks_index (client_msgs l) + total asks_reset (map fst (y_taken y)))%nat.
Proof.
  revert l y. apply (exec_ind url b (fun l y => alive y -> plain (y_taken y) ->
    (total asks_index (y_enq y) + pending y = total asks_index (client_msgs l) + total asks_reset (map fst (y_taken y)))%nat)).
  - intros _ _. reflexivity.
  - intros l y a y' _ IH Hact Ha' Hp'. assert (Ha : alive y) by (intros E; apply Ha'; eapply act_dead; eauto).
    rewrite client_msgs_app, total_app. specialize (IH Ha).
    assert (Hone : total asks_index (client_msgs [a]) = match a with AClient m => asks_index m | _ => 0%nat end).
    { destruct a; try reflexivity. apply Nat.add_0_r. }
    rewrite Hone. clear Hone. unfold pending in *. destruct a; cbn [act] in Hact.
    + assert (Hs : send_lsp m y = Some y') by (destruct m; try discriminate; exact Hact).
      destruct (send_count _ _ _ Ha Hs) as (E1 & E2 & E3). unfold pending in E2. rewrite E1, E2, E3, total_app in *. specialize (IH Hp').
      change (total asks_index [m]) with (asks_index m + 0)%nat. lia.
    + destruct (y_task y) as [s|s es|] eqn:Et; try discriminate. destruct (y_lspq y) as [|m q]; [discriminate|].
      destruct (step F url b s m) as [(s1 & es)|] eqn:Es; injection Hact as <-; [|now elim Ha'].
      cbn [y_taken y_enq y_task] in *. rewrite map_app, total_app.
      rewrite indexings_close, (step_indexings T F url b s s1 m es); [| |exact Es].
      * assert (Hp : plain (y_taken y)) by (intros F0 H0; apply (Hp' F0); apply in_or_app; now left). specialize (IH Hp).
        change (total asks_reset (map fst [(m, F)])) with (asks_reset m + 0)%nat. lia.
      * intros ->. apply (Hp' F). apply in_or_app. right. now left.
    + destruct (y_task y) as [s|s es|] eqn:Et; try discriminate. destruct es as [|e es].
      * injection Hact as <-. cbn [y_taken y_enq y_task] in *. specialize (IH Hp'). change (indexings []) with 0%nat in IH. lia.
      * change (indexings (e :: es)) with (is_index e + indexings es)%nat in IH.
        destruct e; cbn [do_effect] in Hact; cbn [is_index] in IH.
        -- destruct (y_diag y); try (destruct (Nat.ltb _ _); [|discriminate]); injection Hact as <-; cbn [y_taken y_enq y_task] in *; specialize (IH Hp'); lia.
        -- destruct (Nat.ltb _ _); [|discriminate]. injection Hact as <-. cbn [y_enq y_task y_taken] in *. rewrite total_app. specialize (IH Hp').
           change (total asks_index [m]) with (asks_index m + 0)%nat. lia.
        -- injection Hact as <-; cbn [y_taken y_enq y_task] in *; specialize (IH Hp'); lia.
        -- injection Hact as <-; cbn [y_taken y_enq y_task] in *; specialize (IH Hp'); lia.
        -- injection Hact as <-; cbn [y_taken y_enq y_task] in *; specialize (IH Hp'); lia.
        -- injection Hact as <-; cbn [y_taken y_enq y_task] in *; specialize (IH Hp'); lia.
    + destruct (y_diag y); try discriminate. destruct (y_diagq y); [discriminate|]. injection Hact as <-; cbn [y_taken y_enq y_task] in *; specialize (IH Hp'); lia.
    + destruct (y_diag y) as [|rest acts|acts|]; try discriminate. destruct rest as [|[u e] rest];
        [|destruct (url u)]; injection Hact as <-; cbn [y_taken y_enq y_task] in *; specialize (IH Hp'); lia.
    + destruct (y_diag y) as [|rest acts|acts|]; try discriminate.
      destruct (send_lsp (MCodeActions acts) y) as [y1|] eqn:Es; [|discriminate]. destruct (send_count _ _ _ Ha Es) as (E1 & E2 & E3).
      injection Hact as <-. unfold pending in E2. cbn [y_enq y_taken y_task] in *. rewrite E1, E3, total_app in *. specialize (IH Hp').
      change (total asks_index [MCodeActions acts]) with 0%nat. lia.
    + destruct (find _ (y_timers y)) as [x|]; [|discriminate]. set (y1 := mksys _ _ _ _ _ _ _ _ _) in Hact.
      assert (Ha1 : alive y1) by exact Ha.
      destruct (tm_chan x); [|injection Hact as <-; cbn [y1 y_taken y_enq y_task] in *; specialize (IH Hp'); lia].
      destruct (send_count _ _ _ Ha1 Hact) as (E1 & E2 & E3). unfold pending in E2. rewrite E1, E2, E3, total_app in *.
      cbn [y1 y_taken y_enq y_task] in *. specialize (IH Hp'). change (total asks_index [MDidSave (tm_uri x)]) with 0%nat. lia.
Qed.
Lemma reindex_count l (y : sys T) : exec url b (sys0 T) l = Some y -> at_rest y -> plain (y_taken y) ->
  total asks_index (map fst (y_taken y)) = (total asks_index (client_msgs l) + total asks_reset (map fst (y_taken y)))%nat.
Proof.
  intros He ((s & Ht) & Hq & _) Hp. assert (Ha : alive y) by (unfold alive; rewrite Ht; discriminate).
  pose proof (count_reach l y He Ha Hp) as H. destruct (inv_reach url b l y He Ha) as (s' & tr & perf & pend & [_ _ _ I _ _ _]).
  rewrite I, Hq, app_nil_r in H. unfold pending in H. rewrite Ht in H. lia.
Qed.
End Count.

(** ** A copy of the state (C89) *)
Section Clone.
Context {T : ts} (url : url_parser) (b : build).
Implicit Types d : lsp_files T.
Definition lift (x : option N) (r : res (lsp_files T)) : res (lsp_files T) :=
  match r with Ok d => Ok (set_task x d) | Panic => Panic end.
Lemma add_tree_timer x uri l c d : add_tree uri l c (set_task x d) = set_task x (add_tree uri l c d).
Proof. destruct l; unfold add_tree, parse; lsimp; match goal with |- context [t_parse T ?l0 c ?o] => destruct (t_parse T l0 c o) end; reflexivity. Qed.
Lemma delete_timer x uri d : delete_variables uri (set_task x d) = set_task x (delete_variables uri d).
Proof. unfold delete_variables. lsimp. destruct (sget uri (ls_vars d)); reflexivity. Qed.
Lemma add_variables_timer x uri l c d : add_variables uri l c (set_task x d) = lift x (add_variables uri l c d).
Proof.
  unfold add_variables. destruct l; lsimp.
  - destruct (sget uri (ls_tt d)) as [tr|]; [|reflexivity]. destruct (snippets_query _ _ _) as [sn|]; [|reflexivity]. cbn [bind].
    destruct (sn_error sn); [reflexivity|]. destruct (definition_query _ _ _ _ _); reflexivity.
  - destruct (sget uri (ls_bt d)) as [tr|]; [|reflexivity]. change (ls_query (set_task x d)) with (ls_query d).
    destruct (backend_definition_query _ _ _ _); [|reflexivity]. cbn [bind]. destruct (backend_templates_query _ _ _ _); reflexivity.
Qed.
Lemma read_tree_timer x F uri d : read_tree F b uri (set_task x d) = read_tree F b uri d.
Proof. destruct d. reflexivity. Qed.
Definition lift2 {A} (x : option N) (r : res (lsp_files T * A)) : res (lsp_files T * A) :=
  match r with Ok (d, a) => Ok (set_task x d, a) | Panic => Panic end.
Lemma did_open_timer x F uri t d : did_open F b uri t false (set_task x d) = lift2 x (did_open F b uri t false d).
Proof.
  unfold did_open. destruct (file_ext uri) as [l|]; [|reflexivity]. rewrite delete_timer. set (d1 := delete_variables uri d).
  change (set_docs (sinsert uri t (ls_docs (set_task x d1))) (set_task x d1)) with (set_task x (set_docs (sinsert uri t (ls_docs d1)) d1)).
  rewrite add_tree_timer, add_variables_timer. destruct (add_variables _ _ _ _) as [d2|]; [|reflexivity]. cbn [lift bind].
  rewrite read_tree_timer. destruct (read_tree F b uri d2) as [[e|]|]; reflexivity.
Qed.
Lemma did_save_timer x F uri d : did_save F b uri (set_task x d) = lift2 x (did_save F b uri d).
Proof.
  unfold did_save. destruct (file_ext uri) as [l|]; [|reflexivity]. change (ls_docs (set_task x d)) with (ls_docs d).
  destruct (sget uri (ls_docs d)) as [t|]; [|reflexivity]. rewrite delete_timer, add_variables_timer.
  destruct (add_variables _ _ _ _) as [d2|]; [|reflexivity]. cbn [lift bind].
  rewrite read_tree_timer. destruct (read_tree F b uri d2) as [e|]; reflexivity.
Qed.
Lemma input_edit_timer x uri c ie l d : input_edit_tree uri c ie l (set_task x d) = set_task x (input_edit_tree uri c ie l d).
Proof.
  unfold input_edit_tree. destruct l as [[|]|]; [| |reflexivity]; lsimp.
  - destruct (sget uri (ls_tt d)) as [o|]; [|reflexivity]. lsimp. unfold parse; lsimp; match goal with |- context [t_parse T ?l0 c ?o] => destruct (t_parse T l0 c o) end; reflexivity.
  - destruct (sget uri (ls_bt d)) as [o|]; [|reflexivity]. lsimp. unfold parse; lsimp; match goal with |- context [t_parse T ?l0 c ?o] => destruct (t_parse T l0 c o) end; reflexivity.
Qed.
Lemma apply_edits_timer x uri l edits : forall d, apply_edits uri l edits (set_task x d) = set_task x (apply_edits uri l edits d).
Proof.
  unfold apply_edits. induction edits as [|e edits IH]; intros d; [reflexivity|]. cbn [fold_left]. now rewrite input_edit_timer, IH.
Qed.
Lemma step_clone F (s : task_state T) m : ls_parser (tk_data s) = PRust -> ls_query (tk_data s) = PRust ->
  same_answer (step F url b (cloned s) m) (step F url b s m).
Proof.
  intros Hp Hq. destruct s as [c d n]. cbn [tk_data] in *. unfold cloned. cbn [tk_config tk_data tk_next].
  replace (ls_clone d) with (set_task None d) by (destruct d; cbn in *; subst; reflexivity).
  assert (Hrefl : forall es, same_answer (Ok (mktask c (set_task None d) n, es)) (Ok (mktask c d n, es))).
  { intros es. split; [|reflexivity]. split; [reflexivity|]. split; reflexivity. }
  assert (Hrefl1 : forall es, same_answer (Ok (mktask c (set_task None d) (n + 1), es)) (Ok (mktask c d (n + 1), es))).
  { intros es. split; [|reflexivity]. split; [reflexivity|]. split; reflexivity. }
  destruct m; cbn [step tk_data tk_config tk_next].
  - destruct client as [nm|]; [destruct (String.eqb nm _)|]; (split; [split; [reflexivity|split; reflexivity]|reflexivity]).
  - unfold do_initialized. cbn [tk_config tk_data tk_next]. set (logs := ELog "Initialized" :: _). clearbody logs.
    destruct (negb _); [apply Hrefl|]. destruct (walkdir T F b c) as [[(m & data)|]|]; cbn [bind]; [|apply Hrefl|exact I].
    split; [split; [reflexivity|split; reflexivity]|reflexivity].
  - rewrite did_open_timer. destruct (did_open F b uri t false d) as [(d1 & r)|]; cbn [lift2 bind fst snd]; [|exact I].
    split; [split; [reflexivity|split; reflexivity]|reflexivity].
  - unfold did_change. change (ls_docs (set_task None d)) with (ls_docs d). destruct (sget uri (ls_docs d)) as [t|]; [|cbn [bind snd fst]; apply Hrefl].
    destruct (apply_changes t cs) as [[[t2 early] edits]|]; cbn [bind]; [|exact I]. destruct early; cbn [bind snd fst].
    + split; [split; [reflexivity|split; reflexivity]|reflexivity].
    + change (set_docs (sinsert uri t2 (ls_docs d)) (set_task None d)) with (set_task None (set_docs (sinsert uri t2 (ls_docs d)) d)).
      rewrite apply_edits_timer. split.
      * split; [reflexivity|split; reflexivity].
      * cbn [te_abort te_spawn ls_task set_task ls_chan].
        match goal with |- visible (_ ++ _) = visible (match ?x with _ => _ end ++ _) => destruct x end; reflexivity.
  - rewrite did_save_timer. destruct (did_save F b uri d) as [(d1 & r)|]; cbn [lift2 bind fst snd]; [|exact I].
    split; [split; [reflexivity|split; reflexivity]|reflexivity].
  - replace (do_completion b uri pos ctx (set_task None d)) with (do_completion b uri pos ctx d) by (destruct d; reflexivity).
    destruct (do_completion _ _ _ _ _); cbn [bind]; [apply Hrefl|exact I].
  - replace (do_hover b uri pos (set_task None d)) with (do_hover b uri pos d) by (destruct d; reflexivity).
    destruct (do_hover _ _ _ _); cbn [bind]; [apply Hrefl|exact I].
  - replace (goto_definition F url b uri pos (set_task None d)) with (goto_definition F url b uri pos d) by (destruct d; reflexivity).
    destruct (goto_definition _ _ _ _ _ _); cbn [bind]; [apply Hrefl|exact I].
  - replace (code_action b uri start (set_task None d)) with (code_action b uri start d) by (destruct d; reflexivity).
    destruct (code_action _ _ _ _) as [[a|]|]; cbn [bind]; [|apply Hrefl|exact I].
    replace (process_code_actions F url a (set_task None d)) with (process_code_actions F url a d) by (destruct d; reflexivity).
    destruct (process_code_actions _ _ _ _) as [p|]; cbn [bind]; [|exact I]. destruct (snd p); [apply Hrefl1|apply Hrefl].
  - destruct (String.eqb cmd _); apply Hrefl.
  - apply Hrefl.
  - split; [split; [reflexivity|split; reflexivity]|reflexivity].
  - split; [split; [reflexivity|split; reflexivity]|reflexivity].
Qed.
End Clone.

(** ** basic (C90) *)
Lemma as_i32_small n : n < 2147483648 -> as_i32 n = Z.of_N n.
Proof.
  intros H. unfold as_i32. rewrite N.mod_small by lia. destruct (Z.of_N n <? 2147483648)%Z eqn:E; [reflexivity|]. lia.
Qed.
Lemma basic_counts T b src tr ps :
  t_parse T PJinja src None = Some tr -> pieces_ok src ps -> concat (t_captures T QObjects tr src) = cap_pieces ps ->
  N.of_nat (length (flat_map uses ps)) < 2147483648 ->
  basic T b src = Ok (Some (Z.of_nat (length (flat_map uses ps)))).
Proof.
  intros Ht Hp Hc Hn. unfold basic. rewrite Ht. destruct (objects_exact b src _ pt0 ps Hp Hc) as (s & -> & E). cbn [bind]. rewrite E.
  rewrite as_i32_small by exact Hn. do 2 f_equal. lia.
Qed.

(** ** What is on the screen (C91) *)
Section Shown.
Context {T : ts} (url : url_parser) (b : build).
Implicit Types s : task_state T.
Lemma step_quiet F uri s s' m es : still uri m -> step F url b s m = Ok (s', es) ->
  handed es = [] /\ ls_vars (tk_data s') = ls_vars (tk_data s) /\ ls_ignore (tk_data s') = ls_ignore (tk_data s) /\
  ls_config (tk_data s') = ls_config (tk_data s) /\
  sget uri (ls_tt (tk_data s')) = sget uri (ls_tt (tk_data s)).
Proof.
  intros (Hq & Hm) H. destruct m; cbn [step lints] in *; try (now elim Hq).
  - inversion H; subst. cbn. destruct client as [n|]; [|auto]. destruct (String.eqb n _); auto.
  - destruct (did_change (tk_next s) uri0 cs (tk_data s)) as [(d & r)|] eqn:E; cbn [bind snd fst] in H; [|discriminate].
    destruct (did_change_frame _ _ _ _ _ _ E) as (Hs & _ & _ & Hc & _ & _ & Hi). destruct (Hs uri (not_eq_sym Hm)) as (_ & Ht & _).
    assert (Hv : ls_vars d = ls_vars (tk_data s)).
    { unfold did_change in E. destruct (sget uri0 (ls_docs (tk_data s))) as [t0|]; [|inversion E; subst; auto].
      destruct (apply_changes t0 cs) as [[[t2 early] edits]|]; cbn [bind] in E; [|discriminate].
      destruct early; inversion E; subst; [reflexivity|]. lsimp. rewrite (proj2 (input_edit_same _ _ _ _)). reflexivity. }
    destruct r as [te|]; inversion H; subst; cbn [tk_data with_timer with_data]; (split; [|auto]).
    + rewrite handed_app. destruct (te_abort te); reflexivity.
    + reflexivity.
  - destruct (do_completion _ _ _ _ _); cbn [bind] in H; inversion H; subst; auto.
  - destruct (do_hover _ _ _ _); cbn [bind] in H; inversion H; subst; auto.
  - destruct (goto_definition _ _ _ _ _ _) as [r|]; cbn [bind] in H; inversion H; subst. destruct r; auto.
  - destruct (code_action _ _ _ _) as [[a|]|]; cbn [bind] in H; [|inversion H; subst; auto|discriminate].
    destruct (process_code_actions _ _ _ _) as [p|]; cbn [bind] in H; [|discriminate]. destruct (snd p); inversion H; subst; auto.
  - destruct (String.eqb cmd _); inversion H; subst; auto.
  - injection H as <- <-. destruct (document_symbols uri0 (tk_data s)); auto.
  - inversion H; subst. cbn. destruct (cf_user _); auto.
  - inversion H; subst; auto.
Qed.
Lemma replay_quiet uri : forall l s s' tr, Forall (still uri) (map fst l) -> replay url b s l = Ok (s', tr) ->
  flat_map (fun x => flat_map (published_of url) (handed (snd x))) tr = [] /\
  ls_vars (tk_data s') = ls_vars (tk_data s) /\ ls_ignore (tk_data s') = ls_ignore (tk_data s) /\
  ls_config (tk_data s') = ls_config (tk_data s) /\
  sget uri (ls_tt (tk_data s')) = sget uri (ls_tt (tk_data s)).
Proof.
  induction l as [|(m, F) l IH]; intros s s' tr Hq H; cbn [replay map] in *; [inversion H; subst; auto|].
  inversion Hq as [|? ? Hm Hq']; subst. destruct (step F url b s m) as [(s1 & es)|] eqn:E; [|discriminate].
  destruct (replay url b s1 l) as [(s2 & tr')|] eqn:E2; [|discriminate]. inversion H; subst.
  destruct (step_quiet F uri s s1 m es Hm E) as (A1 & A2 & A3 & A4 & A5). destruct (IH s1 s' tr' Hq' E2) as (B1 & B2 & B3 & B4 & B5).
  split; [|repeat split; congruence]. cbn [flat_map snd]. rewrite A1. exact B1.
Qed.
Lemma shown_after_save l (y : sys T) s u v t tr tp ps sts pre F post :
  exec url b (sys0 T) l = Some y -> at_rest y -> state_of y s ->
  y_taken y = pre ++ (MDidSave u, F) :: post -> editor_text u (map fst pre) t -> Forall (still u) (map fst post) ->
  url u = Some v -> file_ext u = Some Template -> scalars t ->
  ls_ignore (tk_data s) = false -> sget u (ls_tt (tk_data s)) = Some tr ->
  parsed T tr (encode t) tp ps sts -> plain_ends tp ->
  exists e1,
    last_published v (y_published y) = Some (publish_of (e1 ++ missing_reports F (cf_templates (ls_config (tk_data s))) sts)) /\
    reported (tallied (t_root_end T tr) tp) (SpecLint.indexed (ls_vars (tk_data s))) (chains ps) e1.
Proof.
  intros He Hrest Hs Ht Het Hq Hv Hx Hsc Hi Htr Hp Hst.
  assert (Ha : alive y) by (unfold alive; destruct Hs as [->|(es & ->)]; discriminate).
  assert (Hd : y_diag y <> DDead) by (destruct Hrest as (_ & _ & _ & -> & _); discriminate).
  destruct (publication_order url b l y He Ha Hd) as (s0 & tr0 & later & Hr & Hpub & Hl). rewrite (Hl Hrest), app_nil_r in Hpub.
  destruct (reach_replay url b l y s He Hs) as (tr1 & Hr1). assert (s0 = s) by congruence. subst s0. clear Hr1.
  rewrite Ht in Hr. destruct (replay_split url b _ _ _ _ _ Hr) as (s1 & trA & trB & R1 & R2 & ->). cbn [replay] in R2.
  destruct (step F url b s1 (MDidSave u)) as [(s2 & es)|] eqn:E; [|discriminate].
  destruct (replay url b s2 post) as [(s3 & trC)|] eqn:E3; [|discriminate]. inversion R2; subst s3 trB.
  destruct (replay_quiet u post s2 s trC Hq E3) as (Q1 & Q2 & Q3 & Q4 & Q5).
  assert (Hdoc : sget u (ls_docs (tk_data s1)) = Some t).
  { eapply (replay_text url b u); [congruence|exact Het|reflexivity|exact R1]. }
  cbn [step] in E. destruct (did_save F b u (tk_data s1)) as [(d & r)|] eqn:Es; cbn [bind fst snd] in E; inversion E; subst s2 es; clear E.
  cbn [with_data tk_data] in Q2, Q3, Q4, Q5.
  pose proof (did_save_frame F b u _ _ _ Es) as (_ & _ & _ & Hc & _ & _ & Hig).
  assert (Htt : ls_tt d = ls_tt (tk_data s1)).
  { unfold did_save in Es. rewrite Hx, Hdoc in Es.
    destruct (add_variables u Template (rope_content t) (delete_variables u (tk_data s1))) as [d1|] eqn:Ea; cbn [bind] in Es; [|discriminate].
    destruct (read_tree F b u d1); cbn [bind] in Es; [|discriminate]. inversion Es; subst.
    apply add_variables_docs in Ea. destruct Ea as (_ & Ea & _). rewrite Ea. unfold delete_variables. destruct (sget u (ls_vars _)); reflexivity. }
  destruct (save_any T F b u t tr tp ps sts (tk_data s1)) as (d' & e1 & Hsave & Hrep & _); auto; try congruence.
  rewrite Es in Hsave. inversion Hsave; subst d' r. clear Hsave.
  exists e1. rewrite Q2, Q4, Hc. split; [|exact Hrep].
  set (es := e1 ++ _) in *. rewrite <- Hpub, flat_map_app. cbn [flat_map snd]. rewrite Q1, app_nil_r.
  assert (E : flat_map (published_of url) (handed [EDiag [(u, es)]]) = [(v, publish_of es)]) by (cbn; now rewrite Hv).
  rewrite E, last_published_snoc, String.eqb_refl. reflexivity.
Qed.
End Shown.

(** ** Requests are handed on *)
Lemma requests_forwarded es : request_ids (forwarded es) = flat_map awaits es.
Proof.
  unfold request_ids, forwarded. induction es as [|e es IH]; [reflexivity|]. cbn [flat_map]. rewrite flat_map_app, IH. f_equal. now destruct e.
Qed.
