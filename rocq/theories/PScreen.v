(** * PScreen: what is on the screen of a session, and the quick fixes (C121, C122). *)
From Verif Require Import Base RString Utf8 Rope Types Captures MTemplates MDefinition MObjects MLspFiles MSearchErrors MLspTask MChannels MQueries.
From Verif Require Import SpecText SpecFiles SpecScope SpecScope2 SpecObjects SpecObjects2 SpecLint SpecNav SpecQueries SpecQueries2 SpecQueries4 SpecChannels SpecServer SpecClient SpecQueries5 SpecScreen.
From Verif Require Import PUtf8 PText PText2 PFiles POrder PLint PLint2 PNode PObjects PNav PNav2 PNav3 PQueries PQueries2 PQueries3 PQueries4 PQueries6 PQueries7 PQueries9 PQueries10 PChannels PChannels2 PChannels3 PChannels4 PChannels5 PServer PClient PClient2 PQueries11.

Section Remembered.
Context {T : ts} (url : url_parser) (b : build).
Implicit Types (s : task_state T) (y : sys T).

(** Every message was once the last one taken. *)
Lemma act_taken y a y' : act url b y a = Some y' -> y_taken y' = y_taken y \/ exists x q, y_lspq y = fst x :: q /\ y_taken y' = y_taken y ++ [x].
Proof.
  assert (Hsend : forall m y0 y1, send_lsp m y0 = Some y1 -> y_taken y1 = y_taken y0).
  { intros m y0 y1 H. unfold send_lsp in H. destruct (y_task y0); try (destruct (Nat.ltb _ _); [|discriminate]); inversion H; reflexivity. }
  intros H. destruct a; cbn [act] in H.
  - left. destruct m; try discriminate; eapply Hsend; exact H.
  - destruct (y_task y) as [s0| |]; try discriminate. destruct (y_lspq y) as [|m q]; [discriminate|]. right.
    destruct (MLspTask.step F url b s0 m) as [[s' es]|]; inversion H; subst; exists (m, F), q; split; reflexivity.
  - left. destruct (y_task y) as [|s0 [|e es]|]; try discriminate; [inversion H; reflexivity|].
    destruct e; cbn [do_effect] in H; try (inversion H; reflexivity);
      try (destruct (Nat.ltb _ _); [|discriminate]; inversion H; reflexivity).
    destruct (y_diag y); try (destruct (Nat.ltb _ _); [|discriminate]); inversion H; reflexivity.
  - left. destruct (y_diag y); try discriminate. destruct (y_diagq y); inversion H; reflexivity.
  - left. destruct (y_diag y) as [|[|[u e] rest] acts| |]; try discriminate; [inversion H; reflexivity|]. destruct (url u); inversion H; reflexivity.
  - left. destruct (y_diag y); try discriminate. destruct (send_lsp _ y) as [y1|] eqn:E; [|discriminate]. inversion H; subst. cbn. eapply Hsend; eauto.
  - left. destruct (find _ (y_timers y)) as [x|]; [|discriminate]. destruct (tm_chan x); [|inversion H; reflexivity].
    apply Hsend in H. exact H.
Qed.
Lemma act_diag_dead y a y' : y_diag y = DDead -> act url b y a = Some y' -> y_diag y' = DDead.
Proof.
  assert (Hsend : forall m y0 y1, send_lsp m y0 = Some y1 -> y_diag y1 = y_diag y0).
  { intros m y0 y1 H. unfold send_lsp in H. destruct (y_task y0); try (destruct (Nat.ltb _ _); [|discriminate]); inversion H; reflexivity. }
  intros Hd H. destruct a; cbn [act] in H; try (rewrite Hd in H; discriminate).
  - rewrite <- Hd. destruct m; try discriminate; eapply Hsend; exact H.
  - destruct (y_task y) as [s0| |]; try discriminate. destruct (y_lspq y) as [|m q]; [discriminate|].
    destruct (MLspTask.step F url b s0 m) as [[s' es]|]; inversion H; subst; exact Hd.
  - destruct (y_task y) as [|s0 [|e es]|]; try discriminate; [inversion H; exact Hd|].
    destruct e; cbn [do_effect] in H; try (inversion H; exact Hd);
      try (destruct (Nat.ltb _ _); [|discriminate]; inversion H; exact Hd).
    rewrite Hd in H. inversion H; subst. first [exact Hd|reflexivity].
  - destruct (find _ (y_timers y)) as [x|]; [|discriminate]. destruct (tm_chan x); [|inversion H; exact Hd].
    apply Hsend in H. rewrite H. exact Hd.
Qed.
Lemma exec_taken l y : exec url b (sys0 T) l = Some y -> forall pre x post, y_taken y = pre ++ x :: post ->
  alive y -> y_diag y <> DDead ->
  exists l0 y0 q, exec url b (sys0 T) l0 = Some y0 /\ y_taken y0 = pre /\ y_lspq y0 = fst x :: q /\ alive y0 /\ y_diag y0 <> DDead.
Proof.
  revert l y. apply (exec_ind url b (fun l y => forall pre x post, y_taken y = pre ++ x :: post -> alive y -> y_diag y <> DDead ->
    exists l0 y0 q, exec url b (sys0 T) l0 = Some y0 /\ y_taken y0 = pre /\ y_lspq y0 = fst x :: q /\ alive y0 /\ y_diag y0 <> DDead)).
  - intros pre x post H. cbn in H. now destruct pre.
  - intros l y a y' He IH Ha pre x post Ht Hal Hd.
    assert (Hal0 : alive y) by (intros E; apply Hal; eapply act_dead; eauto).
    assert (Hd0 : y_diag y <> DDead) by (intros E; apply Hd; eapply act_diag_dead; eauto).
    destruct (act_taken _ _ _ Ha) as [E|(z & q & Eq & E)].
    + rewrite E in Ht. eauto.
    + rewrite E in Ht. destruct post as [|w post] using rev_ind.
      * apply app_inj_tail in Ht. destruct Ht as (Ht & ->). exists l, y, q. auto.
      * clear IHpost. change (pre ++ x :: post ++ [w]) with (pre ++ (x :: post) ++ [w]) in Ht. rewrite app_assoc in Ht. apply app_inj_tail in Ht. destruct Ht as (Ht & _). eauto.
Qed.

(** What happens elsewhere. *)
Definition about (u : string) (d : diag_msg) : Prop := In u (map fst d).
Lemma step_elsewhere F u s s' m es : elsewhere u m -> MLspTask.step F url b s m = Ok (s', es) ->
  sget u (ls_actions (tk_data s')) = sget u (put_queue [m] (ls_actions (tk_data s))) /\
  Forall (fun d => ~ about u d) (handed es) /\
  ls_config (tk_data s') = ls_config (tk_data s) /\ ls_ignore (tk_data s') = ls_ignore (tk_data s).
Proof.
  intros Hm H. pose proof (step_actions url b F s m s' es H) as Ha.
  assert (Hq : still u m -> handed es = [] /\ ls_config (tk_data s') = ls_config (tk_data s) /\ ls_ignore (tk_data s') = ls_ignore (tk_data s)).
  { intros Hs. destruct (step_quiet url b F u s s' m es Hs H) as (Q1 & _ & Q3 & Q4 & _). auto. }
  destruct m; try (destruct Hm; fail);
    try (destruct Hq as (Q1 & Q2 & Q3); [split; [exact (fun x => x)|exact I]|]; rewrite Q1; split; [now rewrite (proj1 Ha)|]; split; [constructor|auto]; fail).
  - cbn [elsewhere] in Hm. destruct Ha as (Ha & _). split; [now apply Ha, not_eq_sym|]. cbn [MLspTask.step] in H.
    destruct (did_open F b uri t false (tk_data s)) as [(d & r)|] eqn:E; cbn [bind fst snd] in H; [|discriminate]. inversion H; subst.
    pose proof (did_open_frame F b _ _ _ _ _ _ E) as (_ & _ & _ & Hc & _ & _ & Hi). split; [|split; assumption].
    destruct r as [x|]; [|constructor]. cbn. constructor; [|constructor]. destruct (did_open_actions b _ _ _ _ _ _ E) as (_ & _ & Hx).
    destruct (Hx x eq_refl) as (v & ->). intros [Hu|[]]. now apply Hm.
  - cbn [elsewhere] in Hm. destruct Hq as (Q1 & Q2 & Q3); [split; [exact (fun x => x)|exact Hm]|]. rewrite Q1. split; [now rewrite (proj1 Ha)|]. split; [constructor|auto].
  - cbn [elsewhere] in Hm. destruct Ha as (Ha & _). split; [now apply Ha, not_eq_sym|]. cbn [MLspTask.step] in H.
    destruct (did_save F b uri (tk_data s)) as [(d & r)|] eqn:E; cbn [bind fst snd] in H; [|discriminate]. inversion H; subst.
    pose proof (did_save_frame F b _ _ _ _ E) as (_ & _ & _ & Hc & _ & _ & Hi). split; [|split; assumption].
    destruct r as [x|]; [|constructor]. cbn. constructor; [|constructor]. destruct (did_save_actions b _ _ _ _ _ E) as (_ & _ & Hx).
    destruct (Hx x eq_refl) as (v & ->). intros [Hu|[]]. now apply Hm.
Qed.
Lemma replay_elsewhere u : forall l s s' tr, Forall (elsewhere u) (map fst l) -> replay url b s l = Ok (s', tr) ->
  sget u (ls_actions (tk_data s')) = sget u (put_queue (map fst l) (ls_actions (tk_data s))) /\
  Forall (fun d => ~ about u d) (flat_map (fun x => handed (snd x)) tr) /\
  ls_config (tk_data s') = ls_config (tk_data s) /\ ls_ignore (tk_data s') = ls_ignore (tk_data s).
Proof.
  induction l as [|(m, F) l IH]; intros s s' tr Hq H; cbn [replay map] in *; [inversion H; subst; repeat split; constructor|].
  inversion Hq as [|? ? Hm Hq']; subst. destruct (MLspTask.step F url b s m) as [(s1 & es)|] eqn:E; [|discriminate].
  destruct (replay url b s1 l) as [(s2 & tr')|] eqn:E2; [|discriminate]. inversion H; subst.
  destruct (step_elsewhere F u s s1 m es Hm E) as (A1 & A2 & A3 & A4). destruct (IH s1 s' tr' Hq' E2) as (B1 & B2 & B3 & B4).
  split; [|split; [|split; congruence]].
  - cbn [fst]. change (m :: map fst l) with ([m] ++ map fst l). rewrite put_queue_app, B1. now apply put_queue_cong.
  - cbn [flat_map snd]. apply Forall_app. auto.
Qed.

(** The stored references after a list of messages. *)
Lemma put_queue_acts q : forall M, put_queue q M = fold_left (fun M a => put a M) (code_actions_in q) M.
Proof. induction q as [|m q IH]; intros M; [reflexivity|]. cbn [put_queue fold_left]. fold (put_queue q). destruct m; apply IH. Qed.
Lemma put_other u a : forall M, ~ In u (map fst a) -> sget u (put a M) = sget u M.
Proof.
  induction a as [|(k & v) a IH]; intros M H; [reflexivity|]. cbn [put fold_left fst snd]. fold (put a).
  rewrite IH by (intros Hin; apply H; now right). apply sget_sinsert_other. intros ->. apply H. now left.
Qed.
Lemma acts_about u d : In u (map fst (acts_of d)) -> about u d.
Proof.
  unfold acts_of, about. assert (H : forall a : smap (list identifier), In u (map fst (fold_left (fun a ue => sinsert (fst ue) (missing_of (snd ue)) a) d a)) ->
    In u (map fst a) \/ In u (map fst d)).
  { induction d as [|x d IH]; intros a H; [now left|]. cbn [fold_left] in H. apply IH in H. destruct H as [H|H]; [|right; now right].
    apply sinsert_keys in H. destruct H as [->|H]; [right; now left|now left]. }
  intros Hin. destruct (H [] Hin) as [[]|Hx]. exact Hx.
Qed.
Lemma puts_about u e ds1 ds2 M : Forall (fun d => ~ about u d) ds2 ->
  sget u (fold_left (fun M a => put a M) (map acts_of (ds1 ++ [[(u, e)]] ++ ds2)) M) = Some (missing_of e).
Proof.
  intros H. rewrite map_app, fold_left_app. match goal with |- context [fold_left ?f ?l M] => set (M1 := fold_left f l M) end. clearbody M1. cbn [app map fold_left].
  assert (Hm : sget u (put (acts_of [(u, e)]) M1) = Some (missing_of e)) by (cbn [acts_of fold_left fst snd put sinsert]; apply sget_sinsert_same).
  revert Hm. generalize (put (acts_of [(u, e)]) M1). intros M2. clear M M1.
  revert M2. induction ds2 as [|d ds2 IH]; intros M2 Hm; [exact Hm|]. cbn [map fold_left]. inversion H; subst. apply IH; [assumption|].
  rewrite put_other; [exact Hm|]. intros Hin. apply acts_about in Hin. contradiction.
Qed.
(** After the document was last read, and when everything is done, the missing
    references then found are remembered. *)
Lemma remembered l y s u pre m F post s1 x1 s2 e tl : exec url b (sys0 T) l = Some y -> at_rest y -> state_of y s ->
  y_taken y = pre ++ (m, F) :: post -> Forall (elsewhere u) (map fst post) ->
  replay url b (task0 T) pre = Ok (s1, x1) -> MLspTask.step F url b s1 m = Ok (s2, tl) -> handed tl = [[(u, e)]] -> code_actions_in [m] = [] ->
  sget u (ls_actions (tk_data s)) = Some (missing_of e) /\
  ls_config (tk_data s) = ls_config (tk_data s2) /\ ls_ignore (tk_data s) = ls_ignore (tk_data s2).
Proof.
  intros He Hrest Hs Ht Hel R1 Es Hh Hnm.
  assert (Ha : alive y) by (unfold alive; destruct Hs as [->|(es & ->)]; discriminate).
  assert (Hd : y_diag y <> DDead) by (destruct Hrest as (_ & _ & _ & -> & _); discriminate).
  destruct (code_actions_order url b l y He Ha Hd) as (s0 & tr0 & later & Hr & Hco & Hl). rewrite (Hl Hrest), app_nil_r in Hco.
  destruct (reach_replay url b l y s He Hs) as (tr1 & Hr1). assert (s0 = s) by congruence. subst s0. clear Hr1.
  destruct (inv_reach url b l y He Ha) as (sy & try_ & perf & pend & I). destruct I as [_ _ _ Ienq _ _ _]. destruct Hrest as (_ & Hq & _). rewrite Hq, app_nil_r in Ienq.
  rewrite Ienq, Ht, map_app in Hco. cbn [map fst] in Hco.
  pose proof Hr as Hr0. rewrite Ht in Hr0. destruct (replay_split url b _ _ _ _ _ Hr0) as (s1' & trA & trB & R1' & R2 & ->). rewrite R1 in R1'. inversion R1'; subst s1' trA.
  cbn [replay] in R2. rewrite Es in R2. destruct (replay url b s2 post) as [(s3 & trC)|] eqn:E3; [|discriminate]. inversion R2; subst s3 trB.
  destruct (replay_elsewhere u post s2 s trC Hel E3) as (P1 & P2 & P3 & P4). split; [|auto].
  destruct (exec_taken l y He pre (m, F) post Ht Ha Hd) as (l0 & y0 & q0 & He0 & Ht0 & Hq0 & Ha0 & Hd0).
  destruct (inv_reach url b l0 y0 He0 Ha0) as (sz & trz & perf0 & pend0 & I). destruct I as [_ Irep Ieff Ienq0 _ _ Idiag].
  destruct (Idiag Hd0) as (dn & d0 & rest & cur & _ & H2 & _ & _ & _ & H6). rewrite Ht0, R1 in Irep. inversion Irep; subst sz trz.
  pose proof (handed_trace url b _ _ _ _ R1) as Hht. rewrite Ieff, handed_app, H2, <- app_assoc in Hht.
  rewrite Ienq0, Ht0, code_actions_app in H6.
  rewrite flat_map_app in Hco. cbn [flat_map snd] in Hco. rewrite Hh, code_actions_app in Hco.
  change (m :: map fst post) with ([m] ++ map fst post) in Hco. rewrite code_actions_app, Hnm in Hco. cbn [app] in Hco.
  set (D1 := flat_map _ x1) in *. set (D3 := flat_map _ trC) in *. set (A := code_actions_in (map fst pre)) in *.
  rewrite P1, put_queue_acts.
  assert (EB : exists ds1, code_actions_in (map fst post) = map acts_of (ds1 ++ [[(u, e)]] ++ D3)).
  { assert (HA : exists dA dB, D1 = dA ++ dB /\ A = map acts_of dA).
    { symmetry in H6. apply map_eq_app in H6. destruct H6 as (dA & dB & -> & <- & _). rewrite <- app_assoc in Hht.
      exists dA. eexists. split; [symmetry; exact Hht|reflexivity]. }
    destruct HA as (dA & dB & ED & EA). exists dB. rewrite EA, ED, <- app_assoc, map_app in Hco. apply app_inv_head in Hco. symmetry. exact Hco. }
  destruct EB as (ds1 & ->). apply puts_about. exact P2.
Qed.
End Remembered.

Section Screen.
Variables (parse : plang -> string -> option stree -> option stree) (edit : stree -> input_edit -> stree).
Notation T := (ts_with parse edit).
Variables (url : url_parser) (b : build).
Hypothesis Hpt : parse_total T.

(** One reading of a template. *)
Lemma refresh_reports F uri m t tr tp ps sts (s s' : task_state T) es : file_ext uri = Some Template -> conveys parse t tr tp ps sts ->
  refreshes uri m -> MLspTask.step F url b s m = Ok (s', es) -> sget uri (ls_docs (tk_data s')) = Some t -> has_tree uri t (tk_data s') ->
  ls_ignore (tk_data s') = false ->
  exists e1, handed es = [[(uri, e1 ++ missing_reports F (cf_templates (ls_config (tk_data s'))) sts)]] /\
    reported (defines tr tp) (indexed (ls_vars (tk_data s'))) (chains ps) e1.
Proof.
  intros Hx HR Hm H Hd Ht Hi. pose proof (read_displayed parse edit _ _ _ _ _ _ _ Hx HR Hd Ht) as Hsh. destruct HR as [R1 R2 R3 R4 R5 R6].
  pose proof (depicts_parsed parse edit _ _ _ _ _ R4) as Hpa. destruct m; cbn [refreshes] in Hm; try (now elim Hm); subst uri0; cbn [MLspTask.step] in H.
  - destruct (did_open F b uri t0 false (tk_data s)) as [(d & r)|] eqn:E; cbn [bind] in H; inversion H; subst. cbn [fst snd with_data tk_data] in *.
    assert (t0 = t). { pose proof (did_open_docs b F uri t0 _ _ _ ltac:(congruence) E). congruence. } subst t0.
    pose proof (did_open_frame F b _ _ _ _ _ _ E) as (_ & _ & _ & Hc & _ & _ & Hig).
    destruct (open_any T F b uri t tr tp ps sts (tk_data s) Hx R1 ltac:(congruence) (R2 _) Hpa R6) as (d' & e1 & Eo & Hrep & _). rewrite Eo in E. inversion E; subst.
    exists e1. cbn. rewrite Hc. split; [reflexivity|exact Hrep].
  - destruct (did_save F b uri (tk_data s)) as [(d & r)|] eqn:E; cbn [bind] in H; inversion H; subst. cbn [fst snd with_data tk_data] in *.
    rewrite (did_save_docs b F _ _ _ _ E) in Hd. pose proof (sh_tree _ _ _ _ _ _ _ Hsh) as Htr. rewrite (did_save_tt b F _ _ _ _ E) in Htr.
    pose proof (did_save_frame F b _ _ _ _ E) as (_ & _ & _ & Hc & _ & _ & Hig).
    destruct (save_any T F b uri t tr tp ps sts (tk_data s) Hx R1 ltac:(congruence) Hd Htr Hpa R6) as (d' & e1 & Eo & Hrep & _). rewrite Eo in E. inversion E; subst.
    exists e1. cbn. rewrite Hc. split; [reflexivity|exact Hrep].
Qed.
Lemma missing_of_reports this any us e1 F dir sts : reported this any us e1 ->
  missing_of (e1 ++ missing_reports F dir sts) = map ref_id (filter (fun r => missing F dir (snd r)) (flat_map refs sts)).
Proof.
  intros H. unfold missing_of. rewrite filter_app, map_app.
  assert (E : filter (fun x => jdiag_eqb (fst x) TemplateNotFound) e1 = []).
  { induction H as [|u us es Hv H IH|u us es d Hv H IH]; [reflexivity|exact IH|]. cbn. inversion Hv; subst; exact IH. }
  rewrite E. cbn [map app]. unfold missing_reports. generalize (filter (fun r => missing F dir (snd r)) (flat_map refs sts)). intros rs. induction rs as [|r rs IH]; [reflexivity|]. cbn. now f_equal.
Qed.
(** The last reading of a template, its reports and what is remembered of them. *)
Lemma reading l (y : sys T) s uri t tr tp ps sts : exec url b (sys0 T) l = Some y -> at_rest y -> state_of y s ->
  file_ext uri = Some Template -> just_read uri (map fst (y_taken y)) t -> conveys parse t tr tp ps sts -> ls_ignore (tk_data s) = false ->
  exists pre m F post s1 x es e1,
    y_taken y = pre ++ (m, F) :: post /\ refreshes uri m /\ Forall (elsewhere uri) (map fst post) /\
    replay url b (task0 T) (pre ++ [(m, F)]) = Ok (s1, x ++ [(m, es)]) /\
    handed es = [[(uri, e1 ++ missing_reports F (cf_templates (ls_config (tk_data s))) sts)]] /\
    reported (defines tr tp) (indexed (ls_vars (tk_data s1))) (chains ps) e1 /\
    sget uri (ls_actions (tk_data s)) = Some (map ref_id (filter (fun r => missing F (cf_templates (ls_config (tk_data s))) (snd r)) (flat_map refs sts))).
Proof.
  intros He Hrest Hs Hx (pre0 & m & mid & El & Hm & Ht & Hmid) R Hi.
  apply map_eq_app in El. destruct El as (pre & l2 & Ey & E1 & E2). destruct l2 as [|(m', F) post]; [discriminate|]. cbn in E2. injection E2 as -> E2. subst pre0 mid.
  destruct (reach_replay url b l y s He Hs) as (tr1 & Hr). rewrite Ey in Hr. destruct (replay_split url b _ _ _ _ _ Hr) as (s1 & x & trB & R1 & R2 & ->). cbn [replay] in R2.
  destruct (MLspTask.step F url b s1 m) as [(s2 & es)|] eqn:Es; [|discriminate]. destruct (replay url b s2 post) as [(s3 & trC)|] eqn:E3; [|discriminate]. inversion R2; subst s3 trB.
  destruct (replay_elsewhere url b uri post s2 s trC Hmid E3) as (_ & _ & Hc & Hig).
  pose proof (replay_snoc url b _ _ _ _ _ _ _ _ R1 Es) as R12.
  assert (Em : map fst (pre ++ [(m, F)]) = map fst pre ++ [m]) by (rewrite map_app; reflexivity).
  pose proof (replay_text url b uri ltac:(congruence) _ _ Ht _ _ _ _ Em R12) as Hd.
  pose proof (replay_tree url b uri Hpt Hx _ _ Ht _ _ _ _ Em R12) as Htr.
  destruct (refresh_reports F uri m t tr tp ps sts s1 s2 es Hx R Hm Es Hd Htr ltac:(congruence)) as (e1 & Hh & Hrep). rewrite <- Hc in Hh.
  destruct (remembered url b l y s uri pre m F post s1 x s2 _ es He Hrest Hs Ey Hmid R1 Es Hh) as (Ha & _ & _); [destruct m; cbn in Hm; try contradiction; reflexivity|].
  rewrite (missing_of_reports _ _ _ _ _ _ _ Hrep) in Ha.
  exists pre, m, F, post, s2, x, es, e1. split; [exact Ey|]. split; [exact Hm|]. split; [exact Hmid|]. split; [exact R12|]. auto.
Qed.
(** What is published of what happens elsewhere. *)
Lemma published_elsewhere v u ds : (forall u', url u' = Some v -> u' = u) -> Forall (fun d => ~ about u d) ds ->
  forall ps, last_published v (ps ++ flat_map (published_of url) ds) = last_published v ps.
Proof.
  intros Hv. induction 1 as [|d ds Hd _ IH]; intros qs; [now rewrite app_nil_r|]. cbn [flat_map]. rewrite app_assoc, IH. clear IH ds.
  revert qs. induction d as [|(u' & e) d IH]; intros qs; [now rewrite app_nil_r|]. cbn [published_of flat_map fst snd]. fold (published_of url d).
  rewrite app_assoc, IH by (intros X; apply Hd; now right). destruct (url u') as [v'|] eqn:E; [|now rewrite app_nil_r]. rewrite last_published_snoc.
  destruct (String.eqb v' v) eqn:Ev; [|reflexivity]. apply String.eqb_eq in Ev. subst v'. exfalso. apply Hd. left. cbn. now apply Hv.
Qed.
Lemma screen l (y : sys T) s uri v t tr tp ps sts : exec url b (sys0 T) l = Some y -> at_rest y -> state_of y s ->
  file_ext uri = Some Template -> just_read uri (map fst (y_taken y)) t -> conveys parse t tr tp ps sts -> ls_ignore (tk_data s) = false ->
  url uri = Some v -> (forall u, url u = Some v -> u = uri) ->
  exists F s1 e1, last_reading url b y uri F s1 /\
    last_published v (y_published y) = Some (publish_of (e1 ++ missing_reports F (cf_templates (ls_config (tk_data s))) sts)) /\
    reported (defines tr tp) (indexed (ls_vars (tk_data s1))) (chains ps) e1.
Proof.
  intros He Hrest Hs Hx J R Hi Hv Hinj.
  destruct (reading l y s uri t tr tp ps sts He Hrest Hs Hx J R Hi) as (pre & m & F & post & s1 & x & es & e1 & Ey & Hm & Hmid & R12 & Hh & Hrep & _).
  exists F, s1, e1. split; [exists pre, m, post; eexists; eauto|]. split; [|exact Hrep].
  assert (Ha : alive y) by (unfold alive; destruct Hs as [->|(es0 & ->)]; discriminate).
  assert (Hd : y_diag y <> DDead) by (destruct Hrest as (_ & _ & _ & -> & _); discriminate).
  destruct (publication_order url b l y He Ha Hd) as (s0 & tr0 & later & Hr & Hpub & Hl). rewrite (Hl Hrest), app_nil_r in Hpub.
  replace (y_taken y) with ((pre ++ [(m, F)]) ++ post) in Hr by (rewrite Ey, <- app_assoc; reflexivity).
  destruct (replay_split url b _ _ _ _ _ Hr) as (s1' & trA & trB & R1 & R2 & ->). rewrite R12 in R1. inversion R1; subst s1' trA.
  destruct (replay_elsewhere url b uri post s1 s0 trB Hmid R2) as (_ & P2 & _).
  rewrite <- Hpub, flat_map_app, flat_map_app. cbn [flat_map snd]. rewrite Hh, app_nil_r.
  assert (E : flat_map (fun z => flat_map (published_of url) (handed (snd z))) trB = flat_map (published_of url) (flat_map (fun z => handed (snd z)) trB)).
  { clear. induction trB as [|z trB IH]; [reflexivity|]. cbn. rewrite flat_map_app. now f_equal. }
  rewrite E, (published_elsewhere v uri _ Hinj P2). cbn. rewrite Hv. cbn. rewrite last_published_snoc, String.eqb_refl. reflexivity.
Qed.
Lemma screen_at_rest l (y : sys T) s uri v t tr tp ps sts : exec url b (sys0 T) l = Some y -> at_rest y -> state_of y s -> ls_chan (tk_data s) = true ->
  file_ext uri = Some Template -> editor_text uri (map fst (y_taken y)) t -> conveys parse t tr tp ps sts ->
  (forall u cs, In (MDidChange u cs) (map fst (y_taken y)) -> u = uri) -> ls_ignore (tk_data s) = false ->
  url uri = Some v -> (forall u, url u = Some v -> u = uri) ->
  exists F s1 e1, last_reading url b y uri F s1 /\
    last_published v (y_published y) = Some (publish_of (e1 ++ missing_reports F (cf_templates (ls_config (tk_data s))) sts)) /\
    reported (defines tr tp) (indexed (ls_vars (tk_data s1))) (chains ps) e1.
Proof.
  intros He Hr Hs Hc Hx Ht R Ho Hi Hv Hinj. eapply screen; eauto. eapply rest_just_read; eauto; congruence.
Qed.

(** The quick fixes. *)
Section Fixes.
Variables (l : list action) (y : sys T) (s : task_state T) (uri : string) (t : text) (tr : stree) (tp : tpl) (ps : list piece) (sts : list istmt).
Hypothesis He : exec url b (sys0 T) l = Some y.
Hypothesis Hrest : at_rest y.
Hypothesis Hs : state_of y s.
Hypothesis Hx : file_ext uri = Some Template.
Hypothesis J : just_read uri (map fst (y_taken y)) t.
Hypothesis R : conveys parse t tr tp ps sts.
Hypothesis Hi : ls_ignore (tk_data s) = false.
Notation dir := (cf_templates (ls_config (tk_data s))).
Lemma fix_reply y2 m F' : asked_next url b y y2 m F' ->
  exists sb es, MLspTask.step F' url b s m = Ok (sb, es) /\ forall r, In r (answers m es) -> In r (y_replies y2).
Proof.
  intros (l2 & s2 & c & He2 & Hi2 & Ht2). destruct (session_reply parse edit url b l2 y2 s2 (y_taken y) m F' c He2 Hi2 Ht2) as (sa & x & sb & es & Hr & Hst & Hin).
  destruct (reach_replay url b l y s He Hs) as (tr1 & Hr1). assert (sa = s) by congruence. subst sa. eauto.
Qed.
Lemma held : displayed (tk_data s) uri t tr tp ps sts.
Proof.
  apply just_last in J. destruct (reach_replay url b l y s He Hs) as (x & Hrep).
  destruct (session_held parse edit url b Hpt uri t tr tp ps sts t tr tp ps sts _ _ _ _ Hx Hrep J R R) as (Hd & _). exact Hd.
Qed.
Lemma fix_create y2 rid pos F' : asked_next url b y y2 (MCodeAction rid uri pos) F' ->
  exists F s1, last_reading url b y uri F s1 /\
    (forall r p, unfound F dir sts r -> touches (point_of pos) r -> f_canon F' dir = CanonOk p ->
     exists r' u, unfound F dir sts r' /\ touches (point_of pos) r' /\ url ("file:///" ++ lookup_path p (snd r'))%string = Some u /\
       In (rid, RCodeActions [CaCreateFile u]) (y_replies y2)) /\
    ((forall r, unfound F dir sts r -> ~ touches (point_of pos) r) ->
     forall ps1 ps2, ps = ps1 ++ ps2 -> between (point_of pos) ps1 ps2 ->
       (SpecObjects.inside ps1 (point_of pos) ->
        In (rid, RCodeActions [CaCommand "Reset variables" "reset_variables"; CaCommand "Warn about unused" "warn"]%string) (y_replies y2)) /\
       (outside ps1 (point_of pos) -> In (rid, RNull) (y_replies y2))).
Proof.
  intros Hask. destruct (fix_reply y2 _ F' Hask) as (sb & es & Hst & Hin).
  destruct (reading l y s uri t tr tp ps sts He Hrest Hs Hx J R Hi) as (pre & m & F & post & s1 & x & es0 & e1 & Ey & Hm & Hmid & R12 & _ & _ & Hacts).
  pose proof held as Hd. exists F, s1. split; [exists pre, m, post; eexists; eauto|].
  set (acts := map ref_id _) in *.
  assert (Hto : forall i, In i acts -> on_id (point_of pos) i -> exists r, unfound F dir sts r /\ touches (point_of pos) r /\ i = ref_id r).
  { intros i Hia Ho. apply in_map_iff in Hia. destruct Hia as (r & <- & Hr). apply filter_In in Hr. exists r. split; [exact Hr|]. split; [exact Ho|reflexivity]. }
  cbn [MLspTask.step] in Hst. split.
  - intros r p Hu Ht Hp.
    destruct (create_action b (tk_data s) uri pos Template tr acts t Hx (sh_tree _ _ _ _ _ _ _ Hd) (sh_doc _ _ _ _ _ _ _ Hd) Hacts) as (i & Hia & Ho & Hca).
    { exists (ref_id r). split; [apply in_map; apply filter_In; exact Hu|exact Ht]. }
    destruct (Hto i Hia Ho) as (r' & Hu' & Ht' & ->). rewrite Hca in Hst. cbn [bind] in Hst. unfold process_code_actions in Hst. rewrite Hp in Hst.
    cbn [ref_id id_name] in Hst. rewrite lookup_path_push in Hst.
    destruct (url ("file:///" ++ lookup_path p (snd r'))%string) as [u|] eqn:Eu; cbn [bind] in Hst; [|discriminate].
    exists r', u. split; [exact Hu'|]. split; [exact Ht'|]. split; [exact Eu|]. cbn [fst snd] in Hst. inversion Hst; subst. apply Hin. now left.
  - intros Hno ps1 ps2 Ep Hb.
    pose proof (objects_are parse edit _ _ _ _ _ _ _ Hd) as Ho. pose proof (pieces_are parse edit _ _ _ _ _ _ _ Hd) as Hp. rewrite Ep in Ho, Hp.
    destruct (between_ends parse _ _ _ _ Hp Hb) as ((p & Hen & Hlt) & Hba). unfold cap_pieces in Ho. rewrite flat_map_app in Ho.
    destruct (reset_in_gap b (tk_data s) uri pos tr t acts ps1 (flat_map cap_piece ps2) p) as (H1 & H2); auto.
    { split; [exact Hx|]. split; [exact (sh_tree _ _ _ _ _ _ _ Hd)|exact (sh_doc _ _ _ _ _ _ _ Hd)]. }
    { intros i Hia Hoi. destruct (Hto i Hia Hoi) as (r & Hu & Ht & _). exact (Hno r Hu Ht). }
    split; intros Hc.
    + rewrite (H1 Hc) in Hst. cbn [bind process_code_actions snd fst] in Hst. inversion Hst; subst. apply Hin. now left.
    + rewrite (H2 Hc) in Hst. cbn [bind] in Hst. inversion Hst; subst. apply Hin. now left.
Qed.
Lemma fix_only y2 rid pos F' : asked_next url b y y2 (MCodeAction rid uri pos) F' ->
  exists F s1, last_reading url b y uri F s1 /\
    ((forall r, unfound F dir sts r -> ~ touches (point_of pos) r) ->
     exists a, In (rid, a) (y_replies y2) /\
       (a = RNull \/ a = RCodeActions [CaCommand "Reset variables" "reset_variables"; CaCommand "Warn about unused" "warn"]%string)).
Proof.
  intros Hask. destruct (fix_reply y2 _ F' Hask) as (sb & es & Hst & Hin).
  destruct (reading l y s uri t tr tp ps sts He Hrest Hs Hx J R Hi) as (pre & m & F & post & s1 & x & es0 & e1 & Ey & Hm & Hmid & R12 & _ & _ & Hacts).
  exists F, s1. split; [exists pre, m, post; eexists; eauto|]. intros Hno.
  cbn [MLspTask.step] in Hst. destruct (code_action b uri pos (tk_data s)) as [[[|n]|]|] eqn:E; cbn [bind] in Hst; [| | |discriminate].
  - cbn [process_code_actions bind snd fst] in Hst. inversion Hst; subst. eexists. split; [apply Hin; now left|now right].
  - exfalso. eapply no_create_action; [exact Hacts| |exact E]. intros i Hia Hoi. apply in_map_iff in Hia. destruct Hia as (r & <- & Hr). apply filter_In in Hr. exact (Hno r Hr Hoi).
  - inversion Hst; subst. exists RNull. split; [apply Hin; now left|now left].
Qed.
End Fixes.
End Screen.
