(** * PChannels: invariants of the running server (C42-C48). *)
From Verif Require Import Base RString Utf8 Rope Types Captures.
From Verif Require Import MDefinition MObjects MTemplates MSearchErrors MLspFiles MLspTask MChannels.
From Verif Require Import SpecChannels.

Lemma rids_ids ms : rids ms = request_ids ms.
Proof. unfold rids, request_ids. apply flat_map_ext. now intros []. Qed.
Lemma rids_app a b : rids (a ++ b) = rids a ++ rids b.
Proof. apply flat_map_app. Qed.
Lemma explicit_app a b : explicit (a ++ b) = explicit a ++ explicit b.
Proof. apply flat_map_app. Qed.
Lemma effect_rids_explicit es : effect_rids es = map fst (explicit es).
Proof. induction es as [|e es IH]; [reflexivity|]. destruct e; cbn; try exact IH. f_equal. exact IH. Qed.

Section Exec.
Context {T : ts} (url : url_parser) (b : build).
Implicit Types (y : sys T) (s : task_state T).

Lemma exec_app y l1 l2 :
  exec url b y (l1 ++ l2) = match exec url b y l1 with Some y' => exec url b y' l2 | None => None end.
Proof.
  revert y. induction l1 as [|a l1 IH]; intros y; [reflexivity|]. cbn [app exec].
  destruct (act url b y a); [apply IH|reflexivity].
Qed.
Lemma exec_snoc y l a y' : exec url b y (l ++ [a]) = Some y' ->
  exists y1, exec url b y l = Some y1 /\ act url b y1 a = Some y'.
Proof.
  rewrite exec_app. destruct (exec url b y l) as [y1|]; [|discriminate]. cbn [exec].
  destruct (act url b y1 a) eqn:E; [|discriminate]. intros H. inversion H; subst. eauto.
Qed.
(** Induction over executions, the last action first. *)
Lemma exec_ind (P : list action -> sys T -> Prop) :
  P [] (sys0 T) ->
  (forall l y a y', exec url b (sys0 T) l = Some y -> P l y -> act url b y a = Some y' -> P (l ++ [a]) y') ->
  forall l y, exec url b (sys0 T) l = Some y -> P l y.
Proof.
  intros H0 HS l. induction l as [|a l IH] using rev_ind; intros y H.
  - cbn in H. inversion H; subst. exact H0.
  - apply exec_snoc in H. destruct H as (y1 & H1 & H2). eapply HS; eauto.
Qed.
Lemma client_msgs_app l1 l2 : client_msgs (l1 ++ l2) = client_msgs l1 ++ client_msgs l2.
Proof. apply flat_map_app. Qed.

(** ** What one message produces *)
Lemma step_reply F s m s' es :
  step F url b s m = Ok (s', es) ->
  (explicit es = [] \/ exists r a, explicit es = [(r, a)] /\ request_id m = [r]) /\
  Forall (fun e => match e with ESelf m' => m' = MInitialized | _ => True end) es.
Proof.
  intros H. destruct m; cbn [step request_id] in *.
  - inversion H; subst. split; [right; do 2 eexists; split; reflexivity|repeat constructor].
  - unfold do_initialized in H.
    set (logs := ELog "Initialized" :: _) in H.
    assert (HL : explicit logs = [] /\ Forall (fun e => match e with ESelf m' => m' = MInitialized | _ => True end) logs).
    { unfold logs. destruct (cf_user (tk_config s)), (String.eqb (cf_templates (tk_config s)) ""); split; (first [reflexivity | repeat constructor]). }
    clearbody logs. destruct HL as (HL1 & HL2).
    destruct (negb _); [inversion H; subst; split; [left; now rewrite explicit_app, HL1|apply Forall_app; split; [exact HL2|repeat constructor]]|].
    destruct (walkdir T F b (tk_config s)) as [[[d data]|]|]; cbn [bind] in H; try discriminate;
      inversion H; subst; (split; [left; now rewrite explicit_app, HL1|apply Forall_app; split; [exact HL2|repeat constructor]]).
  - destruct (did_open F b uri t false (tk_data s)) as [[d r]|]; cbn [bind] in H; [|discriminate].
    inversion H; subst. destruct r; cbn; (split; [left; reflexivity|repeat constructor]).
  - destruct (did_change (tk_next s) uri cs (tk_data s)) as [[d r]|]; cbn [bind snd fst] in H; [|discriminate].
    destruct r as [te|]; inversion H; subst; [destruct (te_abort te); cbn|]; (split; [left; reflexivity|repeat constructor]).
  - destruct (did_save F b uri (tk_data s)) as [[d r]|]; cbn [bind] in H; [|discriminate].
    inversion H; subst. destruct r; cbn; (split; [left; reflexivity|repeat constructor]).
  - destruct (do_completion b uri pos ctx (tk_data s)) as [r|]; cbn [bind] in H; [|discriminate].
    inversion H; subst. split; [right; do 2 eexists; split; reflexivity|repeat constructor].
  - destruct (do_hover b uri pos (tk_data s)) as [r|]; cbn [bind] in H; [|discriminate].
    inversion H; subst. split; [right; do 2 eexists; split; reflexivity|repeat constructor].
  - destruct (goto_definition F url b uri pos (tk_data s)) as [r|]; cbn [bind] in H; [|discriminate].
    inversion H; subst. destruct r; (split; [|repeat constructor]); [right; do 2 eexists; split; reflexivity|now left].
  - destruct (code_action b uri start (tk_data s)) as [[a|]|]; cbn [bind] in H; [| |discriminate].
    + destruct (process_code_actions F url a (tk_data s)) as [p|]; cbn [bind] in H; [|discriminate].
      destruct (snd p); inversion H; subst; (split; [right; do 2 eexists; split; reflexivity|repeat constructor]).
    + inversion H; subst. split; [now left|constructor].
  - destruct (String.eqb cmd "reset_variables"); inversion H; subst; (split; [now left|repeat constructor]).
  - inversion H; subst. destruct (document_symbols uri (tk_data s')); (split; [|repeat constructor]);
      [right; do 2 eexists; split; reflexivity|now left].
  - inversion H; subst. destruct (cf_user _); (split; [now left|repeat constructor]).
  - inversion H; subst. split; [now left|constructor].
Qed.
Lemma close_answers F s m s' es :
  step F url b s m = Ok (s', es) ->
  explicit (with_close m es) = answers m es /\ map fst (answers m es) = request_id m /\
  handed (with_close m es) = handed es /\ edit_timers (with_close m es) = edit_timers es.
Proof.
  intros H. apply step_reply in H. destruct H as (H & _). unfold with_close, answers.
  assert (Hrid : request_id m = match msg_rid m with Some r => [r] | None => [] end) by now destruct m.
  destruct H as [H|(r & a & H & E)].
  - assert (He : effect_rids es = []) by now rewrite effect_rids_explicit, H. rewrite H, Hrid.
    destruct (msg_rid m) as [r|]; [|repeat split; exact H]. rewrite He. cbn [existsb].
    rewrite explicit_app, H. repeat split.
    + unfold handed. now rewrite flat_map_app, app_nil_r.
    + unfold edit_timers. now rewrite flat_map_app, app_nil_r.
  - assert (He : effect_rids es = [r]) by now rewrite effect_rids_explicit, H. rewrite H, E.
    rewrite Hrid in E. destruct (msg_rid m) as [r'|]; [|discriminate]. inversion E; subst r'.
    rewrite He. cbn [existsb]. rewrite N.eqb_refl. cbn [orb]. repeat split. exact H.
Qed.

(** ** Replaying *)
Lemma replay_snoc s ms m F s1 tr s2 es :
  replay url b s ms = Ok (s1, tr) -> step F url b s1 m = Ok (s2, es) ->
  replay url b s (ms ++ [(m, F)]) = Ok (s2, tr ++ [(m, es)]).
Proof.
  revert s tr. induction ms as [|[m0 F0] ms IH]; intros s tr H1 H2; cbn [app replay] in *.
  - inversion H1; subst. now rewrite H2.
  - destruct (step F0 url b s m0) as [[sx ex]|]; [|discriminate].
    destruct (replay url b sx ms) as [[sy trx]|] eqn:E; [|discriminate]. inversion H1; subst.
    now rewrite (IH _ _ E H2).
Qed.
Lemma replay_split s a c s2 tr :
  replay url b s (a ++ c) = Ok (s2, tr) ->
  exists s1 tr1 tr2, replay url b s a = Ok (s1, tr1) /\ replay url b s1 c = Ok (s2, tr2) /\ tr = tr1 ++ tr2.
Proof.
  revert s tr. induction a as [|[m0 F0] a IH]; intros s tr H; cbn [app replay] in *.
  - exists s, [], tr. auto.
  - destruct (step F0 url b s m0) as [[sx ex]|]; [|discriminate].
    destruct (replay url b sx (a ++ c)) as [[sy trx]|] eqn:E; [|discriminate]. inversion H; subst.
    destruct (IH _ _ E) as (s1 & tr1 & tr2 & E1 & E2 & ->). rewrite E1. exists s1, ((m0, ex) :: tr1), tr2. auto.
Qed.
Lemma replay_msgs s ms s2 tr : replay url b s ms = Ok (s2, tr) -> map fst tr = map fst ms.
Proof.
  revert s tr. induction ms as [|[m0 F0] ms IH]; intros s tr H; cbn [replay] in H.
  - inversion H; subst. reflexivity.
  - destruct (step F0 url b s m0) as [[sx ex]|]; [|discriminate].
    destruct (replay url b sx ms) as [[sy trx]|] eqn:E; [|discriminate]. inversion H; subst. cbn. f_equal. eauto.
Qed.

(** All effects of a trace, with the implicit answers. *)
Definition effects_of (tr : list (msg * list effect)) : list effect :=
  flat_map (fun x => with_close (fst x) (snd x)) tr.
Definition no_rid (es : list effect) : Prop :=
  Forall (fun e => match e with ESelf m' => m' = MInitialized | _ => True end) es.

(** The actions collected from one diagnostics message. *)
Definition acts_of (d : diag_msg) : smap (list identifier) :=
  fold_left (fun a ue => sinsert (fst ue) (missing_of (snd ue)) a) d [].
(** The message the diagnostics task is working on, split into the part
    already published and the rest. *)
Definition diag_current (x : dstatus) (d0 rest : diag_msg) (cur : list diag_msg) : Prop :=
  match x with
  | DIdle => cur = [] /\ d0 = [] /\ rest = []
  | DPublish r acts => cur = [d0 ++ r] /\ rest = r /\ acts = acts_of d0
  | DSend acts => cur = [d0] /\ rest = [] /\ acts = acts_of d0
  | DDead => False
  end.
Definition code_actions_in (ms : list msg) : list (smap (list identifier)) :=
  flat_map (fun m => match m with MCodeActions a => [a] | _ => [] end) ms.

Record inv (y : sys T) (s : task_state T) (tr : list (msg * list effect)) (perf pend : list effect) : Prop := mkinv {
  iv_task : (y_task y = TIdle s /\ pend = []) \/ y_task y = TBusy s pend;
  iv_replay : replay url b (task0 T) (y_taken y) = Ok (s, tr);
  iv_effects : effects_of tr = perf ++ pend;
  iv_enq : y_enq y = map fst (y_taken y) ++ y_lspq y;
  iv_replies : y_replies y = explicit perf;
  iv_self : no_rid pend;
  iv_diag : y_diag y <> DDead ->
    exists done_ d0 rest cur,
      diag_current (y_diag y) d0 rest cur /\
      handed perf = done_ ++ cur ++ y_diagq y /\
      y_published y = flat_map (published_of url) done_ ++ published_of url d0 /\
      Forall (fun d => Forall (fun ue => url (fst ue) <> None) d) done_ /\
      Forall (fun ue => url (fst ue) <> None) d0 /\
      code_actions_in (y_enq y) = map acts_of done_ }.

Lemma effects_app t1 t2 : effects_of (t1 ++ t2) = effects_of t1 ++ effects_of t2.
Proof. apply flat_map_app. Qed.
Lemma code_actions_app a c : code_actions_in (a ++ c) = code_actions_in a ++ code_actions_in c.
Proof. apply flat_map_app. Qed.
Lemma handed_app a c : handed (a ++ c) = handed a ++ handed c.
Proof. apply flat_map_app. Qed.

Lemma act_dead y a y' : y_task y = TDead -> act url b y a = Some y' -> y_task y' = TDead.
Proof.
  intros Hd H. destruct a; cbn [act] in H.
  - destruct m; try discriminate; unfold send_lsp in H; rewrite Hd in H; inversion H; reflexivity.
  - rewrite Hd in H. discriminate.
  - rewrite Hd in H. discriminate.
  - destruct (y_diag y); try discriminate. destruct (y_diagq y); inversion H; subst; exact Hd.
  - destruct (y_diag y) as [|rest acts|acts|]; try discriminate. destruct rest as [|[u e] rest].
    + inversion H; subst; exact Hd.
    + destruct (url u); inversion H; subst; exact Hd.
  - destruct (y_diag y); try discriminate. unfold send_lsp in H. rewrite Hd in H. inversion H; reflexivity.
  - destruct (find _ (y_timers y)) as [x|]; [|discriminate]. destruct (tm_chan x).
    + unfold send_lsp in H. cbn [y_task] in H. rewrite Hd in H. inversion H; reflexivity.
    + inversion H; subst; exact Hd.
Qed.
Lemma send_alive m y y' : alive y -> send_lsp m y = Some y' ->
  (length (y_lspq y) < lsp_capacity)%nat /\
  y' = mksys (y_task y) (y_lspq y ++ [m]) (y_diagq y) (y_diag y) (y_timers y)
        (y_enq y ++ [m]) (y_taken y) (y_replies y) (y_published y).
Proof.
  intros Ha H. unfold send_lsp in H.
  assert (H' : (if Nat.ltb (length (y_lspq y)) lsp_capacity
          then Some (mksys (y_task y) (y_lspq y ++ [m]) (y_diagq y) (y_diag y) (y_timers y)
                       (y_enq y ++ [m]) (y_taken y) (y_replies y) (y_published y))
          else None) = Some y').
  { destruct (y_task y) eqn:E; [exact H|exact H|now elim Ha]. }
  destruct (Nat.ltb (length (y_lspq y)) lsp_capacity) eqn:E; [|discriminate].
  apply Nat.ltb_lt in E. inversion H'. auto.
Qed.
Lemma inv_send m y y' s tr perf pend :
  inv y s tr perf pend -> alive y -> send_lsp m y = Some y' -> code_actions_in [m] = [] -> inv y' s tr perf pend.
Proof.
  intros I Ha H Hm. destruct (send_alive m y y' Ha H) as (_ & ->). destruct I. constructor; cbn; auto.
  - rewrite iv_enq0. now rewrite app_assoc.
  - intros Hd. destruct (iv_diag0 Hd) as (dn & d0 & rest & cur & H1 & H2 & H3 & H4 & H5 & H6).
    exists dn, d0, rest, cur. repeat split; auto. now rewrite code_actions_app, Hm, app_nil_r.
Qed.
Lemma inv0 : inv (sys0 T) (task0 T) [] [] [].
Proof.
  constructor; cbn; [left; now split|reflexivity|reflexivity|reflexivity|reflexivity|constructor|].
  intros _. exists [], [], [], []. cbn. repeat split; constructor.
Qed.
Lemma acts_snoc d0 u e : acts_of (d0 ++ [(u, e)]) = sinsert u (missing_of e) (acts_of d0).
Proof. unfold acts_of. now rewrite fold_left_app. Qed.
Lemma published_snoc d0 u e v : url u = Some v -> published_of url (d0 ++ [(u, e)]) = published_of url d0 ++ [(v, publish_of e)].
Proof. intros H. unfold published_of. rewrite flat_map_app. cbn. now rewrite H. Qed.

Lemma inv_act y s tr perf pend a y' :
  inv y s tr perf pend -> act url b y a = Some y' -> alive y' ->
  exists s' tr' perf' pend', inv y' s' tr' perf' pend'.
Proof.
  intros I H Ha'. assert (Ha : alive y) by (intros E; apply Ha'; eapply act_dead; eauto).
  destruct a; cbn [act] in H.
  - exists s, tr, perf, pend. destruct m; try discriminate; eapply inv_send; eauto.
  - destruct (y_task y) as [s0| |] eqn:Et; try discriminate. destruct (y_lspq y) as [|m q] eqn:Eq; [discriminate|].
    destruct (iv_task _ _ _ _ _ I) as [(E & Ep)|E]; [|congruence]. rewrite Et in E. inversion E; subst s0. clear E.
    destruct (step F url b s m) as [[s' es]|] eqn:Es.
    + inversion H; subst y'. clear H. exists s', (tr ++ [(m, es)]), perf, (with_close m es).
      pose proof (iv_replay _ _ _ _ _ I) as Hr. constructor; cbn [y_task y_taken y_enq y_lspq y_replies y_diag y_diagq y_published].
      * now right.
      * eapply replay_snoc; eauto.
      * rewrite effects_app, (iv_effects _ _ _ _ _ I), Ep, app_nil_r. cbn. now rewrite app_nil_r.
      * rewrite (iv_enq _ _ _ _ _ I), Eq, map_app. cbn. now rewrite <- app_assoc.
      * apply I.
      * destruct (step_reply F s m s' es Es) as (_ & Hf). unfold no_rid, with_close. destruct (msg_rid m); [|exact Hf].
        destruct (existsb _ _); [exact Hf|]. apply Forall_app. split; [exact Hf|repeat constructor].
      * intros Hd. destruct (iv_diag _ _ _ _ _ I Hd) as (dn & d0 & rest & cur & HH). exists dn, d0, rest, cur. exact HH.
    + inversion H; subst y'. now elim Ha'.
  - destruct (y_task y) as [s0|s0 es|] eqn:Et; try discriminate.
    destruct (iv_task _ _ _ _ _ I) as [(E & Ep)|E]; [rewrite Et in E; discriminate|]. rewrite Et in E. inversion E; subst s0 pend. clear E.
    destruct es as [|e es].
    { inversion H; subst y'. exists s, tr, perf, []. destruct I. constructor; cbn; auto. }
    assert (Hperf : effects_of tr = (perf ++ [e]) ++ es) by (rewrite (iv_effects _ _ _ _ _ I), <- app_assoc; reflexivity).
    pose proof (iv_self _ _ _ _ _ I) as Hs. inversion Hs as [|? ? Hs1 Hs2]; subst.
    exists s, tr, (perf ++ [e]), es. destruct I.
    (* an effect that is neither an answer nor diagnostics nor a message *)
    assert (Hquiet : forall ti, explicit [e] = [] -> handed [e] = [] ->
      inv (mksys (TBusy s es) (y_lspq y) (y_diagq y) (y_diag y) ti (y_enq y) (y_taken y) (y_replies y) (y_published y))
        s tr (perf ++ [e]) es).
    { intros ti E1 E2. constructor; cbn; auto.
      - now rewrite explicit_app, E1, app_nil_r.
      - intros Hd. destruct (iv_diag0 Hd) as (dn & d0 & rest & cur & H1 & H2 & HH). exists dn, d0, rest, cur.
        split; [exact H1|]. split; [now rewrite handed_app, E2, app_nil_r|exact HH]. }
    destruct e as [d|m|r a|t|t k c u|g]; cbn [do_effect] in H.
    + assert (Hdead : y_diag y = DDead -> inv (mksys (TBusy s es) (y_lspq y) (y_diagq y) (y_diag y) (y_timers y) (y_enq y) (y_taken y) (y_replies y) (y_published y))
        s tr (perf ++ [EDiag d]) es).
      { intros Ed. constructor; cbn; auto.
        - rewrite explicit_app. cbn. now rewrite app_nil_r.
        - intros Hd. congruence. }
      destruct (y_diag y) eqn:Ed;
        try (destruct (Nat.ltb (length (y_diagq y)) diag_capacity); [|discriminate]; inversion H; subst y'; clear H;
             constructor; cbn; auto;
             [rewrite explicit_app; cbn; now rewrite app_nil_r|];
             intros Hd; destruct (iv_diag0 Hd) as (dn & d0 & rest0 & cur & H1 & H2 & HH);
             exists dn, d0, rest0, cur; split; [exact H1|]; split; [|exact HH];
             rewrite handed_app, H2; cbn; now rewrite <- !app_assoc).
      inversion H; subst y'. now apply Hdead.
    + destruct (Nat.ltb (length (y_lspq y)) lsp_capacity); [|discriminate]. inversion H; subst y'; clear H. subst m.
      constructor; cbn; auto.
      * rewrite iv_enq0. now rewrite app_assoc.
      * rewrite explicit_app. cbn. now rewrite app_nil_r.
      * intros Hd. destruct (iv_diag0 Hd) as (dn & d0 & rest & cur & H1 & H2 & H3 & H4 & H5 & H6). exists dn, d0, rest, cur.
        split; [exact H1|]. split; [rewrite handed_app; cbn; now rewrite app_nil_r|].
        split; [exact H3|]. split; [exact H4|]. split; [exact H5|]. rewrite code_actions_app. cbn. now rewrite app_nil_r.
    + inversion H; subst y'; clear H. constructor; cbn; auto.
      * rewrite explicit_app, iv_replies0. reflexivity.
      * intros Hd. destruct (iv_diag0 Hd) as (dn & d0 & rest & cur & H1 & H2 & HH). exists dn, d0, rest, cur.
        split; [exact H1|]. split; [rewrite handed_app; cbn; now rewrite app_nil_r|exact HH].
    + inversion H; subst y'. now apply Hquiet.
    + inversion H; subst y'. now apply Hquiet.
    + inversion H; subst y'. now apply Hquiet.
  - exists s, tr, perf, pend. destruct (y_diag y) eqn:Ed; try discriminate. destruct (y_diagq y) as [|d q] eqn:Eq; [discriminate|].
    inversion H; subst y'; clear H. destruct I. constructor; cbn; auto. intros _.
    rewrite Ed in iv_diag0. destruct (iv_diag0 ltac:(discriminate)) as (dn & d0 & rest & cur & H1 & H2 & H3 & H4 & H5 & H6).
    cbn in H1. destruct H1 as (-> & -> & ->). exists dn, [], d, [d]. cbn. repeat split; auto.
    rewrite H2, Eq. reflexivity.
  - exists s, tr, perf, pend. destruct (y_diag y) as [|rest acts|acts|] eqn:Ed; try discriminate. destruct I. rewrite Ed in iv_diag0.
    destruct (iv_diag0 ltac:(discriminate)) as (dn & d0 & rest0 & cur & H1 & H2 & H3 & H4 & H5 & H6). cbn in H1. destruct H1 as (-> & -> & ->).
    destruct rest as [|[u e] rest].
    + inversion H; subst y'; clear H. constructor; cbn; auto. intros _. exists dn, d0, [], [d0]. cbn. rewrite app_nil_r in H2. repeat split; auto.
    + destruct (url u) as [v|] eqn:Eu; inversion H; subst y'; clear H; constructor; cbn; auto; [|easy].
      intros _. exists dn, (d0 ++ [(u, e)]), rest, [(d0 ++ [(u, e)]) ++ rest]. cbn.
      rewrite acts_snoc, (published_snoc d0 u e v Eu), H3. repeat split; auto.
      * rewrite H2. now rewrite <- !app_assoc.
      * now rewrite <- app_assoc.
      * apply Forall_app. split; [exact H5|]. constructor; [|constructor]. cbn. congruence.
  - exists s, tr, perf, pend. destruct (y_diag y) as [|rest acts|acts|] eqn:Ed; try discriminate.
    destruct (send_lsp (MCodeActions acts) y) as [y1|] eqn:Es; [|discriminate]. inversion H; subst y'; clear H.
    destruct (send_alive _ _ _ Ha Es) as (_ & ->). cbn. destruct I. rewrite Ed in iv_diag0.
    destruct (iv_diag0 ltac:(discriminate)) as (dn & d0 & rest0 & cur & H1 & H2 & H3 & H4 & H5 & H6). cbn in H1. destruct H1 as (-> & -> & ->).
    constructor; cbn; auto.
    + rewrite iv_enq0. now rewrite app_assoc.
    + intros _. exists (dn ++ [d0]), [], [], []. cbn. repeat split; auto.
      * rewrite H2. now rewrite <- app_assoc.
      * rewrite H3, flat_map_app. cbn. now rewrite !app_nil_r.
      * apply Forall_app. split; [exact H4|]. constructor; [exact H5|constructor].
      * rewrite code_actions_app, H6, map_app. reflexivity.
  - exists s, tr, perf, pend. destruct (find _ (y_timers y)) as [x|]; [|discriminate].
    set (y1 := mksys _ _ _ _ _ _ _ _ _) in H.
    assert (I1 : inv y1 s tr perf pend) by (destruct I; constructor; cbn; auto).
    destruct (tm_chan x); [|inversion H; subst; exact I1]. eapply inv_send; eauto.
Qed.
Lemma inv_reach l y : exec url b (sys0 T) l = Some y -> alive y ->
  exists s tr perf pend, inv y s tr perf pend.
Proof.
  revert l y. apply (exec_ind (fun l y => alive y -> exists s tr perf pend, inv y s tr perf pend)).
  - intros _. exists (task0 T), [], [], []. exact inv0.
  - intros l y a y' _ IH Hact Ha'. assert (Ha : alive y) by (intros E; apply Ha'; eapply act_dead; eauto).
    destruct (IH Ha) as (s & tr & perf & pend & I). eapply inv_act; eauto.
Qed.
End Exec.
