(** * PAsking: questions leave no trace (C129). *)
From Verif Require Import Base RString Utf8 Rope Types Captures MTemplates MDefinition MObjects MLspFiles MSearchErrors MLspTask MChannels.
From Verif Require Import SpecChannels SpecServer SpecAsking.
From Verif Require Import PChannels PChannels2 PChannels3 PChannels4.

Section Asking.
Context {T : ts} (url : url_parser) (b : build) (Q : N -> bool).
Implicit Types (y : sys T) (s : task_state T).

(** The handler of a question changes nothing and only answers. *)
Lemma asked_quiet F s m s' es : question m = true -> MLspTask.step F url b s m = Ok (s', es) ->
  (forall r a, In (r, a) (explicit (with_close m es)) -> not_on_missing a) ->
  s' = s /\ Forall (fun e => exists r a, e = EReply r a /\ In r (request_id m)) (with_close m es).
Proof.
  intros Hm H Hn. assert (Hw : forall r, Forall (fun e => exists r0 a, e = EReply r0 a /\ In r0 [r]) [EReply r RNull]).
  { intros r. repeat constructor. exists r, RNull. split; [reflexivity|now left]. }
  assert (Hx : forall r a, Forall (fun e => exists r0 a0, e = EReply r0 a0 /\ In r0 [r]) [EReply r a]).
  { intros r a. repeat constructor. exists r, a. split; [reflexivity|now left]. }
  destruct m; try discriminate Hm; cbn [MLspTask.step request_id] in *.
  - destruct (do_completion b uri pos ctx (tk_data s)) as [r|]; cbn [bind] in H; [|discriminate].
    injection H as <- <-. unfold with_close. cbn [msg_rid effect_rids flat_map existsb app]. rewrite N.eqb_refl. cbn [orb]. auto.
  - destruct (do_hover b uri pos (tk_data s)) as [r|]; cbn [bind] in H; [|discriminate].
    injection H as <- <-. unfold with_close. cbn [msg_rid effect_rids flat_map existsb app]. rewrite N.eqb_refl. cbn [orb]. auto.
  - destruct (goto_definition F url b uri pos (tk_data s)) as [r|]; cbn [bind] in H; [|discriminate].
    injection H as <- <-. unfold with_close. destruct r; cbn [msg_rid effect_rids flat_map existsb app]; rewrite ?N.eqb_refl; cbn [orb]; auto.
  - destruct (code_action b uri start (tk_data s)) as [[a|]|]; cbn [bind] in H; [| |discriminate].
    + destruct (process_code_actions F url a (tk_data s)) as [p|] eqn:Ep; cbn [bind] in H; [|discriminate].
      destruct (snd p) eqn:E.
      * exfalso. injection H as _ <-. unfold with_close in Hn. cbn [msg_rid effect_rids flat_map existsb app] in Hn.
        rewrite N.eqb_refl in Hn. cbn [orb] in Hn. specialize (Hn rid (RCodeActions (fst p)) (or_introl eq_refl)). cbn in Hn.
        destruct Hn as (t & c & Hn). unfold process_code_actions in Ep. destruct a as [|name].
        { injection Ep as <-. discriminate E. }
        destruct (f_canon F _) as [q| |].
        -- destruct (url _); [|discriminate]. injection Ep as <-. destruct Hn as [Hn|[]]. discriminate Hn.
        -- injection Ep as <-. destruct Hn.
        -- injection Ep as <-. destruct Hn.
      * injection H as <- <-. unfold with_close. cbn [msg_rid effect_rids flat_map existsb app]. rewrite N.eqb_refl. cbn [orb]. auto.
    + injection H as <- <-. unfold with_close. cbn [msg_rid effect_rids flat_map existsb app]. auto.
  - injection H as <- <-. unfold with_close. destruct (document_symbols uri (tk_data s)); cbn [msg_rid effect_rids flat_map existsb app]; rewrite ?N.eqb_refl; cbn [orb]; auto.
Qed.

(** What has been or is about to be answered. *)
Definition told y : list (N * reply) := y_replies y ++ explicit (pending y).
Lemma send_told m y y' : alive y -> send_lsp m y = Some y' -> y_replies y' = y_replies y /\ y_task y' = y_task y /\
  y_lspq y' = y_lspq y ++ [m] /\ y_taken y' = y_taken y /\ y_published y' = y_published y /\ y_diagq y' = y_diagq y /\ y_diag y' = y_diag y /\
  y_timers y' = y_timers y /\ (length (y_lspq y) < lsp_capacity)%nat.
Proof.
  intros Ha H. unfold send_lsp in H. destruct (y_task y) eqn:E; [| |now elim Ha];
    (destruct (Nat.ltb _ _) eqn:El; [|discriminate]; injection H as <-; apply Nat.ltb_lt in El; cbn; repeat split; auto).
Qed.
Lemma send_again m y : alive y -> (length (y_lspq y) < lsp_capacity)%nat ->
  send_lsp m y = Some (mksys (y_task y) (y_lspq y ++ [m]) (y_diagq y) (y_diag y) (y_timers y) (y_enq y ++ [m]) (y_taken y) (y_replies y) (y_published y)).
Proof. intros Ha H. unfold send_lsp. apply Nat.ltb_lt in H. rewrite H. destruct (y_task y) eqn:E; auto. now elim Ha. Qed.
Lemma told_act y a y' : act url b y a = Some y' -> alive y' -> incl (told y) (told y').
Proof.
  intros H Ha. assert (Hy : alive y) by (intros E; apply Ha; eapply act_dead; eauto).
  assert (Hsame : y_replies y' = y_replies y -> y_task y' = y_task y -> incl (told y) (told y')).
  { intros E1 E2. unfold told, pending. rewrite E1, E2. apply incl_refl. }
  destruct a; cbn [act] in H.
  - assert (H' : send_lsp m y = Some y') by (destruct m; try exact H; discriminate H).
    destruct (send_told m y y' Hy H') as (E1 & E2 & _). auto.
  - destruct (y_task y) as [s|s es|] eqn:Et; try discriminate. destruct (y_lspq y) as [|m q]; [discriminate|].
    destruct (MLspTask.step F url b s m) as [[s' es]|]; injection H as <-; [|now elim Ha]. unfold told, pending. rewrite Et. cbn.
    rewrite app_nil_r. apply incl_appl, incl_refl.
  - destruct (y_task y) as [s|s es|] eqn:Et; try discriminate. destruct es as [|e rest].
    { injection H as <-. unfold told, pending. rewrite Et. cbn. apply incl_refl. }
    assert (G : y_task y' = TBusy s rest /\ y_replies y' ++ explicit rest = y_replies y ++ explicit (e :: rest)).
    { destruct e; cbn [do_effect] in H; try (injection H as <-; cbn; auto; fail).
      - destruct (y_diag y); try destruct (Nat.ltb _ _); try discriminate; injection H as <-; cbn; auto.
      - destruct (Nat.ltb _ _); [|discriminate]. injection H as <-. cbn. auto.
      - injection H as <-. cbn. rewrite <- app_assoc. auto. }
    destruct G as (E1 & E2). unfold told, pending. rewrite E1, Et, E2. apply incl_refl.
  - destruct (y_diag y), (y_diagq y); try discriminate. injection H as <-. now apply Hsame.
  - destruct (y_diag y) as [|rest acts|acts|]; try discriminate. destruct rest as [|[u e] rest]; [injection H as <-; now apply Hsame|].
    destruct (url u); injection H as <-; now apply Hsame.
  - destruct (y_diag y) as [|rest acts|acts|]; try discriminate. destruct (send_lsp (MCodeActions acts) y) as [y1|] eqn:E; [|discriminate].
    destruct (send_told _ y y1 Hy E) as (E1 & E2 & _). injection H as <-. now apply Hsame.
  - destruct (find _ (y_timers y)) as [x|]; [|discriminate]. set (y1 := mksys _ _ _ _ _ _ _ _ _) in H. destruct (tm_chan x).
    + assert (Hy1 : alive y1) by exact Hy. destruct (send_told _ y1 y' Hy1 H) as (E1 & E2 & _). now apply Hsame.
    + injection H as <-. now apply Hsame.
Qed.

(** ** The session without the chosen questions *)
Definition tasks (t t' : tstatus T) : Prop :=
  match t with
  | TIdle s => t' = TIdle s
  | TBusy s es =>
      t' = TBusy s es /\ Forall (fun e => match e with EReply r _ => Q r = false | ESelf m => m = MInitialized | _ => True end) es \/
      t' = TIdle s /\ Forall (fun e => exists r a, e = EReply r a /\ Q r = true) es
  | TDead => False
  end.
Record sim y y' : Prop := {
  sm_task : tasks (y_task y) (y_task y');
  sm_okay : only_questions Q (y_lspq y);
  sm_queue : y_lspq y' = unchosen Q (y_lspq y);
  sm_taken : y_taken y' = filter (fun x => negb (chosen Q (fst x))) (y_taken y);
  sm_replies : y_replies y' = filter (fun x => negb (Q (fst x))) (y_replies y);
  sm_published : y_published y' = y_published y;
  sm_diagq : y_diagq y' = y_diagq y;
  sm_diag : y_diag y' = y_diag y;
  sm_timers : y_timers y' = y_timers y }.

Lemma unchosen_app x z : unchosen Q (x ++ z) = unchosen Q x ++ unchosen Q z.
Proof. apply filter_app. Qed.
Lemma unchosen_length x : (length (unchosen Q x) <= length x)%nat.
Proof. apply filter_length. Qed.
Lemma only_app x z : only_questions Q x -> only_questions Q z -> only_questions Q (x ++ z).
Proof. intros H1 H2 m r H. apply in_app_or in H. destruct H; eauto. Qed.
Lemma no_id m : request_id m = [] -> chosen Q m = false /\ only_questions Q [m].
Proof.
  intros H. split; [unfold chosen; rewrite H; cbn; apply andb_false_r|].
  intros m' r [<-|[]] Hr. rewrite H in Hr. destruct Hr.
Qed.
Lemma sim_alive y y' : sim y y' -> alive y'.
Proof. intros S E. pose proof (sm_task _ _ S) as H. rewrite E in H. unfold tasks in H. destruct (y_task y); [discriminate H| |exact H]. destruct H as [(H & _)|(H & _)]; discriminate H. Qed.
(** A message arrives. *)
Lemma sim_send y y' m y1 : sim y y' -> alive y -> send_lsp m y = Some y1 -> only_questions Q [m] ->
  exists y1', sim y1 y1' /\ ((chosen Q m = true /\ y1' = y') \/ (chosen Q m = false /\ send_lsp m y' = Some y1')).
Proof.
  intros S Ha H Ho. destruct (send_told m y y1 Ha H) as (E1 & E2 & E3 & E4 & E5 & E6 & E7 & E8 & El). pose proof (sim_alive _ _ S) as Ha'. destruct S.
  destruct (chosen Q m) eqn:Ec.
  - exists y'. split; [|auto]. constructor; rewrite ?E1, ?E2, ?E3, ?E4, ?E5, ?E6, ?E7, ?E8; auto; [now apply only_app|].
    rewrite unchosen_app, sm_queue0. cbn. rewrite Ec. cbn. now rewrite app_nil_r.
  - assert (El' : (length (y_lspq y') < lsp_capacity)%nat).
    { rewrite sm_queue0. pose proof (unchosen_length (y_lspq y)). lia. }
    eexists. split; [|right; split; [reflexivity|apply send_again; assumption]].
    constructor; cbn [y_task y_lspq y_diagq y_diag y_timers y_enq y_taken y_replies y_published];
      rewrite ?E1, ?E2, ?E3, ?E4, ?E5, ?E6, ?E7, ?E8; auto; [now apply only_app|].
    rewrite unchosen_app, sm_queue0. cbn. rewrite Ec. reflexivity.
Qed.
Lemma sim_act y y' a y1 : sim y y' -> act url b y a = Some y1 -> alive y1 ->
  only_questions Q (client_msgs [a]) -> (forall r x, In (r, x) (told y1) -> Q r = true -> not_on_missing x) ->
  exists l y1', exec url b y' l = Some y1' /\ sim y1 y1' /\ client_msgs l = unchosen Q (client_msgs [a]).
Proof.
  intros S H Ha Ho Hn. assert (Hy : alive y) by (intros E; apply Ha; eapply act_dead; eauto).
  destruct a; cbn [act] in H.
  - assert (Hc : send_lsp m y = Some y1 /\ act url b y' (AClient m) = send_lsp m y') by (destruct m; try discriminate H; split; try exact H; reflexivity).
    destruct Hc as (H1 & H2). cbn in Ho. destruct (sim_send y y' m y1 S Hy H1 Ho) as (y1' & S1 & [(Ec & ->)|(Ec & E)]).
    + exists [], y'. split; [reflexivity|]. split; [exact S1|]. cbn. now rewrite Ec.
    + exists [AClient m], y1'. split; [cbn [exec]; now rewrite H2, E|]. split; [exact S1|]. cbn. now rewrite Ec.
  - destruct (y_task y) as [s|s es|] eqn:Et; try discriminate. destruct (y_lspq y) as [|m q] eqn:Eq; [discriminate|].
    destruct (MLspTask.step F url b s m) as [[s' es]|] eqn:Es; injection H as <-; [|now elim Ha].
    destruct S as [St So Sq Sk Sr Sp Sd Sg Sm]. rewrite Et in St. cbn [tasks] in St. rewrite Eq in So, Sq.
    assert (Ho' : only_questions Q q) by (intros m' r' Hm'; apply So; now right).
    destruct (close_answers url b F s m s' es Es) as (Hx & Hy' & _).
    destruct (chosen Q m) eqn:Ec.
    + pose proof Ec as Ec0. unfold chosen in Ec. apply andb_prop in Ec. destruct Ec as (Em & Ei).
      assert (Hid : forall r, In r (request_id m) -> Q r = true).
      { destruct m; try discriminate Em; cbn in Ei |- *; rewrite orb_false_r in Ei; intros r [<-|[]]; exact Ei. }
      destruct (asked_quiet F s m s' es Em Es) as (-> & Hf).
      { intros r x Hr. apply (Hn r x); [unfold told, pending; cbn; apply in_or_app; now right|].
        apply Hid. rewrite <- Hy', <- Hx. change r with (fst (r, x)). now apply in_map. }
      exists [], y'. split; [reflexivity|]. split; [|reflexivity]. constructor; cbn; auto.
      * right. split; [exact St|]. eapply Forall_impl; [|exact Hf]. intros e (r & x & -> & Hr). exists r, x. auto.
      * rewrite Sq. unfold unchosen. cbn [filter]. now rewrite Ec0.
      * rewrite Sk, filter_app. cbn [filter fst]. rewrite Ec0. cbn [negb]. now rewrite app_nil_r.
    + assert (Hid : forall r, In r (request_id m) -> Q r = false).
      { intros r Hr. destruct (Q r) eqn:Er; [|reflexivity]. assert (Em : question m = true) by exact (So m r (or_introl eq_refl) Hr Er).
        unfold chosen in Ec. rewrite Em in Ec. cbn [andb] in Ec. rewrite <- Ec. symmetry. apply existsb_exists. eauto. }
      unfold unchosen in Sq. cbn [filter] in Sq. rewrite Ec in Sq. cbn [negb] in Sq.
      eexists [ATake F], _. split; [cbn [exec act]; rewrite St, Sq, Es; reflexivity|]. split; [|reflexivity].
      constructor; cbn; auto.
      * left. split; [reflexivity|]. apply Forall_forall. intros e He. destruct e as [dd|m0|r x| | |]; try exact I.
        -- destruct (step_reply url b F s m s' es Es) as (_ & Hs). rewrite Forall_forall in Hs. unfold with_close in He.
           assert (In (ESelf m0) es) as He'.
           { destruct (msg_rid m); [|exact He]. destruct (existsb _ _); [exact He|]. apply in_app_or in He. destruct He as [He|[He|[]]]; [exact He|discriminate He]. }
           exact (Hs _ He').
        -- apply Hid. rewrite <- Hy', <- Hx. change r with (fst (r, x)). apply in_map. unfold explicit. apply in_flat_map. exists (EReply r x). split; [exact He|now left].
      * rewrite Sk, filter_app. cbn. now rewrite Ec.
  - destruct (y_task y) as [s|s es|] eqn:Et; try discriminate. destruct S as [St So Sq Sk Sr Sp Sd Sg Sm]. rewrite Et in St. cbn [tasks] in St.
    destruct es as [|e rest].
    + injection H as <-. destruct St as [(St & _)|(St & _)].
      * eexists [AEffect], _. split; [cbn [exec act]; rewrite St; reflexivity|]. split; [|reflexivity]. constructor; cbn; auto.
      * exists [], y'. split; [reflexivity|]. split; [|reflexivity]. constructor; cbn; auto.
    + destruct St as [(St & Hf)|(St & Hf)].
      * pose proof (Forall_inv Hf) as He. apply Forall_inv_tail in Hf.
        cbn beta in He.
        destruct e; cbn [do_effect] in H.
        -- destruct (y_diag y) eqn:Ed.
           4:{ injection H as <-. eexists [AEffect], _. split; [cbn [exec act]; rewrite St; cbn [do_effect]; rewrite Sg; reflexivity|].
               split; [|reflexivity]. constructor; cbn; auto; congruence. }
           all: destruct (Nat.ltb (length (y_diagq y)) diag_capacity) eqn:El; [|discriminate]; injection H as <-;
             eexists [AEffect], _; (split; [cbn [exec act]; rewrite St; cbn [do_effect]; rewrite Sg, Sd, El; reflexivity|]);
             (split; [|reflexivity]); constructor; cbn; auto; congruence.
        -- destruct (Nat.ltb (length (y_lspq y)) lsp_capacity) eqn:El; [|discriminate]. injection H as <-. subst m.
           assert (El' : Nat.ltb (length (y_lspq y')) lsp_capacity = true).
           { apply Nat.ltb_lt. apply Nat.ltb_lt in El. rewrite Sq. pose proof (unchosen_length (y_lspq y)). lia. }
           eexists [AEffect], _. split; [cbn [exec act]; rewrite St; cbn [do_effect]; rewrite El'; reflexivity|]. split; [|reflexivity].
           constructor; cbn; auto.
           ++ apply only_app; [exact So|]. apply no_id. reflexivity.
           ++ change (y_lspq y' ++ [MInitialized] = unchosen Q (y_lspq y ++ [MInitialized])). rewrite unchosen_app, Sq. reflexivity.
        -- injection H as <-. eexists [AEffect], _. split; [cbn [exec act]; rewrite St; reflexivity|]. split; [|reflexivity].
           constructor; cbn; auto. rewrite Sr, filter_app. cbn. now rewrite He.
        -- injection H as <-. eexists [AEffect], _. split; [cbn [exec act]; rewrite St; reflexivity|]. split; [|reflexivity].
           constructor; cbn; auto; now rewrite Sm.
        -- injection H as <-. eexists [AEffect], _. split; [cbn [exec act]; rewrite St; reflexivity|]. split; [|reflexivity].
           constructor; cbn; auto; now rewrite Sm.
        -- injection H as <-. eexists [AEffect], _. split; [cbn [exec act]; rewrite St; reflexivity|]. split; [|reflexivity].
           constructor; cbn; auto.
      * pose proof (Forall_inv Hf) as (r & x & -> & Er). apply Forall_inv_tail in Hf. cbn [do_effect] in H. injection H as <-.
        exists [], y'. split; [reflexivity|]. split; [|reflexivity]. constructor; cbn; auto. rewrite Sr, filter_app. cbn. rewrite Er. cbn. now rewrite app_nil_r.
  - destruct S as [St So Sq Sk Sr Sp Sd Sg Sm]. destruct (y_diag y) eqn:Ed; try discriminate. destruct (y_diagq y) as [|d q] eqn:Eq; [discriminate|]. injection H as <-.
    eexists [ADiagTake], _. split; [cbn [exec act]; rewrite Sg, Sd; reflexivity|]. split; [|reflexivity]. constructor; cbn; auto.
  - destruct S as [St So Sq Sk Sr Sp Sd Sg Sm]. destruct (y_diag y) as [|rest acts|acts|] eqn:Ed; try discriminate. destruct rest as [|[u e] rest].
    + injection H as <-. eexists [ADiagPublish], _. split; [cbn [exec act]; rewrite Sg; reflexivity|]. split; [|reflexivity]. constructor; cbn; auto.
    + destruct (url u) as [v|] eqn:Eu; injection H as <-;
        (eexists [ADiagPublish], _; split; [cbn [exec act]; rewrite Sg, Eu; reflexivity|]; split; [|reflexivity]; constructor; cbn; auto; congruence).
  - destruct (y_diag y) as [|rest acts|acts|] eqn:Ed; try discriminate. destruct (send_lsp (MCodeActions acts) y) as [y2|] eqn:E; [|discriminate]. injection H as <-.
    destruct (no_id (MCodeActions acts) eq_refl) as (Ec & Hc). destruct (sim_send y y' _ y2 S Hy E Hc) as (y2' & S2 & [(Ec' & _)|(_ & E')]); [congruence|].
    pose proof (sm_diag _ _ S) as Sg. rewrite Ed in Sg. destruct S2 as [St So Sq Sk Sr Sp Sd Sg2 Sm].
    eexists [ADiagSend], _. split; [cbn [exec act]; rewrite Sg, E'; reflexivity|]. split; [|reflexivity]. constructor; cbn; auto.
  - destruct (find (fun x => tm_id x =? tid) (y_timers y)) as [x|] eqn:Ef; [|discriminate]. set (y2 := mksys _ _ _ _ _ _ _ _ _) in H.
    set (y2' := mksys (y_task y') (y_lspq y') (y_diagq y') (y_diag y') (filter (fun x => negb (tm_id x =? tid)) (y_timers y')) (y_enq y') (y_taken y') (y_replies y') (y_published y')).
    assert (S2 : sim y2 y2') by (destruct S as [St So Sq Sk Sr Sp Sd Sg Sm]; constructor; cbn; auto; now rewrite Sm).
    pose proof (sm_timers _ _ S) as Sm. destruct (tm_chan x) eqn:Ex.
    + destruct (no_id (MDidSave (tm_uri x)) eq_refl) as (Ec & Hc). assert (Hy2 : alive y2) by exact Hy.
      destruct (sim_send y2 y2' _ y1 S2 Hy2 H Hc) as (y3 & S3 & [(Ec' & _)|(_ & E')]); [congruence|].
      exists [ATimer tid], y3. split; [cbn [exec act]; rewrite Sm, Ef, Ex; fold y2'; rewrite <- Sm; fold y2'; now rewrite E'|]. split; [exact S3|reflexivity].
    + injection H as <-. exists [ATimer tid], y2'. split; [cbn [exec act]; rewrite Sm, Ef, Ex; unfold y2'; now rewrite Sm|]. split; [exact S2|reflexivity].
Qed.

Lemma sim0 : sim (sys0 T) (sys0 T).
Proof. constructor; try reflexivity. intros m r []. Qed.
Lemma sim_exec l y : exec url b (sys0 T) l = Some y -> alive y -> only_questions Q (client_msgs l) ->
  (forall r x, In (r, x) (told y) -> Q r = true -> not_on_missing x) ->
  exists l' y', exec url b (sys0 T) l' = Some y' /\ sim y y' /\ client_msgs l' = unchosen Q (client_msgs l).
Proof.
  revert l y. apply (exec_ind url b (fun l y => alive y -> only_questions Q (client_msgs l) ->
    (forall r x, In (r, x) (told y) -> Q r = true -> not_on_missing x) ->
    exists l' y', exec url b (sys0 T) l' = Some y' /\ sim y y' /\ client_msgs l' = unchosen Q (client_msgs l))).
  - intros _ _ _. exists [], (sys0 T). split; [reflexivity|]. split; [exact sim0|reflexivity].
  - intros l y a y1 He IH H Ha Ho Hn. assert (Hy : alive y) by (intros E; apply Ha; eapply act_dead; eauto).
    rewrite client_msgs_app in Ho |- *. pose proof (told_act y a y1 H Ha) as Hi.
    destruct IH as (l' & y' & E' & S & Ec); [exact Hy|intros m r Hm; apply Ho; apply in_or_app; now left|intros r x Hx; apply (Hn r x); auto|].
    destruct (sim_act y y' a y1 S H Ha) as (l2 & y2 & E2 & S2 & Ec2); [intros m r Hm; apply Ho; apply in_or_app; now right|exact Hn|].
    exists (l' ++ l2), y2. split; [rewrite exec_app, E'; exact E2|]. split; [exact S2|]. now rewrite client_msgs_app, unchosen_app, Ec, Ec2.
Qed.
Theorem questions_unnoticed l y s : exec url b (sys0 T) l = Some y -> y_task y = TIdle s ->
  only_questions Q (client_msgs l) -> (forall r a, In (r, a) (y_replies y) -> Q r = true -> not_on_missing a) ->
  exists l' y', exec url b (sys0 T) l' = Some y' /\ client_msgs l' = unchosen Q (client_msgs l) /\ differ_in Q y y'.
Proof.
  intros H Et Ho Hn. destruct (sim_exec l y H) as (l' & y' & E & S & Ec); auto.
  { unfold alive. congruence. }
  { intros r x Hx. apply Hn. unfold told, pending in Hx. rewrite Et in Hx. cbn in Hx. now rewrite app_nil_r in Hx. }
  exists l', y'. split; [exact E|]. split; [exact Ec|]. destruct S as [St So Sq Sk Sr Sp Sd Sg Sm]. rewrite Et in St. cbn in St. constructor; auto. congruence.
Qed.

(** ** Where a reading of a document comes from *)
Definition calm (m : msg) : Prop := match m with MDidChange _ _ | MDidSave _ | MCodeAction _ _ _ => False | _ => True end.
Definition calm_effect (e : effect) : Prop := match e with ESelf m => m = MInitialized | ETimer _ _ _ _ => False | _ => True end.
Definition calm_sys y : Prop := Forall calm (y_lspq y) /\ Forall (fun x => calm (fst x)) (y_taken y) /\ y_timers y = [] /\ Forall calm_effect (pending y).
Lemma calm_step F s m s' es : calm m -> MLspTask.step F url b s m = Ok (s', es) -> Forall calm_effect (with_close m es).
Proof.
  intros Hm H. destruct (step_reply url b F s m s' es H) as (_ & Hs).
  assert (Ht : all_timers es = []).
  { destruct (step_timers url b F s m s' es H) as [(u & cs & c & -> & _)|(_ & He & [(Ht & _)|(c & u & Ht & Hx)] & _)]; [destruct Hm|exact Ht|].
    exfalso. destruct m; try destruct Hm; cbn [MLspTask.step] in H.
    - injection H as <- <-. discriminate Ht.
    - unfold do_initialized in H. set (logs := ELog "Initialized" :: _) in H.
      assert (HL : all_timers logs = []) by (unfold logs; destruct (cf_user (tk_config s)), (String.eqb (cf_templates (tk_config s)) ""); reflexivity).
      clearbody logs. destruct (negb _); [injection H as <- <-; rewrite all_timers_app, HL in Ht; discriminate Ht|].
      destruct (walkdir T F b (tk_config s)) as [[[m d]|]|]; cbn [bind] in H; [| |discriminate]; injection H as <- <-;
        rewrite all_timers_app, HL in Ht; discriminate Ht.
    - destruct (did_open F b uri t false (tk_data s)) as [[d r]|]; cbn [bind] in H; [|discriminate].
      injection H as <- <-. destruct r; discriminate Ht.
    - destruct (do_completion b uri pos ctx (tk_data s)) as [r|]; cbn [bind] in H; [|discriminate]. injection H as <- <-. discriminate Ht.
    - destruct (do_hover b uri pos (tk_data s)) as [r|]; cbn [bind] in H; [|discriminate]. injection H as <- <-. discriminate Ht.
    - destruct (goto_definition F url b uri pos (tk_data s)) as [r|]; cbn [bind] in H; [|discriminate]. injection H as <- <-. destruct r; discriminate Ht.
    - destruct (String.eqb cmd "reset_variables"); injection H as <- <-; discriminate Ht.
    - injection H as <- <-. destruct (document_symbols uri (tk_data s)); discriminate Ht.
    - injection H as <- <-. destruct (cf_user _); discriminate Ht.
    - injection H as <- <-. discriminate Ht. }
  assert (He : Forall calm_effect es).
  { apply Forall_forall. intros e Hin. rewrite Forall_forall in Hs. specialize (Hs e Hin). destruct e; cbn in *; auto.
    assert (Hin2 : In (mktm tid k chan uri) (all_timers es)) by (unfold all_timers; apply in_flat_map; exists (ETimer tid k chan uri); split; [exact Hin|now left]).
    rewrite Ht in Hin2. destruct Hin2. }
  unfold with_close. destruct (msg_rid m); [|exact He]. destruct (existsb _ _); [exact He|]. apply Forall_app. split; [exact He|]. repeat constructor.
Qed.
Lemma calm_send m y y' : calm_sys y -> calm m -> send_lsp m y = Some y' -> calm_sys y'.
Proof.
  intros (H1 & H2 & H3 & H4) Hm H. unfold send_lsp in H. unfold calm_sys, pending in *. destruct (y_task y) eqn:E.
  3:{ injection H as <-. cbn. auto. }
  all: destruct (Nat.ltb _ _); [|discriminate]; injection H as <-; cbn; rewrite ?E; repeat split; auto; apply Forall_app; auto.
Qed.
Lemma calm_exec l y : exec url b (sys0 T) l = Some y -> Forall calm (client_msgs l) -> calm_sys y.
Proof.
  revert l y. apply (exec_ind url b (fun l y => Forall calm (client_msgs l) -> calm_sys y)).
  - intros _. repeat split; constructor.
  - intros l y a y1 _ IH H Hc. rewrite client_msgs_app in Hc. apply Forall_app in Hc. destruct Hc as (Hc & Ha). specialize (IH Hc).
    pose proof IH as (H1 & H2 & H3 & H4). destruct a; cbn [act] in H.
    + assert (H' : send_lsp m y = Some y1) by (destruct m; try exact H; discriminate H). cbn in Ha. apply Forall_inv in Ha. eapply calm_send; eauto.
    + destruct (y_task y) as [s|s es|] eqn:Et; try discriminate. destruct (y_lspq y) as [|m q]; [discriminate|].
      pose proof (Forall_inv H1) as Hm. apply Forall_inv_tail in H1.
      destruct (MLspTask.step F url b s m) as [[s' es]|] eqn:Es; injection H as <-; unfold calm_sys, pending; cbn; repeat split; auto.
      * apply Forall_app. split; [exact H2|repeat constructor; exact Hm].
      * eapply calm_step; eauto.
      * apply Forall_app. split; [exact H2|repeat constructor; exact Hm].
    + unfold calm_sys, pending in *. destruct (y_task y) as [s|s es|] eqn:Et; try discriminate. destruct es as [|e rest].
      { injection H as <-. cbn. auto. }
      pose proof (Forall_inv H4) as He. apply Forall_inv_tail in H4. destruct e; cbn [do_effect] in H.
      * destruct (y_diag y); try destruct (Nat.ltb _ _); try discriminate; injection H as <-; cbn; auto.
      * destruct (Nat.ltb _ _); [|discriminate]. injection H as <-. cbn in He. subst m. cbn. repeat split; auto. apply Forall_app. split; [exact H1|repeat constructor].
      * injection H as <-. cbn. auto.
      * injection H as <-. cbn. rewrite H3. auto.
      * destruct He.
      * injection H as <-. cbn. auto.
    + destruct (y_diag y), (y_diagq y); try discriminate. injection H as <-. exact IH.
    + destruct (y_diag y) as [|rest acts|acts|]; try discriminate. destruct rest as [|[u e] rest]; [injection H as <-; exact IH|].
      destruct (url u); injection H as <-; exact IH.
    + destruct (y_diag y) as [|rest acts|acts|]; try discriminate. destruct (send_lsp (MCodeActions acts) y) as [y2|] eqn:E; [|discriminate].
      injection H as <-. exact (calm_send (MCodeActions acts) _ _ IH I E).
    + rewrite H3 in H. discriminate H.
Qed.
(** Nothing is read again unless it was edited, saved, or a quick fix was asked for. *)
Theorem readings_caused l y u : exec url b (sys0 T) l = Some y -> Forall calm (client_msgs l) -> ~ In (MDidSave u) (map fst (y_taken y)).
Proof.
  intros H Hc Hin. destruct (calm_exec l y H Hc) as (_ & H2 & _). apply in_map_iff in Hin. destruct Hin as (x & E & Hx).
  rewrite Forall_forall in H2. specialize (H2 x Hx). cbn beta in H2. rewrite E in H2. exact H2.
Qed.
(** The handler for quick fixes changes nothing of what is known. *)
Theorem fix_asked F s rid uri pos s' es : MLspTask.step F url b s (MCodeAction rid uri pos) = Ok (s', es) ->
  tk_data s' = tk_data s /\ tk_config s' = tk_config s /\ handed es = [] /\
  (all_timers es = [] \/ all_timers es = [mktm (tk_next s) TimerAction (ls_chan (tk_data s)) uri]).
Proof.
  intros H. cbn [MLspTask.step] in H. destruct (code_action b uri pos (tk_data s)) as [[a|]|]; cbn [bind] in H; [| |discriminate].
  - destruct (process_code_actions F url a (tk_data s)) as [p|]; cbn [bind] in H; [|discriminate].
    destruct (snd p); injection H as <- <-; cbn; auto.
  - injection H as <- <-. cbn. auto.
Qed.
Lemma differ_taken y y' m : differ_in Q y y' -> In m (map fst (y_taken y)) -> chosen Q m = false -> In m (map fst (y_taken y')).
Proof.
  intros D H Hc. rewrite (df_taken _ _ _ D). apply in_map_iff in H. destruct H as (x & <- & Hx). apply in_map. apply filter_In. now rewrite Hc.
Qed.
End Asking.
