(** * PChannels2: answers, order, rest and deadlock (C42-C44, C48, C76, C77). *)
From Coq Require Import Permutation Wf_nat.
From Verif Require Import Base RString Utf8 Rope Types Captures.
From Verif Require Import MDefinition MObjects MTemplates MSearchErrors MLspFiles MLspTask MChannels.
From Verif Require Import SpecChannels PChannels.

Section Exec2.
Context {T : ts} (url : url_parser) (b : build).
Implicit Types (y : sys T) (s : task_state T).

(** ** Answers *)
Definition in_progress y : list N :=
  match y_task y with TBusy _ es => map fst (explicit es) | _ => [] end.

Lemma count_app (n : N) a c : (count_occ N.eq_dec (a ++ c) n = count_occ N.eq_dec a n + count_occ N.eq_dec c n)%nat.
Proof. apply count_occ_app. Qed.
Lemma request_ids_app a c : request_ids (a ++ c) = request_ids a ++ request_ids c.
Proof. apply flat_map_app. Qed.
Lemma rids_null ms : map fst (map (fun r : N => (r, RNull)) (rids ms)) = request_ids ms.
Proof. rewrite map_map. cbn. now rewrite map_id, rids_ids. Qed.

Lemma send_count m y y' n : send_lsp m y = Some y' ->
  y_task y' = y_task y /\
  (count_occ N.eq_dec (map fst (y_replies y') ++ request_ids (y_lspq y')) n =
   count_occ N.eq_dec (map fst (y_replies y) ++ request_ids (y_lspq y)) n + count_occ N.eq_dec (request_id m) n)%nat.
Proof.
  unfold send_lsp. intros H.
  assert (Hid : request_ids [m] = request_id m) by (cbn; apply app_nil_r).
  destruct (y_task y) eqn:Et;
  try (destruct (Nat.ltb _ _); [|discriminate]; inversion H; subst; cbn [y_task y_replies y_lspq]; split; [reflexivity|];
    rewrite !count_app, request_ids_app, count_app, Hid; lia).
  assert (E : y' = mksys TDead (y_lspq y) (y_diagq y) (y_diag y) (y_timers y) (y_enq y) (y_taken y)
              (y_replies y ++ map (fun r => (r, RNull)) (rids [m])) (y_published y)) by congruence.
  rewrite E. cbn [y_task y_replies y_lspq]. split; [reflexivity|].
  rewrite map_app, rids_null, !count_app, Hid. lia.
Qed.

Lemma answered_count l y : exec url b (sys0 T) l = Some y -> forall n,
  count_occ N.eq_dec (request_ids (client_msgs l)) n =
  count_occ N.eq_dec (map fst (y_replies y) ++ request_ids (y_lspq y) ++ in_progress y) n.
Proof.
  revert l y. apply (exec_ind url b (fun l y => forall n,
    count_occ N.eq_dec (request_ids (client_msgs l)) n =
    count_occ N.eq_dec (map fst (y_replies y) ++ request_ids (y_lspq y) ++ in_progress y) n)).
  - reflexivity.
  - intros l y a y' Hex IH Hact n. rewrite client_msgs_app, request_ids_app, count_app, IH. clear IH.
    assert (Hsend : forall m y1, y_task y1 = y_task y -> y_replies y1 = y_replies y -> y_lspq y1 = y_lspq y ->
      send_lsp m y1 = Some y' ->
      (count_occ N.eq_dec (map fst (y_replies y) ++ request_ids (y_lspq y) ++ in_progress y) n +
       count_occ N.eq_dec (request_id m) n =
       count_occ N.eq_dec (map fst (y_replies y') ++ request_ids (y_lspq y') ++ in_progress y') n)%nat).
    { intros m y1 E1 E2 E3 E. destruct (send_count m y1 y' n E) as (H1 & H2). unfold in_progress. rewrite H1, E1.
      rewrite !app_assoc, (count_app n (_ ++ _)), (count_app n (map fst (y_replies y') ++ _)), H2, E2, E3. lia. }
    destruct a; cbn [act client_msgs flat_map app] in *; try change (request_ids []) with (@nil N).
    + change (request_ids [m]) with (request_id m ++ []). rewrite app_nil_r.
      destruct m; try discriminate; (eapply Hsend; [reflexivity|reflexivity|reflexivity|exact Hact]).
    + destruct (y_task y) as [s| |] eqn:Et; try discriminate. destruct (y_lspq y) as [|m q] eqn:Eq; [discriminate|].
      cbn [count_occ]. rewrite Nat.add_0_r.
      change (request_ids (m :: q)) with (request_id m ++ request_ids q).
      remember (rids (m :: q)) as rr eqn:Hrr in Hact.
      destruct (step F url b s m) as [[s' es]|] eqn:Es; injection Hact as <-; unfold in_progress; rewrite Et; cbn [y_task y_replies y_lspq].
      * destruct (close_answers url b F s m s' es Es) as (E1 & E2 & _). rewrite E1, E2, !count_app. cbn. lia.
      * rewrite Hrr, map_app, rids_null. change (request_ids (m :: q)) with (request_id m ++ request_ids q).
        rewrite !count_app. cbn. lia.
    + cbn [count_occ]. rewrite Nat.add_0_r. destruct (y_task y) as [s|s es|] eqn:Et; try discriminate.
      unfold in_progress at 1. rewrite Et.
      destruct es as [|e es]; [inversion Hact; subst; cbn; reflexivity|].
      assert (Ha : alive y) by (intros E; rewrite Et in E; discriminate).
      destruct (inv_reach url b l y Hex Ha) as (s0 & tr & perf & pend & I).
      destruct (iv_task _ _ _ _ _ _ _ I) as [(E & _)|E]; rewrite Et in E; [discriminate|]. inversion E; subst s0 pend.
      pose proof (iv_self _ _ _ _ _ _ _ I) as Hs. inversion Hs as [|? ? Hs1 _]; subst.
      destruct e as [d|m|r a|t|t k c u|g]; cbn [do_effect] in Hact.
      * destruct (y_diag y); try (destruct (Nat.ltb _ _); [|discriminate]); inversion Hact; subst; reflexivity.
      * destruct (Nat.ltb _ _); [|discriminate]. inversion Hact; subst y'. subst m. unfold in_progress; cbn [y_task y_replies y_lspq].
        rewrite request_ids_app. change (request_ids [MInitialized]) with (@nil N).
        change (explicit (ESelf MInitialized :: es)) with (explicit es). rewrite app_nil_r. reflexivity.
      * inversion Hact; subst y'. unfold in_progress; cbn [y_task y_replies y_lspq]. cbn [explicit flat_map app map fst].
        rewrite map_app. cbn [map fst].
        change (r :: map fst (flat_map (fun e => match e with EReply r0 a0 => [(r0, a0)] | _ => [] end) es)) with ([r] ++ map fst (explicit es)).
        fold (explicit es). rewrite !count_app. lia.
      * inversion Hact; subst; reflexivity.
      * inversion Hact; subst; reflexivity.
      * inversion Hact; subst; reflexivity.
    + cbn [count_occ]. rewrite Nat.add_0_r. destruct (y_diag y); try discriminate. destruct (y_diagq y); inversion Hact; subst; reflexivity.
    + cbn [count_occ]. rewrite Nat.add_0_r. destruct (y_diag y) as [|rest acts|acts|]; try discriminate.
      destruct rest as [|[u e] rest]; [inversion Hact; subst; reflexivity|]. destruct (url u); inversion Hact; subst; reflexivity.
    + cbn [count_occ]. destruct (y_diag y); try discriminate.
      destruct (send_lsp (MCodeActions acts) y) as [y1|] eqn:Es; [|discriminate]. inversion Hact; subst y'.
      destruct (send_count _ _ _ n Es) as (H1 & H2). unfold in_progress. cbn [y_task y_replies y_lspq]. rewrite H1.
      rewrite !app_assoc, (count_app n (map fst (y_replies y) ++ _)), (count_app n (map fst (y_replies y1) ++ _)), H2.
      cbn [request_id count_occ]. lia.
    + cbn [count_occ]. rewrite Nat.add_0_r. destruct (find _ (y_timers y)) as [x|]; [|discriminate].
      destruct (tm_chan x); [|inversion Hact; subst; reflexivity].
      match type of Hact with send_lsp _ ?z = _ => pose proof (Hsend (MDidSave (tm_uri x)) z eq_refl eq_refl eq_refl Hact) as HH end.
      cbn [request_id count_occ] in HH. lia.
Qed.
Theorem answered_once l y : exec url b (sys0 T) l = Some y ->
  Permutation (request_ids (client_msgs l)) (map fst (y_replies y) ++ request_ids (y_lspq y) ++ in_progress y).
Proof. intros H. apply (Permutation_count_occ N.eq_dec). now apply answered_count. Qed.

Lemma answers_trace (ms : list (msg * fs)) s0 s tr :
  replay url b s0 ms = Ok (s, tr) -> explicit (effects_of tr) = flat_map (fun x => answers (fst x) (snd x)) tr.
Proof.
  revert s0 tr. induction ms as [|[m F] ms IH]; intros s0 tr H; cbn [replay] in H; [inversion H; reflexivity|].
  destruct (step F url b s0 m) as [[s1 es]|] eqn:Es; [|discriminate].
  destruct (replay url b s1 ms) as [[s2 tr2]|] eqn:Er; [|discriminate]. inversion H; subst.
  cbn. rewrite explicit_app. f_equal; [|eauto]. apply (close_answers url b F s0 m s1 es Es).
Qed.
Lemma handed_trace (ms : list (msg * fs)) s0 s tr :
  replay url b s0 ms = Ok (s, tr) -> handed (effects_of tr) = flat_map (fun x => handed (snd x)) tr.
Proof.
  revert s0 tr. induction ms as [|[m F] ms IH]; intros s0 tr H; cbn [replay] in H; [inversion H; reflexivity|].
  destruct (step F url b s0 m) as [[s1 es]|] eqn:Es; [|discriminate].
  destruct (replay url b s1 ms) as [[s2 tr2]|] eqn:Er; [|discriminate]. inversion H; subst.
  cbn. rewrite handed_app. f_equal; [|eauto]. apply (close_answers url b F s0 m s1 es Es).
Qed.

Theorem answers_are_handlers l y : exec url b (sys0 T) l = Some y -> alive y ->
  exists s tr later,
    replay url b (task0 T) (y_taken y) = Ok (s, tr) /\
    flat_map (fun x => answers (fst x) (snd x)) tr = y_replies y ++ later /\
    map fst later = in_progress y.
Proof.
  intros H Ha. destruct (inv_reach url b l y H Ha) as (s & tr & perf & pend & I). destruct I.
  exists s, tr, (explicit pend). split; [exact iv_replay|]. split.
  - rewrite <- (answers_trace _ _ _ _ iv_replay), iv_effects, explicit_app, iv_replies. reflexivity.
  - unfold in_progress. destruct iv_task as [(E & ->)|E]; rewrite E; reflexivity.
Qed.

(** ** After a panic *)
Definition dead_inv y : Prop :=
  y_task y = TDead ->
  y_lspq y = [] /\
  exists past m F s tr unanswered,
    y_taken y = past ++ [(m, F)] /\
    replay url b (task0 T) past = Ok (s, tr) /\ step F url b s m = Panic /\
    y_replies y = flat_map (fun x => answers (fst x) (snd x)) tr ++ map (fun r => (r, RNull)) unanswered.
Lemma send_dead m y y' : y_task y = TDead -> send_lsp m y = Some y' ->
  y' = mksys TDead (y_lspq y) (y_diagq y) (y_diag y) (y_timers y) (y_enq y) (y_taken y)
         (y_replies y ++ map (fun r => (r, RNull)) (request_id m)) (y_published y).
Proof.
  unfold send_lsp. intros -> H.
  assert (Hid : request_ids [m] = request_id m) by (cbn; apply app_nil_r). rewrite <- Hid, <- rids_ids. congruence.
Qed.
Lemma dead_same y y' : dead_inv y -> y_task y' = y_task y -> y_lspq y' = y_lspq y -> y_taken y' = y_taken y ->
  (exists x, y_replies y' = y_replies y ++ map (fun r => (r, RNull)) x) -> dead_inv y'.
Proof.
  intros D E1 E2 E3 (x & E4) Hd. rewrite E1 in Hd. destruct (D Hd) as (H1 & past & m & F & s & tr & un & H2 & H3 & H4 & H5).
  split; [now rewrite E2|]. exists past, m, F, s, tr, (un ++ x). rewrite E3, E4, H5, map_app, <- app_assoc. auto.
Qed.
Lemma dead_reach l y : exec url b (sys0 T) l = Some y -> dead_inv y.
Proof.
  revert l y. apply (exec_ind url b (fun l y => dead_inv y)); [intros H; discriminate|].
  intros l y a y' Hex D Hact.
  assert (Hsend : forall m y1, y_task y1 = y_task y -> y_replies y1 = y_replies y -> y_lspq y1 = y_lspq y -> y_taken y1 = y_taken y ->
    send_lsp m y1 = Some y' -> dead_inv y').
  { intros m y1 E1 E2 E3 E4 E Hd. assert (Hdy : y_task y1 = TDead).
    { destruct (send_count m y1 y' 0 E) as (Et & _). now rewrite <- Et. }
    revert Hd. pose proof (send_dead m y1 y' Hdy E) as ->. apply (dead_same y); cbn; auto; [congruence|].
    exists (request_id m). now rewrite E2. }
  destruct a; cbn [act] in Hact.
  - destruct m; try discriminate; (eapply Hsend; [reflexivity|reflexivity|reflexivity|reflexivity|exact Hact]).
  - destruct (y_task y) as [s| |] eqn:Et; try discriminate. destruct (y_lspq y) as [|m q] eqn:Eq; [discriminate|].
    destruct (step F url b s m) as [[s' es]|] eqn:Es; inversion Hact; subst y'; intros Hd; [discriminate|].
    cbn. split; [reflexivity|].
    assert (Ha : alive y) by (intros E; rewrite Et in E; discriminate).
    destruct (inv_reach url b l y Hex Ha) as (s0 & tr & perf & pend & I). destruct I.
    destruct iv_task as [(E & ->)|E]; rewrite Et in E; [|discriminate]. inversion E; subst s0.
    exists (y_taken y), m, F, s, tr, (rids (m :: q)). repeat split; auto.
    rewrite <- (answers_trace _ _ _ _ iv_replay), iv_effects, app_nil_r, iv_replies. reflexivity.
  - destruct (y_task y) as [s|s es|] eqn:Et; try discriminate.
    destruct es as [|e es]; [inversion Hact; subst; intros Hd; discriminate|].
    destruct e; cbn [do_effect] in Hact; try (inversion Hact; subst; intros Hd; discriminate).
    + destruct (y_diag y); try (destruct (Nat.ltb _ _); [|discriminate]); inversion Hact; subst; intros Hd; discriminate.
    + destruct (Nat.ltb _ _); [|discriminate]; inversion Hact; subst; intros Hd; discriminate.
  - destruct (y_diag y); try discriminate. destruct (y_diagq y); inversion Hact; subst.
    apply (dead_same y); auto. exists []. cbn. now rewrite app_nil_r.
  - destruct (y_diag y) as [|rest acts|acts|]; try discriminate.
    destruct rest as [|[u e] rest]; [|destruct (url u)]; inversion Hact; subst;
      (apply (dead_same y); auto; exists []; cbn; now rewrite app_nil_r).
  - destruct (y_diag y); try discriminate. destruct (send_lsp (MCodeActions acts) y) as [y1|] eqn:Es; [|discriminate].
    inversion Hact; subst y'. intros Hd. cbn in Hd.
    destruct (send_count _ _ _ 0 Es) as (Et & _). rewrite Hd in Et. symmetry in Et.
    pose proof (send_dead _ _ _ Et Es) as E1.
    eapply (dead_same y _ D); [| | | |exact Hd]; cbn; rewrite E1; cbn; auto. exists []. reflexivity.
  - destruct (find _ (y_timers y)) as [x|]; [|discriminate].
    destruct (tm_chan x).
    + eapply Hsend; [| | | |exact Hact]; reflexivity.
    + inversion Hact; subst. apply (dead_same y); auto. exists []. cbn. now rewrite app_nil_r.
Qed.

(** ** Order of processing *)
Lemma subseq_app_r {A} (l l' x : list A) : subseq l l' -> subseq l (l' ++ x).
Proof. induction 1; cbn; constructor; assumption. Qed.
Lemma subseq_snoc {A} (l l' : list A) x : subseq l l' -> subseq (l ++ [x]) (l' ++ [x]).
Proof.
  induction 1 as [l| |].
  - cbn. induction l as [|a l IH]; cbn; [do 2 constructor|]. now constructor.
  - cbn. now constructor.
  - cbn. now constructor.
Qed.
Lemma client_subseq l y : exec url b (sys0 T) l = Some y -> alive y -> subseq (client_msgs l) (y_enq y).
Proof.
  revert l y. apply (exec_ind url b (fun l y => alive y -> subseq (client_msgs l) (y_enq y))).
  - intros _. constructor.
  - intros l y a y' Hex IH Hact Ha'. assert (Ha : alive y) by (intros E; apply Ha'; eapply act_dead; eauto).
    specialize (IH Ha). rewrite client_msgs_app.
    destruct a; cbn [act client_msgs flat_map app] in *; rewrite ?app_nil_r.
    + destruct m; try discriminate; destruct (send_alive _ _ _ Ha Hact) as (_ & ->); cbn; now apply subseq_snoc.
    + destruct (y_task y) as [s| |] eqn:Et; try discriminate. destruct (y_lspq y) as [|m q] eqn:Eq; [discriminate|].
      destruct (step F url b s m) as [[s' es]|] eqn:Es; inversion Hact; subst y'; exact IH.
    + destruct (y_task y) as [s|s es|] eqn:Et; try discriminate.
      destruct es as [|e es]; [inversion Hact; subst; exact IH|].
      destruct e; cbn [do_effect] in Hact; try (inversion Hact; subst; exact IH).
      * destruct (y_diag y); try (destruct (Nat.ltb _ _); [|discriminate]); inversion Hact; subst; exact IH.
      * destruct (Nat.ltb _ _); [|discriminate]; inversion Hact; subst; cbn. now apply subseq_app_r.
    + destruct (y_diag y); try discriminate. destruct (y_diagq y); inversion Hact; subst. exact IH.
    + destruct (y_diag y) as [|rest acts|acts|]; try discriminate.
      destruct rest as [|[u e] rest]; [|destruct (url u)]; inversion Hact; subst; exact IH.
    + destruct (y_diag y); try discriminate. destruct (send_lsp (MCodeActions acts) y) as [y1|] eqn:Es; [|discriminate].
      inversion Hact; subst y'. destruct (send_alive _ _ _ Ha Es) as (_ & ->). cbn. now apply subseq_app_r.
    + destruct (find _ (y_timers y)) as [x|]; [|discriminate].
      destruct (tm_chan x); [|inversion Hact; subst; exact IH].
      match type of Hact with send_lsp _ ?z = _ => destruct (send_alive _ z _ Ha Hact) as (_ & ->) end. cbn. now apply subseq_app_r.
Qed.

(** ** Capacity and blocking *)
Lemma capacity_reach l y : exec url b (sys0 T) l = Some y ->
  (length (y_lspq y) <= lsp_capacity)%nat /\ (length (y_diagq y) <= diag_capacity)%nat.
Proof.
  revert l y. apply (exec_ind url b (fun l y => (length (y_lspq y) <= lsp_capacity)%nat /\ (length (y_diagq y) <= diag_capacity)%nat)).
  - cbn. split; apply Nat.le_0_l.
  - intros l y a y' Hex (H1 & H2) Hact.
    assert (Hsend : forall m y1 y2, y_diagq y1 = y_diagq y -> y_lspq y1 = y_lspq y ->
      send_lsp m y1 = Some y2 -> (length (y_lspq y2) <= lsp_capacity)%nat /\ (length (y_diagq y2) <= diag_capacity)%nat).
    { intros m y1 y2 E1 E2 E. unfold send_lsp in E.
      destruct (y_task y1); try (destruct (Nat.ltb _ _) eqn:El; [|discriminate]; apply Nat.ltb_lt in El; inversion E; subst; cbn;
        rewrite app_length; cbn; rewrite E1; split; [lia|exact H2]).
      inversion E; subst; cbn. now rewrite E1, E2. }
    destruct a; cbn [act] in Hact.
    + destruct m; try discriminate; (eapply Hsend; [reflexivity|reflexivity|exact Hact]).
    + destruct (y_task y) as [s| |] eqn:Et; try discriminate. destruct (y_lspq y) as [|m q] eqn:Eq; [discriminate|].
      cbn in H1. destruct (step F url b s m) as [[s' es]|] eqn:Es; inversion Hact; subst y'; cbn; split; auto; lia.
    + destruct (y_task y) as [s|s es|] eqn:Et; try discriminate.
      destruct es as [|e es]; [inversion Hact; subst; auto|].
      destruct e; cbn [do_effect] in Hact; try (inversion Hact; subst; auto; fail).
      * destruct (y_diag y); try (destruct (Nat.ltb _ _) eqn:El; [|discriminate]; apply Nat.ltb_lt in El); inversion Hact; subst; auto;
          cbn; rewrite app_length; cbn; split; auto; lia.
      * destruct (Nat.ltb _ _) eqn:El; [|discriminate]; apply Nat.ltb_lt in El; inversion Hact; subst; cbn.
        rewrite app_length; cbn; split; auto; lia.
    + destruct (y_diag y); try discriminate. destruct (y_diagq y); inversion Hact; subst. cbn in *. split; [auto|lia].
    + destruct (y_diag y) as [|rest acts|acts|]; try discriminate.
      destruct rest as [|[u e] rest]; [|destruct (url u)]; inversion Hact; subst; auto.
    + destruct (y_diag y); try discriminate. destruct (send_lsp (MCodeActions acts) y) as [y1|] eqn:Es; [|discriminate].
      inversion Hact; subst y'. apply (Hsend _ _ _ eq_refl eq_refl Es).
    + destruct (find _ (y_timers y)) as [x|]; [|discriminate].
      destruct (tm_chan x); [|inversion Hact; subst; auto]. eapply Hsend; [| |exact Hact]; reflexivity.
Qed.

(** Where the server can stop without the client. *)
Lemma stuck_cases l y (F0 : fs) : exec url b (sys0 T) l = Some y -> (forall a, internal a -> act url b y a = None) ->
  ((exists s, y_task y = TIdle s) \/ y_task y = TDead) /\ y_lspq y = [] /\ y_timers y = [] /\
    (y_diag y = DIdle /\ y_diagq y = [] \/ y_diag y = DDead)
  \/ length (y_lspq y) = lsp_capacity /\
     ((exists s m es, y_task y = TBusy s (ESelf m :: es)) \/
      (exists s d es acts, y_task y = TBusy s (EDiag d :: es) /\ length (y_diagq y) = diag_capacity /\ y_diag y = DSend acts)).
Proof.
  intros Hex Hst. destruct (capacity_reach l y Hex) as (C1 & C2).
  pose proof (Hst (ATake F0) I) as HT. pose proof (Hst AEffect I) as HE. pose proof (Hst ADiagTake I) as HDT.
  pose proof (Hst ADiagPublish I) as HDP. pose proof (Hst ADiagSend I) as HDS.
  assert (Htm : (y_task y = TDead \/ (length (y_lspq y) < lsp_capacity)%nat) -> y_timers y = []).
  { intros Hroom. destruct (y_timers y) as [|x xs] eqn:Ex; [reflexivity|].
    specialize (Hst (ATimer (tm_id x)) I). cbn [act] in Hst. rewrite Ex in Hst. cbn [find] in Hst. rewrite N.eqb_refl in Hst.
    destruct (tm_chan x); [|discriminate]. unfold send_lsp in Hst. cbn [y_task y_lspq] in Hst.
    destruct Hroom as [Hd|Hl]; [rewrite Hd in Hst; discriminate|].
    apply Nat.ltb_lt in Hl. rewrite Hl in Hst. destruct (y_task y); discriminate. }
  assert (Hdiag : (y_task y = TDead \/ (length (y_lspq y) < lsp_capacity)%nat) ->
    y_diag y = DIdle /\ y_diagq y = [] \/ y_diag y = DDead).
  { intros Hroom. cbn [act] in HDT, HDP, HDS. destruct (y_diag y) as [|rest acts|acts|].
    - destruct (y_diagq y); [auto|discriminate].
    - destruct rest as [|[u e] rest]; [discriminate|]. destruct (url u); discriminate.
    - unfold send_lsp in HDS. destruct Hroom as [Hd|Hl]; [rewrite Hd in HDS; discriminate|].
      apply Nat.ltb_lt in Hl. rewrite Hl in HDS. destruct (y_task y); discriminate.
    - now right. }
  destruct (y_task y) as [s|s es|] eqn:Et.
  - cbn [act] in HT. rewrite Et in HT. destruct (y_lspq y) as [|m q] eqn:Eq.
    + left. split; [left; eauto|]. split; [reflexivity|].
      assert (R : TIdle s = TDead \/ (length (@nil msg) < lsp_capacity)%nat) by (right; cbn; unfold lsp_capacity; lia). auto.
    + destruct (step F0 url b s m) as [[s' es]|]; discriminate.
  - right. cbn [act] in HE. rewrite Et in HE. destruct es as [|e es]; [discriminate|].
    destruct e; cbn [do_effect] in HE; try discriminate.
    + assert (Hfull : length (y_diagq y) = diag_capacity /\ y_diag y <> DDead).
      { destruct (y_diag y); try discriminate; destruct (Nat.ltb (length (y_diagq y)) diag_capacity) eqn:El; try discriminate;
          apply Nat.ltb_ge in El; (split; [lia|discriminate]). }
      destruct Hfull as (Hq & Hnd).
      cbn [act] in HDT, HDP, HDS. destruct (y_diag y) as [|rest acts|acts|] eqn:Ed.
      * destruct (y_diagq y) eqn:Eq; [cbn in Hq; unfold diag_capacity in Hq; discriminate|discriminate].
      * destruct rest as [|[u e] rest]; [discriminate|]. destruct (url u); discriminate.
      * unfold send_lsp in HDS. rewrite Et in HDS. destruct (Nat.ltb (length (y_lspq y)) lsp_capacity) eqn:El; [discriminate|].
        apply Nat.ltb_ge in El. split; [lia|]. right. exists s, d, es, acts. auto.
      * now elim Hnd.
    + destruct (Nat.ltb (length (y_lspq y)) lsp_capacity) eqn:El; [discriminate|]. apply Nat.ltb_ge in El.
      split; [lia|]. left. eauto.
  - left. destruct (dead_reach l y Hex Et) as (Hq & _). split; [now right|]. split; [exact Hq|].
    assert (R : @TDead T = TDead \/ (length (y_lspq y) < lsp_capacity)%nat) by now left. auto.
Qed.

(** ** Coming to rest *)
Definition Pmsg (m : msg) : nat :=
  match m with
  | MInitialized | MDidSave _ | MDidOpen _ _ | MExecuteCommand _ | MDidChangeConfiguration _ | MDidChange _ _ | MCodeAction _ _ _ => 1
  | _ => 0
  end%nat.
Definition Qmsg (m : msg) : nat :=
  match m with
  | MInitialized | MDidSave _ | MDidOpen _ _ => 1
  | MCodeActions _ => 2
  | MExecuteCommand _ | MDidChangeConfiguration _ => 5
  | MDidChange _ _ | MCodeAction _ _ _ => 6
  | _ => 3
  end%nat.
Definition Peff (e : effect) : nat :=
  match e with ESelf m => Pmsg m | ETimer _ _ _ _ => 1 | _ => 0 end%nat.
Definition Qeff (e : effect) : nat :=
  match e with ESelf m => S (Qmsg m) | ETimer _ _ _ _ => 3 | EDiag d => 6 + length d | _ => 1 end%nat.
Fixpoint tot {A} (f : A -> nat) (l : list A) : nat := match l with [] => 0 | x :: r => f x + tot f r end%nat.
Definition Py y : nat :=
  (tot Pmsg (y_lspq y) + length (y_timers y) + match y_task y with TBusy _ es => tot Peff es | _ => 0 end)%nat.
Definition Qy y : nat :=
  (tot Qmsg (y_lspq y) + 2 * length (y_timers y) + match y_task y with TBusy _ es => 1 + tot Qeff es | _ => 0 end +
   tot (fun d => 5 + length d) (y_diagq y) +
   match y_diag y with DPublish r _ => 4 + length r | DSend _ => 3 | _ => 0 end)%nat.
Lemma tot_app {A} (f : A -> nat) l1 l2 : tot f (l1 ++ l2) = (tot f l1 + tot f l2)%nat.
Proof. induction l1; cbn; lia. Qed.
Lemma filter_length {A} (f : A -> bool) l : (length (filter f l) <= length l)%nat.
Proof. induction l; cbn; [lia|]. destruct (f a); cbn; lia. Qed.
Lemma filter_shorter (t : N) l x : find (fun x => tm_id x =? t) l = Some x ->
  (length (filter (fun x => negb (N.eqb (tm_id x) t)) l) < length l)%nat.
Proof.
  induction l as [|a l IH]; cbn; [discriminate|]. destruct (tm_id a =? t) eqn:E; cbn.
  - intros _. pose proof (filter_length (fun x => negb (tm_id x =? t)) l). lia.
  - intros H. specialize (IH H). lia.
Qed.
Lemma tot_close f m es : (forall r, f (EReply r RNull) = match f (EReply 0 RNull) with 0 => 0 | S n => S n end)%nat ->
  (tot f (with_close m es) <= tot f es + f (EReply 0 RNull))%nat.
Proof.
  intros H. unfold with_close. destruct (msg_rid m); [|lia]. destruct (existsb _ _); [lia|].
  rewrite tot_app. cbn. rewrite H. destruct (f (EReply 0 RNull)); lia.
Qed.
Lemma step_measure F s m s' es : step F url b s m = Ok (s', es) ->
  (tot Peff (with_close m es) < Pmsg m \/ tot Peff (with_close m es) = Pmsg m /\ 1 + tot Qeff (with_close m es) < Qmsg m)%nat.
Proof.
  intros H. destruct m; cbn [step] in *; unfold with_close; cbn [msg_rid].
  - inversion H; subst. cbn. rewrite N.eqb_refl. cbn. lia.
  - left. unfold do_initialized in H.
    set (logs := ELog "Initialized" :: _) in H.
    assert (HL : tot Peff logs = 0%nat).
    { unfold logs. destruct (cf_user (tk_config s)), (String.eqb (cf_templates (tk_config s)) ""); reflexivity. }
    clearbody logs.
    destruct (negb _); [inversion H; subst; rewrite tot_app, HL; cbn; lia|].
    destruct (walkdir T F b (tk_config s)) as [[[d data]|]|]; cbn [bind] in H; try discriminate;
      inversion H; subst; rewrite tot_app, HL; cbn; lia.
  - destruct (did_open F b uri t false (tk_data s)) as [[d r]|]; cbn [bind] in H; [|discriminate].
    inversion H; subst. left. destruct r; cbn; lia.
  - destruct (did_change (tk_next s) uri cs (tk_data s)) as [[d r]|]; cbn [bind snd fst] in H; [|discriminate].
    destruct r as [te|]; inversion H; subst; [destruct (te_abort te); cbn|cbn]; lia.
  - destruct (did_save F b uri (tk_data s)) as [[d r]|]; cbn [bind] in H; [|discriminate].
    inversion H; subst. left. destruct r; cbn; lia.
  - destruct (do_completion b uri pos ctx (tk_data s)) as [r|]; cbn [bind] in H; [|discriminate].
    inversion H; subst. cbn. rewrite N.eqb_refl. cbn. lia.
  - destruct (do_hover b uri pos (tk_data s)) as [r|]; cbn [bind] in H; [|discriminate].
    inversion H; subst. cbn. rewrite N.eqb_refl. cbn. lia.
  - destruct (goto_definition F url b uri pos (tk_data s)) as [r|]; cbn [bind] in H; [|discriminate].
    inversion H; subst. destruct r; cbn; rewrite ?N.eqb_refl; cbn; lia.
  - destruct (code_action b uri start (tk_data s)) as [[a|]|]; cbn [bind] in H; [| |discriminate].
    + destruct (process_code_actions F url a (tk_data s)) as [p|]; cbn [bind] in H; [|discriminate].
      destruct (snd p); inversion H; subst; cbn; rewrite N.eqb_refl; cbn; lia.
    + inversion H; subst. cbn. lia.
  - destruct (String.eqb cmd "reset_variables"); inversion H; subst; cbn; lia.
  - inversion H; subst. destruct (document_symbols uri (tk_data s')); cbn; rewrite ?N.eqb_refl; cbn; lia.
  - inversion H; subst. destruct (cf_user _); cbn; lia.
  - inversion H; subst. cbn. lia.
Qed.
Lemma send_measure m y y' : send_lsp m y = Some y' ->
  (Py y' <= Py y + Pmsg m /\ Qy y' <= Qy y + Qmsg m)%nat.
Proof.
  unfold send_lsp. intros H. destruct (y_task y) eqn:Et;
  try (destruct (Nat.ltb _ _); [|discriminate]); inversion H; subst; unfold Py, Qy; cbn; rewrite Et, ?tot_app; cbn; lia.
Qed.
Lemma act_measure y a y' : internal a -> act url b y a = Some y' ->
  (Py y' < Py y \/ Py y' = Py y /\ Qy y' < Qy y)%nat.
Proof.
  intros Hi H. destruct a; cbn [act] in H; [destruct Hi| | | | | |]; clear Hi.
  - destruct (y_task y) as [s| |] eqn:Et; try discriminate. destruct (y_lspq y) as [|m q] eqn:Eq; [discriminate|].
    destruct (step F url b s m) as [[s' es]|] eqn:Es; inversion H; subst y'; unfold Py, Qy; rewrite Et, Eq; cbn.
    + pose proof (step_measure F s m s' es Es). lia.
    + assert (1 <= Qmsg m)%nat by (destruct m; cbn; lia). lia.
  - destruct (y_task y) as [s|s es|] eqn:Et; try discriminate.
    destruct es as [|e es]; [inversion H; subst; unfold Py, Qy; rewrite Et; cbn; lia|].
    destruct e as [d|m|r a|t|t k c u|g]; cbn [do_effect] in H.
    + destruct (y_diag y) eqn:Ed; try (destruct (Nat.ltb _ _); [|discriminate]); inversion H; subst; unfold Py, Qy; rewrite Et, Ed; cbn;
        rewrite ?tot_app; cbn; lia.
    + destruct (Nat.ltb _ _); [|discriminate]. inversion H; subst; unfold Py, Qy; rewrite Et; cbn; rewrite ?tot_app; cbn; lia.
    + inversion H; subst; unfold Py, Qy; rewrite Et; cbn; lia.
    + inversion H; subst; unfold Py, Qy; rewrite Et; cbn. pose proof (filter_length (fun x => negb (tm_id x =? t)) (y_timers y)). lia.
    + inversion H; subst; unfold Py, Qy; rewrite Et; cbn. rewrite app_length. cbn. lia.
    + inversion H; subst; unfold Py, Qy; rewrite Et; cbn; lia.
  - destruct (y_diag y) eqn:Ed; try discriminate. destruct (y_diagq y) eqn:Eq; inversion H; subst; unfold Py, Qy; rewrite Ed, Eq; cbn; lia.
  - destruct (y_diag y) as [|rest acts|acts|] eqn:Ed; try discriminate.
    destruct rest as [|[u e] rest]; [|destruct (url u)]; inversion H; subst; unfold Py, Qy; rewrite Ed; cbn; lia.
  - destruct (y_diag y) eqn:Ed; try discriminate. destruct (send_lsp (MCodeActions acts) y) as [y1|] eqn:Es; [|discriminate].
    inversion H; subst y'. unfold send_lsp in Es. destruct (y_task y) eqn:Et;
    try (destruct (Nat.ltb _ _); [|discriminate]); inversion Es; subst; unfold Py, Qy; rewrite Et, Ed; cbn; rewrite ?tot_app; cbn; lia.
  - destruct (find _ (y_timers y)) as [x|] eqn:Ef; [|discriminate]. apply filter_shorter in Ef.
    destruct (tm_chan x).
    + unfold send_lsp in H. cbn [y_task y_lspq] in H. destruct (y_task y) eqn:Et;
      try (destruct (Nat.ltb _ _); [|discriminate]); inversion H; subst; unfold Py, Qy; rewrite Et; cbn; rewrite ?tot_app; cbn; lia.
    + inversion H; subst; unfold Py, Qy; cbn. lia.
Qed.
Definition next_step y' y : Prop := exists a, internal a /\ act url b y a = Some y'.
Lemma comes_to_rest y : Acc next_step y.
Proof.
  remember (Py y) as p eqn:Hp. revert y Hp. induction p as [p IHp] using (well_founded_induction lt_wf). intros y Hp.
  remember (Qy y) as q eqn:Hq. revert y Hp Hq. induction q as [q IHq] using (well_founded_induction lt_wf). intros y Hp Hq.
  constructor. intros y' (a & Hi & Ha). destruct (act_measure y a y' Hi Ha) as [H|(H1 & H2)].
  - apply (IHp (Py y')); [lia|reflexivity].
  - apply (IHq (Qy y')); [lia|lia|reflexivity].
Qed.
End Exec2.
