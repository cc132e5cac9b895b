(** * PChannels5: consequences stated over executions (C42, C43, C48, C76, C77). *)
From Coq Require Import Permutation.
From Verif Require Import Base RString Utf8 Rope Types Captures.
From Verif Require Import MDefinition MObjects MTemplates MSearchErrors MLspFiles MLspTask MChannels.
From Verif Require Import SpecChannels PChannels PChannels2 PChannels3.

Section Exec5.
Context {T : ts} (url : url_parser) (b : build).
Implicit Types (y : sys T) (s : task_state T).

(** ** After a panic *)
Lemma dead_act y a y' : y_task y = TDead -> y_lspq y = [] -> act url b y a = Some y' ->
  y_task y' = TDead /\ y_lspq y' = [] /\ y_taken y' = y_taken y /\ y_enq y' = y_enq y /\
  y_replies y' = y_replies y ++ map (fun r => (r, RNull)) (request_ids (client_msgs [a])).
Proof.
  intros Hd Hq H.
  assert (Hnil : forall y1, y_replies y1 = y_replies y -> y_replies y1 = y_replies y ++ map (fun r => (r, RNull)) []) by (intros; cbn; now rewrite app_nil_r).
  destruct a; cbn [act] in H.
  - assert (Hs : send_lsp m y = Some y') by (destruct m; try discriminate; exact H).
    pose proof (send_dead _ _ _ Hd Hs) as ->. cbn [y_task y_lspq y_taken y_enq y_replies client_msgs flat_map app request_ids].
    rewrite app_nil_r. auto.
  - rewrite Hd in H. discriminate.
  - rewrite Hd in H. discriminate.
  - destruct (y_diag y); try discriminate. destruct (y_diagq y); inversion H; subst. cbn. rewrite app_nil_r. auto.
  - destruct (y_diag y) as [|rest acts|acts|]; try discriminate.
    destruct rest as [|[u e] rest]; [|destruct (url u)]; inversion H; subst; cbn; rewrite app_nil_r; auto.
  - destruct (y_diag y); try discriminate. destruct (send_lsp (MCodeActions acts) y) as [y1|] eqn:Es; [|discriminate].
    inversion H; subst y'. pose proof (send_dead _ _ _ Hd Es) as ->. cbn. auto.
  - destruct (find _ (y_timers y)) as [x|]; [|discriminate]. destruct (tm_chan x).
    + match type of H with send_lsp _ ?z = _ => pose proof (send_dead _ z _ Hd H) as -> end. cbn. auto.
    + inversion H; subst. cbn. rewrite app_nil_r. auto.
Qed.
Lemma dead_exec l : forall y y', y_task y = TDead -> y_lspq y = [] -> exec url b y l = Some y' ->
  y_task y' = TDead /\ y_lspq y' = [] /\ y_taken y' = y_taken y /\ y_enq y' = y_enq y /\
  y_replies y' = y_replies y ++ map (fun r => (r, RNull)) (request_ids (client_msgs l)).
Proof.
  induction l as [|a l IH]; intros y y' Hd Hq H; cbn [exec] in H.
  - inversion H; subst. cbn. rewrite app_nil_r. auto.
  - destruct (act url b y a) as [y1|] eqn:E; [|discriminate].
    destruct (dead_act y a y1 Hd Hq E) as (H1 & H2 & H3 & H4 & H5). destruct (IH y1 y' H1 H2 H) as (K1 & K2 & K3 & K4 & K5).
    repeat split; auto; try congruence. rewrite K5, H5. change (a :: l) with ([a] ++ l).
    rewrite client_msgs_app, request_ids_app, map_app. now rewrite app_assoc.
Qed.
Lemma dead_accepts y m : y_task y = TDead -> (forall a, m <> MCodeActions a) -> exists y', act url b y (AClient m) = Some y'.
Proof. intros Hd Hm. unfold act, send_lsp. rewrite Hd. destruct m; eauto. now elim (Hm m). Qed.

(** ** Order of publication *)
Theorem publication_order l y : exec url b (sys0 T) l = Some y -> alive y -> y_diag y <> DDead ->
  exists s tr later, replay url b (task0 T) (y_taken y) = Ok (s, tr) /\
    flat_map (fun x => flat_map (published_of url) (handed (snd x))) tr = y_published y ++ later /\
    (at_rest y -> later = []).
Proof.
  intros H Ha Hd. destruct (inv_reach url b l y H Ha) as (s & tr & perf & pend & I). destruct I.
  destruct (iv_diag Hd) as (dn & d0 & rest & cur & H1 & H2 & H3 & _ & _ & _).
  assert (Hall : flat_map (fun x => flat_map (published_of url) (handed (snd x))) tr =
     flat_map (published_of url) (handed perf ++ handed pend)).
  { rewrite <- handed_app, <- iv_effects, (handed_trace url b _ _ _ _ iv_replay).
    clear. induction tr as [|x tr IH]; [reflexivity|]. cbn. rewrite flat_map_app. now f_equal. }
  assert (Hcur : exists l1, flat_map (published_of url) cur = published_of url d0 ++ l1 /\ (y_diag y = DIdle -> cur = [] /\ l1 = [])).
  { destruct (y_diag y); cbn in H1.
    - destruct H1 as (-> & -> & ->). exists []. auto.
    - destruct H1 as (-> & _ & _). exists (published_of url rest0). split; [|discriminate]. cbn. rewrite app_nil_r. unfold published_of. apply flat_map_app.
    - destruct H1 as (-> & _ & _). exists []. split; [|discriminate]. cbn. reflexivity.
    - destruct H1. }
  destruct Hcur as (l1 & Hc1 & Hc2).
  exists s, tr, (l1 ++ flat_map (published_of url) (y_diagq y ++ handed pend)). split; [exact iv_replay|]. split.
  - rewrite Hall, H2, H3, !flat_map_app, Hc1. rewrite <- !app_assoc. reflexivity.
  - intros ((s0 & Et) & _ & Hq & Hi & _). destruct (Hc2 Hi) as (_ & ->). rewrite Hq. cbn.
    destruct iv_task as [(_ & ->)|E]; [reflexivity|congruence].
Qed.
(** The code actions follow the same order. *)
Theorem code_actions_order l y : exec url b (sys0 T) l = Some y -> alive y -> y_diag y <> DDead ->
  exists s tr later, replay url b (task0 T) (y_taken y) = Ok (s, tr) /\
    map acts_of (flat_map (fun x => handed (snd x)) tr) = code_actions_in (y_enq y) ++ later /\
    (at_rest y -> later = []).
Proof.
  intros H Ha Hd. destruct (inv_reach url b l y H Ha) as (s & tr & perf & pend & I). destruct I.
  destruct (iv_diag Hd) as (dn & d0 & rest & cur & H1 & H2 & H3 & _ & _ & H6).
  exists s, tr, (map acts_of (cur ++ y_diagq y ++ handed pend)). split; [exact iv_replay|]. split.
  - rewrite <- (handed_trace url b _ _ _ _ iv_replay), iv_effects, handed_app, H2, H6, !map_app, <- !app_assoc. reflexivity.
  - intros ((s0 & Et) & _ & Hq & Hi & _). rewrite Hi in H1. cbn in H1. destruct H1 as (-> & _). rewrite Hq.
    destruct iv_task as [(_ & ->)|E]; [reflexivity|congruence].
Qed.

(** ** Coming to rest *)
Lemma no_infinite_run (f : nat -> sys T) : ~ forall n, exists a, internal a /\ act url b (f n) a = Some (f (S n)).
Proof.
  intros H. assert (Hacc : forall y, Acc (next_step url b) y -> forall n, f n <> y).
  { induction 1 as [y _ IH]. intros n E. destruct (H n) as (a & Hi & Ha). subst y.
    apply (IH (f (S n))) with (n := S n); [exists a; auto|reflexivity]. }
  exact (Hacc (f O) (comes_to_rest url b (f O)) O eq_refl).
Qed.
Lemma move_or_stuck (F0 : fs) y : (exists a y', internal a /\ act url b y a = Some y') \/ (forall a, internal a -> act url b y a = None).
Proof.
  assert (Htry : forall a, internal a -> (exists y', act url b y a = Some y') \/ act url b y a = None).
  { intros a _. destruct (act url b y a); eauto. }
  destruct (Htry AEffect I) as [(y' & E)|E1]; [left; exists AEffect, y'; split; [exact I|exact E]|].
  destruct (Htry ADiagTake I) as [(y' & E)|E2]; [left; exists ADiagTake, y'; split; [exact I|exact E]|].
  destruct (Htry ADiagPublish I) as [(y' & E)|E3]; [left; exists ADiagPublish, y'; split; [exact I|exact E]|].
  destruct (Htry ADiagSend I) as [(y' & E)|E4]; [left; exists ADiagSend, y'; split; [exact I|exact E]|].
  destruct (Htry (ATake F0) I) as [(y' & E)|E5]; [left; exists (ATake F0), y'; split; [exact I|exact E]|].
  destruct (existsb (fun x => match act url b y (ATimer (tm_id x)) with Some _ => true | None => false end) (y_timers y)) eqn:Et.
  - left. apply existsb_exists in Et. destruct Et as (x & _ & Hx).
    destruct (act url b y (ATimer (tm_id x))) as [y'|] eqn:E; [|discriminate]. exists (ATimer (tm_id x)), y'. split; [exact I|exact E].
  - right. intros a Hi. destruct a; cbn in Hi; auto; [destruct Hi| |].
    + cbn [act] in *. destruct (y_task y); auto. destruct (y_lspq y); auto. destruct (step F0 url b s m) as [[? ?]|]; discriminate.
    + destruct (act url b y (ATimer tid)) as [y'|] eqn:E; [|reflexivity]. exfalso.
      assert (Hx : exists x, In x (y_timers y) /\ tm_id x = tid).
      { cbn [act] in E. destruct (find (fun x => tm_id x =? tid) (y_timers y)) as [x|] eqn:Ef; [|discriminate].
        apply find_some in Ef. destruct Ef as (Ef & Ei). apply N.eqb_eq in Ei. eauto. }
      destruct Hx as (x & Hx & <-).
      assert (existsb (fun x => match act url b y (ATimer (tm_id x)) with Some _ => true | None => false end) (y_timers y) = true); [|congruence].
      apply existsb_exists. exists x. split; [exact Hx|]. now rewrite E.
Qed.
Lemma reaches_stuck (F0 : fs) y : exists l y', Forall internal l /\ exec url b y l = Some y' /\ (forall a, internal a -> act url b y' a = None).
Proof.
  induction (comes_to_rest url b y) as [y _ IH].
  destruct (move_or_stuck F0 y) as [(a & y1 & Hi & Ha)|Hs].
  - destruct (IH y1) as (l & y' & H1 & H2 & H3); [exists a; auto|]. exists (a :: l), y'. split; [now constructor|]. split; [|exact H3].
    cbn [exec]. now rewrite Ha.
  - exists [], y. auto.
Qed.
End Exec5.
