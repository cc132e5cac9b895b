(** * PropChannels: the running server (C42-C48, C76, C77). *)
From Coq Require Import Permutation.
From Verif Require Import Base RString Utf8 Rope Types Captures.
From Verif Require Import MDefinition MObjects MTemplates MSearchErrors MLspFiles MLspTask MChannels.
From Verif Require Import SpecText SpecFiles SpecScope SpecObjects SpecLint SpecChannels.
From Verif Require Import PChannels PChannels2 PChannels3 PChannels4 PChannels5.
From Verif Require Import PropFiles PropObjects PropLint.

(** ** Concrete executions: after each client message the server runs on until
    nothing but timers is left; [fire] lets the timers expire as well. *)
Section Scripts.
Context {T : ts} (url : url_parser) (b : build) (F : fs) (fire : bool).
Definition first_move (y : sys T) : option (action * sys T) :=
  fold_left (fun r a => match r with
                        | Some _ => r
                        | None => match act url b y a with Some y' => Some (a, y') | None => None end
                        end)
    ([AEffect; ATake F; ADiagTake; ADiagPublish; ADiagSend] ++
     (if fire then map (fun x => ATimer (tm_id x)) (y_timers y) else [])) None.
Fixpoint settle (n : nat) (y : sys T) : list action * sys T :=
  match n with
  | O => ([], y)
  | S n => match first_move y with
           | None => ([], y)
           | Some (a, y') => let '(l, y2) := settle n y' in (a :: l, y2)
           end
  end.
Fixpoint script (y : sys T) (ms : list msg) : list action * sys T :=
  match ms with
  | [] => ([], y)
  | m :: ms =>
      match act url b y (AClient m) with
      | None => ([], y)
      | Some y1 =>
          let '(l1, y2) := settle 60 y1 in
          let '(l2, y3) := script y2 ms in (AClient m :: l1 ++ l2, y3)
      end
  end.
End Scripts.
(* [split] on an equation would evaluate it lazily. *)
Ltac conj := unfold at_rest; lazymatch goal with |- _ /\ _ => split; conj | _ => idtac end.
Ltac exam := conj; try (vm_compute; reflexivity).
(** Scripts are executions, whatever their messages. *)
Section Runs.
Context {T : ts} (url : url_parser) (b : build) (F : fs) (fire : bool).
Implicit Types (y : sys T).
Lemma first_moves y a y' : first_move url b F fire y = Some (a, y') -> act url b y a = Some y'.
Proof.
  unfold first_move. set (l := _ ++ _). clearbody l.
  assert (G : forall l r, (forall a y', r = Some (a, y') -> act url b y a = Some y') ->
    forall a y', fold_left (fun r a => match r with Some _ => r | None => match act url b y a with Some y' => Some (a, y') | None => None end end) l r = Some (a, y') ->
      act url b y a = Some y').
  { clear. intros l. induction l as [|x l IH]; intros r Hr a y' H; [exact (Hr a y' H)|]. cbn [fold_left] in H. refine (IH _ _ a y' H). intros a0 y0 E.
    destruct r as [r|]; [apply Hr; exact E|]. destruct (act url b y x) eqn:Ex; [|discriminate]. injection E as <- <-. exact Ex. }
  apply G. discriminate.
Qed.
Lemma settle_runs n : forall y, exec url b y (fst (settle url b F fire n y)) = Some (snd (settle url b F fire n y)).
Proof.
  induction n as [|n IH]; intros y; [reflexivity|]. cbn [settle]. destruct (first_move url b F fire y) as [[a y']|] eqn:E; [|reflexivity].
  specialize (IH y'). destruct (settle url b F fire n y') as [l y2]. cbn [fst snd exec] in *. now rewrite (first_moves y a y' E).
Qed.
Lemma script_runs ms : forall y, exec url b y (fst (script url b F fire y ms)) = Some (snd (script url b F fire y ms)).
Proof.
  induction ms as [|m ms IH]; intros y; [reflexivity|]. cbn [script]. destruct (act url b y (AClient m)) as [y1|] eqn:E; [|reflexivity].
  pose proof (settle_runs 60 y1) as H1. destruct (settle url b F fire 60 y1) as [l1 y2]. specialize (IH y2).
  destruct (script url b F fire y2 ms) as [l2 y3]. cbn [fst snd] in *. cbn [exec]. rewrite E, exec_app, H1. exact IH.
Qed.
Lemma then_script y l y1 ms : exec url b y l = Some y1 ->
  exec url b y (l ++ fst (script url b F fire y1 ms)) = Some (snd (script url b F fire y1 ms)).
Proof. intros H. rewrite exec_app, H. apply script_runs. Qed.
Lemma then_settle y l y1 n : exec url b y l = Some y1 ->
  exec url b y (l ++ fst (settle url b F fire n y1)) = Some (snd (settle url b F fire n y1)).
Proof. intros H. rewrite exec_app, H. apply settle_runs. Qed.
End Runs.
(** The state of a server that waits. *)
Definition idleb {T} (y : sys T) : bool := match y_task y with TIdle _ => true | _ => false end.
Definition idle_state {T} (y : sys T) : task_state T := match y_task y with TIdle s => s | _ => task0 T end.
Lemma idle_is {T} (y : sys T) : idleb y = true -> y_task y = TIdle (idle_state y).
Proof. unfold idleb, idle_state. destruct (y_task y); [reflexivity|discriminate|discriminate]. Qed.
Ltac head_of t := lazymatch t with ?f _ => head_of f | _ => t end.
Ltac runs :=
  lazymatch goal with
  | |- exec ?u ?b ?y (?l ++ fst ?p) = Some _ =>
      let h := head_of p in let q := eval unfold h in p in
      lazymatch q with
      | script _ _ ?F ?fire ?y1 ?ms => refine (then_script u b F fire y l y1 ms _)
      | settle _ _ ?F ?fire ?n ?y1 => refine (then_settle u b F fire y l y1 n _)
      end; runs
  | |- exec ?u ?b ?y (fst ?p) = Some _ =>
      let h := head_of p in let q := eval unfold h in p in
      lazymatch q with
      | script _ _ ?F ?fire _ ?ms => exact (script_runs u b F fire ms y)
      | settle _ _ ?F ?fire ?n _ => exact (settle_runs u b F fire n y)
      end
  | |- exec _ _ _ ?l = Some _ => unfold l; runs
  end.
Ltac idles :=
  lazymatch goal with
  | |- y_task ?y = TIdle (idle_state ?y) => refine (idle_is y _); vm_compute; reflexivity
  | |- y_task _ = TIdle ?s => let h := head_of s in unfold h; idles
  end.
(** Compares states without computing them, if the one is where the script of the
    other ends. *)
Ltac ran :=
  lazymatch goal with
  | |- exec _ _ _ _ = Some _ => runs
  | |- y_task _ = TIdle _ => idles
  | |- _ = _ => vm_compute; reflexivity
  end.
Definition any_url : url_parser := fun u => Some u.
Definition cfg_rust : config := cfg_dir "templates".
Definition type_x (line_ ch : N) : list change := [mkchange (Some (mkrange (mkpos line_ ch) (mkpos line_ ch))) [120]].

(** ** C42: every request is answered exactly once. *)
Theorem C42_answered_once :
  forall T url b l (y : sys T),
    exec url b (sys0 T) l = Some y ->
    Permutation (request_ids (client_msgs l))
      (map fst (y_replies y) ++ request_ids (y_lspq y) ++
       match y_task y with TBusy _ es => map fst (explicit es) | _ => [] end).
Proof. intros T url b l y H. exact (answered_once url b l y H). Qed.
Print Assumptions C42_answered_once.
Theorem C42_answers_at_rest :
  forall T url b l (y : sys T),
    exec url b (sys0 T) l = Some y -> y_lspq y = [] -> (forall s es, y_task y <> TBusy s es) ->
    Permutation (request_ids (client_msgs l)) (map fst (y_replies y)) /\
    (NoDup (request_ids (client_msgs l)) -> NoDup (map fst (y_replies y))).
Proof.
  intros T url b l y H Hq Hb. pose proof (answered_once url b l y H) as P. unfold in_progress in P. rewrite Hq in P.
  assert (P' : Permutation (request_ids (client_msgs l)) (map fst (y_replies y))).
  { destruct (y_task y) as [s|s es|]; [|now elim (Hb s es)|]; cbn in P; now rewrite app_nil_r in P. }
  split; [exact P'|]. intros N. now apply (Permutation_NoDup P').
Qed.
Print Assumptions C42_answers_at_rest.
(** Answers come from the handlers, in the order in which the requests were
    taken: nothing is answered before it is processed. *)
Theorem C42_answers_in_order :
  forall T url b l (y : sys T),
    exec url b (sys0 T) l = Some y -> alive y ->
    exists s tr later,
      replay url b (task0 T) (y_taken y) = Ok (s, tr) /\
      flat_map (fun x => answers (fst x) (snd x)) tr = y_replies y ++ later /\
      map fst later = match y_task y with TBusy _ es => map fst (explicit es) | _ => [] end.
Proof. intros T url b l y H Ha. exact (answers_are_handlers url b l y H Ha). Qed.
Print Assumptions C42_answers_in_order.
Definition c42_msgs : list msg :=
  [MInitialize 1 None None; MDidOpen a_html [120; 121]; MHover 2 a_html (mkpos 0 0); MDocumentSymbol 3 b_html;
   MCodeAction 4 a_html (mkpos 0 0)]%string.
Definition c42_run := script (T := ts_echo) any_url Debug fs_empty false (sys0 ts_echo) c42_msgs.
Example C42_example :
  exec any_url Debug (sys0 ts_echo) (fst c42_run) = Some (snd c42_run) /\
  client_msgs (fst c42_run) = c42_msgs /\ request_ids c42_msgs = [1; 2; 3; 4] /\
  y_replies (snd c42_run) = [(1, RInit); (2, RNull); (3, RNull); (4, RNull)] /\
  alive (snd c42_run) /\ y_lspq (snd c42_run) = [].
Proof. exam. intros H. vm_compute in H. discriminate. Qed.

(** ** C43: the server state is the fold of the handler over the messages in
    queue order; the messages of the client keep their order. *)
Theorem C43_sequential :
  forall T url b l (y : sys T),
    exec url b (sys0 T) l = Some y -> alive y ->
    y_enq y = map fst (y_taken y) ++ y_lspq y /\ subseq (client_msgs l) (y_enq y) /\
    exists s tr, replay url b (task0 T) (y_taken y) = Ok (s, tr) /\
      (y_task y = TIdle s \/ exists es, y_task y = TBusy s es).
Proof.
  intros T url b l y H Ha. destruct (inv_reach url b l y H Ha) as (s & tr & perf & pend & I).
  split; [exact (iv_enq _ _ _ _ _ _ _ I)|]. split; [exact (client_subseq url b l y H Ha)|].
  exists s, tr. split; [exact (iv_replay _ _ _ _ _ _ _ I)|]. destruct (iv_task _ _ _ _ _ _ _ I) as [(E & _)|E]; eauto.
Qed.
Print Assumptions C43_sequential.
Example C43_example :
  map fst (y_taken (snd c42_run)) =
    [MInitialize 1 None None; MDidOpen a_html [120; 121]; MCodeActions [(a_html, [])]; MHover 2 a_html (mkpos 0 0);
     MDocumentSymbol 3 b_html; MCodeAction 4 a_html (mkpos 0 0)].
Proof. vm_compute. reflexivity. Qed.

(** ** C44: false: the server can block for ever, on its own queue or on the
    diagnostics queue. *)
Definition c44_self : list action :=
  [AClient (MExecuteCommand "reset_variables"); ATake fs_empty] ++ repeat (AClient (MDidSave a_html)) 50.
Definition c44_mutual : list action :=
  flat_map (fun _ => [AClient (MDidOpen a_html [120]); ATake fs_empty; AEffect; AEffect]) (repeat tt 1) ++
  [ADiagTake; ADiagPublish; ADiagPublish] ++
  flat_map (fun _ => [AClient (MDidOpen a_html [120]); ATake fs_empty; AEffect; AEffect]) (repeat tt 20) ++
  [AClient (MDidOpen a_html [120]); ATake fs_empty] ++ repeat (AClient (MDidSave a_html)) 50.
Definition reached (l : list action) : sys ts_echo :=
  match exec any_url Debug (sys0 ts_echo) l with Some y => y | None => sys0 ts_echo end.
Theorem C44_deadlock_refuted :
  exists (y1 y2 : sys ts_echo),
    exec any_url Debug (sys0 ts_echo) c44_self = Some y1 /\ deadlocked any_url Debug y1 /\
    exec any_url Debug (sys0 ts_echo) c44_mutual = Some y2 /\ deadlocked any_url Debug y2.
Proof.
  exists (reached c44_self), (reached c44_mutual).
  split; [vm_compute; reflexivity|]. split.
  { split; [vm_compute; discriminate|]. intros a. destruct a as [m| | | | | |t]; [destruct m|..]; vm_compute; reflexivity. }
  split; [vm_compute; reflexivity|].
  split; [vm_compute; discriminate|]. intros a. destruct a as [m| | | | | |t]; [destruct m|..]; vm_compute; reflexivity.
Qed.
Print Assumptions C44_deadlock_refuted.
(** Those are the only two ways to stop with work left (full statement: some
    task can always move while messages are pending). *)
Theorem C44_stuck_partial :
  forall T url b l (y : sys T) (F0 : fs),
    exec url b (sys0 T) l = Some y -> (forall a, internal a -> act url b y a = None) ->
    ((exists s, y_task y = TIdle s) \/ y_task y = TDead) /\ y_lspq y = [] /\ y_timers y = [] /\
      (y_diag y = DIdle /\ y_diagq y = [] \/ y_diag y = DDead)
    \/ length (y_lspq y) = 50%nat /\
       ((exists s m es, y_task y = TBusy s (ESelf m :: es)) \/
        (exists s d es acts, y_task y = TBusy s (EDiag d :: es) /\ length (y_diagq y) = 20%nat /\ y_diag y = DSend acts)).
Proof. intros T url b l y F0 H Hs. exact (stuck_cases url b l y F0 H Hs). Qed.
Print Assumptions C44_stuck_partial.
Example C44_example :
  (exists s, y_task (snd c42_run) = TIdle s) /\
  (forall a, internal a -> act any_url Debug (snd c42_run) a = None) /\
  length (y_lspq (reached c44_self)) = 50%nat /\
  (forall a, internal a -> act any_url Debug (reached c44_self) a = None) /\
  length (y_diagq (reached c44_mutual)) = 20%nat.
Proof.
  split; [vm_compute; eauto|]. split; [intros a Ha; destruct a; try (now destruct Ha); vm_compute; reflexivity|].
  split; [vm_compute; reflexivity|]. split; [|vm_compute; reflexivity].
  intros a Ha; destruct a; try (now destruct Ha); vm_compute; reflexivity.
Qed.

(** ** C76: without input from the client the server comes to rest, from every
    state whatsoever. *)
Theorem C76_no_infinite_run :
  forall T url b (f : nat -> sys T),
    ~ (forall n, exists a, internal a /\ act url b (f n) a = Some (f (S n))).
Proof. intros T url b f. exact (no_infinite_run url b f). Qed.
Print Assumptions C76_no_infinite_run.
Theorem C76_comes_to_rest :
  forall T url b (F0 : fs) (y : sys T),
    exists l y', Forall internal l /\ exec url b y l = Some y' /\ (forall a, internal a -> act url b y' a = None).
Proof. intros T url b F0 y. exact (reaches_stuck url b F0 y). Qed.
Print Assumptions C76_comes_to_rest.
Example C76_example :
  let y := reached [AClient (MDidOpen a_html [120]); AClient (MDidChange a_html (type_x 0 0)); AClient (MHover 1 a_html (mkpos 0 0))] in
  length (fst (settle any_url Debug fs_empty true 60 y)) = 16%nat /\
  at_rest (snd (settle any_url Debug fs_empty true 60 y)).
Proof. split; [vm_compute; reflexivity|]. exam. vm_compute. eauto. Qed.

(** ** C45: with a re-indexing in between, two refresh timers can be live. *)
Definition c45_msgs : list msg :=
  [MDidOpen a_html [120]; MDidChange a_html (type_x 0 0); MDidChangeConfiguration (Some cfg_rust);
   MDidOpen a_html [120]; MDidChange a_html (type_x 0 0)].
Definition c45_run := script (T := ts_echo) any_url Debug fs_empty false (sys0 ts_echo) c45_msgs.
Theorem C45_two_timers_refuted :
  exists l (y : sys ts_echo), exec any_url Debug (sys0 ts_echo) l = Some y /\ alive y /\
    length (filter is_edit (y_timers y)) = 2%nat.
Proof.
  exists (fst c45_run), (snd c45_run). split; [vm_compute; reflexivity|]. split; [|vm_compute; reflexivity].
  intros H. vm_compute in H. discriminate.
Qed.
Print Assumptions C45_two_timers_refuted.
(** One timer, plus at most one for every re-indexing after an edit. *)
Theorem C45_timers_partial :
  forall T url b l (y : sys T),
    exec url b (sys0 T) l = Some y -> alive y ->
    (length (filter is_edit (y_timers y)) <= 1 + late_reloads false (map fst (y_taken y)))%nat.
Proof. intros T url b l y H Ha. exact (live_timers url b l y H Ha). Qed.
Print Assumptions C45_timers_partial.
(** Without such a re-indexing the live timer is the one of the last edit. *)
Theorem C45_last_edit_partial :
  forall T url b l (y : sys T) s tr,
    exec url b (sys0 T) l = Some y -> y_task y = TIdle s ->
    replay url b (task0 T) (y_taken y) = Ok (s, tr) ->
    late_reloads false (map fst (y_taken y)) = 0%nat ->
    forall x, In x (y_timers y) -> is_edit x = true ->
      exists earlier, flat_map (fun e => edit_timers (snd e)) tr = earlier ++ [x].
Proof. intros T url b l y s tr H Et Hr Hl x Hx He. exact (timer_of_last_edit url b l y s tr H Et Hr Hl x Hx He). Qed.
Print Assumptions C45_last_edit_partial.
(** The timers of a handler come from the document it edited, and a timer that
    fires asks for a refresh of that document. *)
Theorem C45_timer_origin :
  forall T F url b (s s' : task_state T) m es t c u,
    step F url b s m = Ok (s', es) -> In (ETimer t TimerEdit c u) es ->
    (exists cs, m = MDidChange u cs) /\ c = ls_chan (tk_data s) /\ edit_timers es = [mktm t TimerEdit c u].
Proof.
  intros T F url b s s' m es t c u H Hin.
  destruct (step_timers url b F s m s' es H) as [(u' & cs & c' & -> & -> & _)|(_ & He & _)].
  - assert (ETimer t TimerEdit c u = ETimer (tk_next s) TimerEdit c' u').
    { apply in_app_or in Hin. destruct Hin as [Hin|[Hin|[]]]; [|now symmetry]. destruct (ls_task (tk_data s)); [|destruct Hin].
      destruct Hin as [Hin|[]]. discriminate. }
    inversion H0; subst. split; [eauto|]. split.
    + cbn [step] in H. destruct (did_change (tk_next s) u' cs (tk_data s)) as [[d r]|]; cbn [bind fst snd] in H; [|discriminate].
      destruct r as [te|]; inversion H as [[Hs Hes]].
      * apply app_inj_tail in Hes. destruct Hes as (_ & Hes). now inversion Hes.
      * exfalso. destruct (match ls_task (tk_data s) with Some a => [EAbort a] | None => [] end); discriminate.
    + now destruct (ls_task (tk_data s)).
  - exfalso. pose proof (edit_in es t c u Hin) as Hx. rewrite He in Hx. destruct Hx.
Qed.
Print Assumptions C45_timer_origin.
Theorem C45_timer_fires :
  forall T url b (y y' : sys T) x,
    alive y -> NoDup (map tm_id (y_timers y)) -> In x (y_timers y) -> act url b y (ATimer (tm_id x)) = Some y' ->
    ~ In x (y_timers y') /\
    y_lspq y' = y_lspq y ++ (if tm_chan x then [MDidSave (tm_uri x)] else []).
Proof.
  intros T url b y y' x Ha Hn Hx H. cbn [act] in H.
  destruct (find (fun z => tm_id z =? tm_id x) (y_timers y)) as [z|] eqn:Ef; [|discriminate].
  apply find_some in Ef. destruct Ef as (Hz & Ez). apply N.eqb_eq in Ez.
  assert (z = x) by (apply (nodup_same tm_id (y_timers y)); auto). subst z.
  assert (Hno : ~ In x (filter (fun z => negb (tm_id z =? tm_id x)) (y_timers y))).
  { intros Hi. apply filter_In in Hi. destruct Hi as (_ & Hi). rewrite N.eqb_refl in Hi. discriminate. }
  destruct (tm_chan x).
  - match type of H with send_lsp _ ?w = _ => destruct (send_alive _ w _ Ha H) as (_ & ->) end. split; [exact Hno|reflexivity].
  - inversion H; subst. split; [exact Hno|]. cbn. now rewrite app_nil_r.
Qed.
Print Assumptions C45_timer_fires.
(** Three edits of two documents: one timer, of the last edit. *)
Definition c45_edits : list msg :=
  [MDidChangeConfiguration (Some cfg_rust); MDidOpen a_html [120]; MDidOpen b_html [121]; MDidChange a_html (type_x 0 0);
   MDidChange a_html (type_x 0 0); MDidChange b_html (type_x 0 1)].
Definition c45_run2 := script (T := ts_echo) any_url Debug fs_empty false (sys0 ts_echo) c45_edits.
Example C45_example :
  exec any_url Debug (sys0 ts_echo) (fst c45_run2) = Some (snd c45_run2) /\ alive (snd c45_run2) /\
  late_reloads false (map fst (y_taken (snd c45_run2))) = 0%nat /\
  late_reloads false (map fst (y_taken (snd c45_run))) = 1%nat /\
  y_timers (snd c45_run2) = [mktm 2 TimerEdit true b_html] /\ (exists s, y_task (snd c45_run2) = TIdle s).
Proof. exam. { intros H. vm_compute in H. discriminate. } vm_compute. eauto. Qed.

(** ** C46: an edit of another document within the delay loses the refresh. *)
Definition c46_run := script (T := ts_echo) any_url Debug fs_empty true (sys0 ts_echo) (firstn 3 c45_edits).
Definition c46_run2 := script (T := ts_echo) any_url Debug fs_empty false (snd c46_run)
  [MDidChange a_html (type_x 0 0); MDidChange b_html (type_x 0 1)].
Definition c46_run3 := settle (T := ts_echo) any_url Debug fs_empty true 60 (snd c46_run2).
Definition c46_actions := fst c46_run ++ fst c46_run2 ++ fst c46_run3.
Theorem C46_lost_refresh_refuted :
  exists l (y : sys ts_echo) s tr p m es q t,
    exec any_url Debug (sys0 ts_echo) l = Some y /\ at_rest y /\
    replay any_url Debug (task0 ts_echo) (y_taken y) = Ok (s, tr) /\
    tr = p ++ (m, es) :: q /\ In (ETimer t TimerEdit true a_html) es /\ ~ In (MDidSave a_html) (map fst q).
Proof.
  pose (y := snd c46_run3).
  pose (r := match replay any_url Debug (task0 ts_echo) (y_taken y) with Ok r => r | Panic => (task0 ts_echo, []) end).
  pose (tr := snd r). pose (p := firstn 7 tr). pose (x := nth 7 tr (MInitialized, [])). pose (q := skipn 8 tr).
  exists c46_actions, y, (fst r), tr, p, (fst x), (snd x), q, 0.
  split; [vm_compute; reflexivity|].
  split; [exam; vm_compute; eauto|].
  split; [vm_compute; reflexivity|]. split; [vm_compute; reflexivity|]. split; [vm_compute; tauto|].
  vm_compute. intuition discriminate.
Qed.
Print Assumptions C46_lost_refresh_refuted.
(** The last edit is always refreshed (full statement: every edit). *)
Theorem C46_last_edit_partial :
  forall T url b l (y : sys T) s tr,
    exec url b (sys0 T) l = Some y -> at_rest y ->
    replay url b (task0 T) (y_taken y) = Ok (s, tr) ->
    forall p m es q t u, tr = p ++ (m, es) :: q -> In (ETimer t TimerEdit true u) es ->
      flat_map (fun e => edit_timers (snd e)) q = [] -> In (MDidSave u) (map fst q).
Proof. intros T url b l y s tr H Hr Hrep. exact (last_edit_refreshed url b l y s tr H Hr Hrep). Qed.
Print Assumptions C46_last_edit_partial.
(** Hence every edit is, as long as only one document is edited. *)
Theorem C46_one_document_partial :
  forall T url b l (y : sys T) s tr u,
    exec url b (sys0 T) l = Some y -> at_rest y ->
    replay url b (task0 T) (y_taken y) = Ok (s, tr) ->
    forall p m es q t, tr = p ++ (m, es) :: q -> In (ETimer t TimerEdit true u) es ->
      (forall x, In x (flat_map (fun e => edit_timers (snd e)) q) -> tm_chan x = true /\ tm_uri x = u) ->
      In (MDidSave u) (map fst q).
Proof. intros T url b l y s tr u H Hr Hrep. exact (one_document_refreshed url b l y s tr u H Hr Hrep). Qed.
Print Assumptions C46_one_document_partial.
Example C46_example :
  exec any_url Debug (sys0 ts_echo) c46_actions = Some (snd c46_run3) /\ at_rest (snd c46_run3) /\
  map fst (skipn 7 (y_taken (snd c46_run3))) =
    [MDidChange a_html (type_x 0 0); MDidChange b_html (type_x 0 1); MDidSave b_html; MCodeActions [(b_html, [])]] /\
  match replay any_url Debug (task0 ts_echo) (y_taken (snd c46_run3)) with
  | Ok (_, tr) => map snd (firstn 2 (skipn 7 tr)) =
      [[ETimer 0 TimerEdit true a_html]; [EAbort 0; ETimer 1 TimerEdit true b_html]]
  | Panic => False
  end.
Proof. exam. vm_compute. eauto. Qed.

(** ** C47: after a re-indexing, code actions of a document that is not on disk
    are gone although its diagnostics are still shown. *)
Definition c47_msgs : list msg :=
  [MDidChangeConfiguration (Some cfg_rust); MDidOpen a_html c64_text].
Definition c47_run := script (T := c64_ts) any_url Debug (fs_with []) true (sys0 c64_ts) c47_msgs.
Definition c47_run2 := script (T := c64_ts) any_url Debug (fs_with []) true (sys0 c64_ts)
  (c47_msgs ++ [MExecuteCommand "reset_variables"]).
Definition actions_after {T} (y : sys T) (u : string) : option (list identifier) :=
  match y_task y with TIdle s => sget u (ls_actions (tk_data s)) | _ => None end.
Theorem C47_reload_refuted :
  exists l (y : sys c64_ts) ds, exec any_url Debug (sys0 c64_ts) l = Some y /\ at_rest y /\
    last_published a_html (y_published y) = Some ds /\ missing_places ds <> [] /\ actions_after y a_html = None.
Proof.
  pose (y := snd c47_run2).
  exists (fst c47_run2), y, (match last_published a_html (y_published y) with Some ds => ds | None => [] end).
  split; [vm_compute; reflexivity|]. split; [exam; vm_compute; eauto|].
  split; [vm_compute; reflexivity|]. split; [vm_compute; discriminate|vm_compute; reflexivity].
Qed.
Print Assumptions C47_reload_refuted.
(** When the workspace is indexed once, before anything is linted, the stored
    missing templates are those last published (full statement: also after
    re-indexing). *)
Theorem C47_agree_partial :
  forall T url b, (forall u v, url u = Some v -> v = u) ->
  forall l (y : sys T) s,
    exec url b (sys0 T) l = Some y -> at_rest y -> y_task y = TIdle s -> indexed_first (map fst (y_taken y)) ->
    forall u, match last_published u (y_published y) with
              | None => sget u (ls_actions (tk_data s)) = None \/ sget u (ls_actions (tk_data s)) = Some []
              | Some ds => exists ids, sget u (ls_actions (tk_data s)) = Some ids /\
                  map (fun i => to_range (id_start i, id_end i)) ids = missing_places ds
              end.
Proof. intros T url b Hu l y s H Hr Et Hi. exact (actions_agree url b Hu l y s H Hr Et Hi). Qed.
Print Assumptions C47_agree_partial.
Example C47_example :
  exec any_url Debug (sys0 c64_ts) (fst c47_run) = Some (snd c47_run) /\ at_rest (snd c47_run) /\
  map fst (y_taken (snd c47_run)) =
    [MDidChangeConfiguration (Some cfg_rust); MInitialized; MCodeActions []; MDidOpen a_html c64_text;
     MCodeActions [(a_html, [ref_id (nd 11 19, "b.html"%string)])]] /\
  match last_published a_html (y_published (snd c47_run)) with
  | Some ds => missing_places ds = [mkrange (mkpos 0 11) (mkpos 0 19)]
  | None => False
  end.
Proof. exam. vm_compute. eauto. Qed.
Example C47_indexed_first : indexed_first (map fst (y_taken (snd c47_run))).
Proof.
  intros p q H m Hm. assert (E : map fst (y_taken (snd c47_run)) =
    [MDidChangeConfiguration (Some cfg_rust); MInitialized; MCodeActions []; MDidOpen a_html c64_text;
     MCodeActions [(a_html, [ref_id (nd 11 19, "b.html"%string)])]]) by (vm_compute; reflexivity).
  rewrite E in H. clear E.
  destruct p as [|m1 p]; [destruct Hm|]. cbn in H. inversion H as [[H1 H2]]. subst m1.
  destruct p as [|m2 p]; [destruct Hm as [<-|[]]; intros []|].
  inversion H2 as [[H3 H4]]. exfalso.
  destruct p as [|m3 p]; [discriminate|]. inversion H4 as [[H5 H6]].
  destruct p as [|m4 p]; [discriminate|]. inversion H6 as [[H7 H8]].
  destruct p as [|m5 p]; [discriminate|]. inversion H8 as [[H9 H10]]. destruct p; discriminate.
Qed.

(** ** C48: after a panic nothing is processed any more and every request is
    answered with null. *)
Theorem C48_crash_permanent :
  forall T url b l (y : sys T),
    exec url b (sys0 T) l = Some y -> y_task y = TDead ->
    (exists past m F s tr unanswered,
       y_taken y = past ++ [(m, F)] /\ replay url b (task0 T) past = Ok (s, tr) /\ step F url b s m = Panic /\
       y_replies y = flat_map (fun x => answers (fst x) (snd x)) tr ++ map (fun r => (r, RNull)) unanswered) /\
    forall l' y', exec url b y l' = Some y' ->
      y_task y' = TDead /\ y_lspq y' = [] /\ y_taken y' = y_taken y /\
      y_replies y' = y_replies y ++ map (fun r => (r, RNull)) (request_ids (client_msgs l')) /\
      forall m, (forall a, m <> MCodeActions a) -> exists y2, act url b y' (AClient m) = Some y2.
Proof.
  intros T url b l y H Hd. destruct (dead_reach url b l y H Hd) as (Hq & Hx). split; [exact Hx|].
  intros l' y' H'. destruct (dead_exec url b l' y y' Hd Hq H') as (K1 & K2 & K3 & _ & K5).
  repeat split; auto. intros m Hm. now apply dead_accepts.
Qed.
Print Assumptions C48_crash_permanent.
Definition c48_msgs : list msg :=
  [MDidOpen a_html [120]; MHover 1 a_html (mkpos 0 0); MDidChange a_html (type_x 7 7); MHover 2 a_html (mkpos 0 0);
   MDidOpen a_html [121]; MDocumentSymbol 3 a_html].
Definition c48_run := script (T := ts_echo) any_url Debug fs_empty true (sys0 ts_echo) c48_msgs.
Example C48_example :
  exec any_url Debug (sys0 ts_echo) (fst c48_run) = Some (snd c48_run) /\ y_task (snd c48_run) = TDead /\
  client_msgs (fst c48_run) = c48_msgs /\
  y_replies (snd c48_run) = [(1, RNull); (2, RNull); (3, RNull)] /\
  map fst (y_taken (snd c48_run)) = [MDidOpen a_html [120]; MCodeActions [(a_html, [])]; MHover 1 a_html (mkpos 0 0); MDidChange a_html (type_x 7 7)].
Proof. exam. Qed.

(** ** C77: diagnostics are published in the order in which they were
    computed, none is lost, duplicated or invented. *)
Theorem C77_publication_order :
  forall T url b l (y : sys T),
    exec url b (sys0 T) l = Some y -> alive y -> y_diag y <> DDead ->
    exists s tr later, replay url b (task0 T) (y_taken y) = Ok (s, tr) /\
      flat_map (fun x => flat_map (published_of url) (handed (snd x))) tr = y_published y ++ later /\
      (at_rest y -> later = []).
Proof. intros T url b l y H Ha Hd. exact (publication_order url b l y H Ha Hd). Qed.
Print Assumptions C77_publication_order.
Example C77_example :
  at_rest (snd c46_run3) /\
  y_published (snd c46_run3) = [(a_html, []); (b_html, []); (b_html, [])].
Proof. exam. vm_compute. eauto. Qed.
