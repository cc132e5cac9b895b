(** * PropAsking: asking leaves no trace (C129). *)
From Verif Require Import Base RString Utf8 Rope Types Captures MTemplates MDefinition MObjects MLspFiles MSearchErrors MLspTask MChannels MQueries.
From Verif Require Import SpecText SpecFiles SpecLint SpecQueries SpecChannels SpecServer SpecAsking.
From Verif Require Import PChannels PChannels3 PAsking PropObjects PropLint PropFiles PropChannels PropQueries PropQueries3 PropQueries4 PropScreen.

(** ** C129: asking leaves no trace *)
(** Take any session and any of its questions (completion, hover, go to
    definition, quick fixes, outline) that were not quick fixes on a missing
    template.  The same session without them can happen: the client sends the same
    messages otherwise, the server processes them in the same order and ends in the
    same state, with the same timers, everything published alike, and every other
    request - the other questions included - has the same answer. *)
Theorem C129_questions_partial :
  forall T url b (Q : N -> bool) l (y : sys T) s,
    exec url b (sys0 T) l = Some y -> y_task y = TIdle s ->
    only_questions Q (client_msgs l) ->
    (forall r a, In (r, a) (y_replies y) -> Q r = true -> not_on_missing a) ->
    exists l' y', exec url b (sys0 T) l' = Some y' /\ client_msgs l' = unchosen Q (client_msgs l) /\ differ_in Q y y'.
Proof. intros T url b Q l y s. exact (questions_unnoticed url b Q l y s). Qed.
Print Assumptions C129_questions_partial.
(** Asked for quick fixes, wherever the cursor is, the server keeps what it knows
    and publishes nothing; it starts at most one timer, which has the document read
    again. *)
Theorem C129_quick_fix :
  forall T url b F (s : task_state T) rid uri pos s' es, MLspTask.step F url b s (MCodeAction rid uri pos) = Ok (s', es) ->
    tk_data s' = tk_data s /\ tk_config s' = tk_config s /\ handed es = [] /\
    (all_timers es = [] \/ all_timers es = [mktm (tk_next s) TimerAction (ls_chan (tk_data s)) uri]).
Proof. intros T url b F s rid uri pos s' es. exact (fix_asked url b F s rid uri pos s' es). Qed.
Print Assumptions C129_quick_fix.
(** Nothing else has a document read again behind its opening: an edit, a save, or
    a quick fix asked for. *)
Theorem C129_read_again :
  forall T url b l (y : sys T), exec url b (sys0 T) l = Some y ->
    (forall m, In m (client_msgs l) -> match m with MDidChange _ _ | MDidSave _ | MCodeAction _ _ _ => False | _ => True end) ->
    forall u, ~ In (MDidSave u) (map fst (y_taken y)).
Proof. intros T url b l y H Hc u. apply (readings_caused url b l y u H). apply Forall_forall. exact Hc. Qed.
Print Assumptions C129_read_again.

(** The session of [C121_example]; in it, the user asks for the meaning of [x] (20),
    for the quick fixes in the white space (21), for completion behind the pipe
    (22), for the outline (30) and once more for the meaning of [x] (31). *)
Definition c129_asks : list msg :=
  [MHover 20 c121_a (mkpos 0 3); MCodeAction 21 c121_a (mkpos 0 12); MCompletion 22 c121_a (mkpos 0 6) (Some TkInvoked);
   MDocumentSymbol 30 c121_a; MHover 31 c121_a (mkpos 0 7)].
Definition c129_ask := script (T := always c117_tree) any_url Debug c122_fs false c121_y c129_asks.
Definition c129_y := snd c129_ask.
Definition c129_s : task_state (always c117_tree) := idle_state c129_y.
Definition c129_Q (r : N) : bool := (20 <=? r) && (r <=? 22).
Definition c129_client : list msg :=
  [MDidChangeConfiguration (Some (cfg_dir "views")); MDidOpen (c117_url "b1.html") (ascii_text c117_src); MDidOpen (c117_url "a.html") (ascii_text c117_src)].
Lemma c129_msgs : client_msgs (fst c117_open ++ fst c129_ask) = c129_client ++ c129_asks.
Proof. vm_compute. reflexivity. Qed.
Example C129_example :
  exec any_url Debug (sys0 (always c117_tree)) (fst c117_open ++ fst c129_ask) = Some c129_y /\ y_task c129_y = TIdle c129_s /\
  only_questions c129_Q (client_msgs (fst c117_open ++ fst c129_ask)) /\
  (forall r a, In (r, a) (y_replies c129_y) -> c129_Q r = true -> not_on_missing a) /\
  map (fun m => chosen c129_Q m) c129_asks = [true; true; true; false; false] /\
  In (21, RCodeActions [CaCommand "Reset variables" "reset_variables"; CaCommand "Warn about unused" "warn"]%string) (y_replies c129_y) /\
  filter (fun x => negb (c129_Q (fst x))) (y_replies c129_y) = [(30, RSymbols []); (31, RHover (DocFilter "upper"))] /\
  length (y_published c129_y) = 2%nat.
Proof.
  split; [ran|]. split; [ran|]. split.
  { intros m r. rewrite c129_msgs. intros Hm. do 3 (destruct Hm as [<-|Hm]; [intros []|]). intros _ _.
    repeat (destruct Hm as [<-|Hm]; [reflexivity|]). destruct Hm. }
  split.
  { intros r a Ha _. assert (E : Forall (fun x => not_on_missing (snd x)) (y_replies c129_y)).
    { assert (Er : exists items, y_replies c129_y = [(20, RNull); (21, RCodeActions [CaCommand "Reset variables" "reset_variables"; CaCommand "Warn about unused" "warn"]%string);
        (22, RCompletion items); (30, RSymbols []); (31, RHover (DocFilter "upper"))]).
      { eexists. vm_compute. reflexivity. }
      destruct Er as (items & ->). repeat (apply Forall_cons; [try exact I|]); [|apply Forall_nil]. cbn. eexists _, _. left. reflexivity. }
    rewrite Forall_forall in E. exact (E _ Ha). }
  split; [vm_compute; reflexivity|]. split; [vm_compute; auto|]. split; vm_compute; reflexivity.
Qed.

(** On a missing template, it does leave a trace: some time after the quick fix was
    asked for, whether it is accepted or not, the document is read again.  Without
    the question no session reads it again.  Here the file has been created in the
    meantime and the report of [b.html] disappears. *)
Definition c129_fs : fs := fs_with ["views"%string; "views/b.html"%string; "views/c.html"%string].
Definition c129_fix := script (T := always c117_tree) any_url Debug c129_fs true c121_y [MCodeAction 9 c121_a (mkpos 0 30)].
Definition c129_fixed := snd c129_fix.
Lemma c129_fix_msgs : client_msgs (fst c117_open ++ fst c129_fix) = c129_client ++ [MCodeAction 9 c121_a (mkpos 0 30)].
Proof. vm_compute. reflexivity. Qed.
Lemma c129_fix_taken : In (MDidSave c121_a) (map fst (y_taken c129_fixed)).
Proof. assert (E : nth_error (map fst (y_taken c129_fixed)) 8 = Some (MDidSave c121_a)) by (vm_compute; reflexivity). exact (nth_error_In _ _ E). Qed.
Lemma c129_fix_run : exec any_url Debug (sys0 (always c117_tree)) (fst c117_open ++ fst c129_fix) = Some c129_fixed.
Proof. ran. Qed.
Definition c129_fix_s : task_state (always c117_tree) := idle_state c129_fixed.
Lemma c129_fix_rest : at_rest c129_fixed.
Proof. split; [exists c129_fix_s; ran|]. conj; vm_compute; reflexivity. Qed.
Theorem C129_questions_refuted :
  exists T url b (Q : N -> bool) l (y : sys T) u v, exec url b (sys0 T) l = Some y /\ at_rest y /\ only_questions Q (client_msgs l) /\
    (exists earlier later, y_published y = earlier ++ later /\ last_published v earlier <> last_published v (y_published y) /\ later <> [] /\ url u = Some v) /\
    In (MDidSave u) (map fst (y_taken y)) /\
    forall l' y', exec url b (sys0 T) l' = Some y' -> client_msgs l' = unchosen Q (client_msgs l) ->
      ~ In (MDidSave u) (map fst (y_taken y')) /\ ~ differ_in Q y y'.
Proof.
  exists (always c117_tree), any_url, Debug, (N.eqb 9), (fst c117_open ++ fst c129_fix), c129_fixed, c121_a, c121_a.
  split; [exact c129_fix_run|]. split; [exact c129_fix_rest|]. split.
  { intros m r. rewrite c129_fix_msgs. intros Hm. do 3 (destruct Hm as [<-|Hm]; [intros []|]). intros _ _. destruct Hm as [<-|[]]. reflexivity. }
  split.
  { exists (firstn 2 (y_published c129_fixed)), (skipn 2 (y_published c129_fixed)). split; [symmetry; apply firstn_skipn|].
    split; [vm_compute; intros E; discriminate E|]. split; [vm_compute; intros E; discriminate E|reflexivity]. }
  split; [exact c129_fix_taken|]. intros l' y' H Hc.
  assert (Hn : ~ In (MDidSave c121_a) (map fst (y_taken y'))).
  { apply (C129_read_again _ _ _ l' y' H). rewrite Hc, c129_fix_msgs. intros m Hm. unfold unchosen in Hm. apply filter_In in Hm. destruct Hm as (Hm & Hq).
    do 3 (destruct Hm as [<-|Hm]; [exact I|]). destruct Hm as [<-|[]]. discriminate Hq. }
  split; [exact Hn|]. intros D. apply Hn. exact (differ_taken _ _ _ _ D c129_fix_taken eq_refl).
Qed.
Print Assumptions C129_questions_refuted.
