(** * PropHistory: the past of a template does not matter (C127). *)
From Verif Require Import Base RString Utf8 Rope Types Captures MTemplates MDefinition MObjects MLspFiles MSearchErrors MLspTask MChannels MQueries.
From Verif Require Import SpecText SpecFiles SpecScope SpecScope2 SpecObjects SpecLint SpecOrder SpecNav SpecQueries SpecQueries2 SpecQueries4 SpecChannels SpecServer SpecClient SpecQueries5 SpecScreen SpecHistory.
From Verif Require Import PHistory PropText PropObjects PropLint PropFiles PropChannels PropQueries PropQueries2 PropQueries3.

(** ** C127: what is shown and answered depends on the text, not on how it came about *)
(** Two sessions have come to rest with the same text of a template.  In one it may
    have been opened as it is; in the other it may have been typed, broken, undone,
    saved at any time.  The parser makes the same tree of the text in both, whatever
    tree that is.  Once the template was analysed in both, the same list of
    diagnostics is on the screen, if the servers know the same names and find the
    same templates. *)
Theorem C127_screen :
  forall T url b, parse_total T ->
  forall l l' (y y' : sys T) s s' uri v t tr F F' s1 s1',
    exec url b (sys0 T) l = Some y -> at_rest y -> state_of y s ->
    exec url b (sys0 T) l' = Some y' -> at_rest y' -> state_of y' s' ->
    file_ext uri = Some Template -> becomes T t tr -> just_read uri (map fst (y_taken y)) t -> just_read uri (map fst (y_taken y')) t ->
    url uri = Some v -> (forall u, url u = Some v -> u = uri) -> ls_ignore (tk_data s) = ls_ignore (tk_data s') ->
    last_reading url b y uri F s1 -> last_reading url b y' uri F' s1' -> analysed s1 uri -> analysed s1' uri -> same_names s1 s1' ->
    same_templates F (cf_templates (ls_config (tk_data s))) F' (cf_templates (ls_config (tk_data s'))) ->
    last_published v (y_published y) = last_published v (y_published y').
Proof. intros T url b Hp. exact (history_screen url b Hp). Qed.
Print Assumptions C127_screen.
(** The same of completion, hover, goto and the document symbols: the answers differ
    at most in the order of their items. *)
Theorem C127_answers :
  forall T url b, parse_total T ->
  forall l l' (y y' : sys T) sy sy' a a' m rid F c c' uri t tr s x s' x',
    exec url b (sys0 T) l = Some y -> y_task y = TIdle sy -> exec url b (sys0 T) l' = Some y' -> y_task y' = TIdle sy' ->
    y_taken y = a ++ (m, F) :: c -> y_taken y' = a' ++ (m, F) :: c' -> asks_about uri rid m ->
    file_ext uri = Some Template -> becomes T t tr -> just_read uri (map fst a) t -> just_read uri (map fst a') t ->
    replay url b (task0 T) a = Ok (s, x) -> replay url b (task0 T) a' = Ok (s', x') -> analysed s uri -> analysed s' uri ->
    agree_around uri (tk_data s) (tk_data s') ->
    exists r r', In (rid, r) (y_replies y) /\ In (rid, r') (y_replies y') /\ same_reply r r'.
Proof. intros T url b Hp. exact (history_answers url b Hp). Qed.
Print Assumptions C127_answers.
(** A template without syntax errors is analysed whenever it is read. *)
Theorem C127_analysed :
  forall parse edit url b, parse_total (ts_with parse edit) ->
  forall (s : task_state (ts_with parse edit)) ms x uri t tr tp ps sts,
    replay url b (task0 (ts_with parse edit)) ms = Ok (s, x) -> file_ext uri = Some Template ->
    just_read uri (map fst ms) t -> conveys parse t tr tp ps sts -> analysed s uri.
Proof. exact conveyed_analysed. Qed.
Print Assumptions C127_analysed.
(** [{% for i in l %}{{ i }}{% endfor %}] is opened and [ab] typed in front of it;
    in the other session the longer text is opened as it is. *)
Definition c127_open := script (T := c116_ts) any_url Debug fs_empty true (sys0 c116_ts) [MDidChangeConfiguration (Some cfg_rust); MDidOpen a_html (ascii_text c116_src)].
Definition c127_asked := script (T := c116_ts) any_url Debug fs_empty false (snd c127_open) [MGoto 9 a_html (mkpos 0 21)].
Definition c127_after (T : ts) (n : nat) (y : sys T) : task_state T :=
  match replay any_url Debug (task0 T) (firstn n (y_taken y)) with Ok (s, _) => s | Panic => task0 T end.
Definition c127_trace (T : ts) (n : nat) (y : sys T) :=
  match replay any_url Debug (task0 T) (firstn n (y_taken y)) with Ok (_, x) => x | Panic => [] end.
Definition c127_state (T : ts) (y : sys T) : task_state T := idle_state y.
Lemma c127_replays (T : ts) n (y : sys T) pre x : pre ++ [x] = firstn n (y_taken y) ->
  (match replay any_url Debug (task0 T) (firstn n (y_taken y)) with Ok _ => true | Panic => false end) = true ->
  replay any_url Debug (task0 T) (pre ++ [x]) = Ok (c127_after T n y, c127_trace T n y).
Proof. intros -> H. unfold c127_after, c127_trace. destruct (replay _ _ _ _) as [[s tr]|]; [reflexivity|discriminate H]. Qed.
Definition c127_told : list msg :=
  [MDidChangeConfiguration (Some cfg_rust); MInitialized; MCodeActions []; MDidOpen a_html (ascii_text c116_src); MCodeActions [(a_html, [])]].
Lemma c127_taken : map fst (y_taken (snd c127_open)) = c127_told.
Proof. vm_compute. reflexivity. Qed.
Lemma c127_typed : editor_text a_html (map fst (y_taken (snd c116_rest))) (ascii_text c116_src).
Proof. rewrite c116_taken2. do 4 (apply et_other; [|exact I]). exact c116_text. Qed.
Lemma c127_read : just_read a_html c127_told (ascii_text c116_src).
Proof.
  exists (firstn 3 c127_told), (MDidOpen a_html (ascii_text c116_src)), [MCodeActions [(a_html, [])]]. split; [reflexivity|]. split; [reflexivity|].
  split; [apply et_open|repeat constructor].
Qed.
Lemma c127_saved : just_read a_html (map fst (y_taken (snd c116_rest))) (ascii_text c116_src).
Proof.
  rewrite c116_taken2. exists (((c116_before ++ [MDidChange a_html c116_edit]) ++ [MGoto 7 a_html (mkpos 0 21)]) ++ [MDocumentSymbol 8 a_html]), (MDidSave a_html), [MCodeActions [(a_html, [])]].
  split; [reflexivity|]. split; [reflexivity|]. split; [|repeat constructor]. do 3 (apply et_other; [|exact I]). exact c116_text.
Qed.
Lemma c127_none (T : ts) (s s' : task_state T) : ls_vars (tk_data s) = ls_vars (tk_data s') -> same_names s s'.
Proof. intros E name. now rewrite E. Qed.
Example C127_example :
  exec any_url Debug (sys0 c116_ts) c116_l2 = Some (snd c116_rest) /\ at_rest (snd c116_rest) /\ state_of (snd c116_rest) c116_state2 /\
  exec any_url Debug (sys0 c116_ts) (fst c127_open) = Some (snd c127_open) /\ at_rest (snd c127_open) /\ state_of (snd c127_open) (c127_state _ (snd c127_open)) /\
  becomes c116_ts (ascii_text c116_src) c116_tree /\
  just_read a_html (map fst (y_taken (snd c116_rest))) (ascii_text c116_src) /\ just_read a_html (map fst (y_taken (snd c127_open))) (ascii_text c116_src) /\
  last_reading any_url Debug (snd c116_rest) a_html fs_empty (c127_after _ 9 (snd c116_rest)) /\
  last_reading any_url Debug (snd c127_open) a_html fs_empty (c127_after _ 4 (snd c127_open)) /\
  analysed (c127_after _ 9 (snd c116_rest)) a_html /\ analysed (c127_after _ 4 (snd c127_open)) a_html /\
  same_names (c127_after _ 9 (snd c116_rest)) (c127_after _ 4 (snd c127_open)) /\
  last_published a_html (y_published (snd c116_rest)) = last_published a_html (y_published (snd c127_open)) /\
  last_published a_html (y_published (snd c116_rest)) =
    Some [mkdiag (lsp_range (mkpt 0 14) (mkpt 0 15)) SevWarning "Undefined variable"]%string /\
  (** The question. *)
  exec any_url Debug (sys0 c116_ts) c116_l3 = Some (snd c116_again) /\ exec any_url Debug (sys0 c116_ts) (fst c127_open ++ fst c127_asked) = Some (snd c127_asked) /\
  (exists sy, y_task (snd c116_again) = TIdle sy) /\ (exists sy, y_task (snd c127_asked) = TIdle sy) /\
  y_taken (snd c116_again) = y_taken (snd c116_rest) ++ [(MGoto 9 a_html (mkpos 0 21), fs_empty)] /\
  y_taken (snd c127_asked) = y_taken (snd c127_open) ++ [(MGoto 9 a_html (mkpos 0 21), fs_empty)] /\
  agree_around a_html (tk_data c116_state2) (tk_data (c127_state _ (snd c127_open))).
Proof.
  split; [ran|]. split; [split; [exists c116_state2; ran|conj; vm_compute; reflexivity]|]. split; [left; ran|].
  split; [ran|]. split; [split; [exists (c127_state _ (snd c127_open)); ran|conj; vm_compute; reflexivity]|]. split; [left; ran|].
  split; [split; [repeat constructor|intros old; reflexivity]|]. split; [exact c127_saved|]. split; [rewrite c127_taken; exact c127_read|].
  split. { exists (firstn 8 (y_taken (snd c116_rest))), (MDidSave a_html), (skipn 9 (y_taken (snd c116_rest))), (c127_trace _ 9 (snd c116_rest)).
    split; [ran|]. split; [reflexivity|]. split; [vm_compute; repeat constructor|apply c127_replays; vm_compute; reflexivity]. }
  split. { exists (firstn 3 (y_taken (snd c127_open))), (MDidOpen a_html (ascii_text c116_src)), (skipn 4 (y_taken (snd c127_open))), (c127_trace _ 4 (snd c127_open)).
    split; [ran|]. split; [reflexivity|]. split; [vm_compute; repeat constructor|apply c127_replays; vm_compute; reflexivity]. }
  split; [vm_compute; discriminate|]. split; [vm_compute; discriminate|]. split; [apply c127_none; ran|].
  split; [ran|]. split; [ran|]. split; [ran|]. split; [ran|]. split; [exists (c127_state _ (snd c116_again)); ran|]. split; [exists (c127_state _ (snd c127_asked)); ran|].
  split; [ran|]. split; [ran|].
  constructor; [|vm_compute; tauto|ran|ran].
  intros u N. assert (E : ls_vars (tk_data c116_state2) = ls_vars (tk_data (c127_state _ (snd c127_open)))) by ran. now rewrite E.
Qed.

(** ** The full statement is false *)
(** [{{ x }}] is opened and [{% for] typed behind it; in the other session the
    broken text is opened as it is.  Both have read the same text last, and the
    servers know the same names, but only the first shows that [x] is undefined:
    a template opened with a syntax error in it is not checked until it was once
    read without. *)
Definition c127_ok : string := "{{ x }}".
Definition c127_broken : string := "{{ x }}{% for".
Definition c127_expr : string * stree :=
  (EmptyString, SN "expression" (xn 2 0 7) [on "expression_begin" 3 0 2; on "identifier" 4 3 4; on "expression_end" 5 5 7]%string).
Definition c127_tree0 : stree := SN "source_file" (nn 1 0 7) [c127_expr].
Definition c127_tree : stree := SN "source_file" (nn 1 0 13)
  [c127_expr; (EmptyString, SN "ERROR" (nn 6 7 13) [on "statement_begin" 7 7 9; on "keyword" 8 10 13])]%string.
Definition c127_parse (l : plang) (c : string) (old : option stree) : option stree :=
  Some (if String.eqb c c127_broken then c127_tree else c127_tree0).
Definition c127_ts : ts := ts_with c127_parse (fun t _ => t).
Definition c127_edit : list change := [mkchange (Some (mkrange (mkpos 0 7) (mkpos 0 7))) (ascii_text "{% for")].
Definition c127_run1 := script (T := c127_ts) any_url Debug fs_empty true (sys0 c127_ts)
  [MDidChangeConfiguration (Some cfg_rust); MDidOpen a_html (ascii_text c127_ok); MDidChange a_html c127_edit].
Definition c127_run2 := script (T := c127_ts) any_url Debug fs_empty true (sys0 c127_ts)
  [MDidChangeConfiguration (Some cfg_rust); MDidOpen a_html (ascii_text c127_broken)].
Definition c127_told1 : list msg :=
  [MDidChangeConfiguration (Some cfg_rust); MInitialized; MCodeActions []; MDidOpen a_html (ascii_text c127_ok); MCodeActions [(a_html, [])]].
Lemma c127_taken1 : map fst (y_taken (snd c127_run1)) = ((c127_told1 ++ [MDidChange a_html c127_edit]) ++ [MDidSave a_html]) ++ [MCodeActions [(a_html, [])]].
Proof. vm_compute. reflexivity. Qed.
Lemma c127_taken2 : map fst (y_taken (snd c127_run2)) = firstn 3 c127_told1 ++ [MDidOpen a_html (ascii_text c127_broken)].
Proof. vm_compute. reflexivity. Qed.
Lemma c127_edited : easy_changes (ascii_text c127_ok) c127_edit (ascii_text c127_broken).
Proof.
  apply easy_cons with (t1 := ascii_text c127_broken); [|apply easy_nil]. exists 7%nat, 7%nat.
  assert (Hi : index_of (ascii_text c127_ok) (mkpos 0 7) 7) by (exists (ascii_text c127_ok), [], 7%nat; repeat split; cbn; lia).
  split; [exact Hi|]. split; [exact Hi|]. split; [lia|]. split; [reflexivity|]. split; [intros c H; vm_compute in H; tauto|].
  split; split; repeat constructor.
Qed.
Lemma c127_read1 : just_read a_html (map fst (y_taken (snd c127_run1))) (ascii_text c127_broken).
Proof.
  rewrite c127_taken1. exists (c127_told1 ++ [MDidChange a_html c127_edit]), (MDidSave a_html), [MCodeActions [(a_html, [])]].
  split; [reflexivity|]. split; [reflexivity|]. split; [|repeat constructor]. apply et_other; [|exact I]. eapply et_change; [|exact c127_edited].
  apply (et_other a_html (firstn 4 c127_told1) _ (MCodeActions [(a_html, [])])); [exact (et_open a_html (firstn 3 c127_told1) _)|exact I].
Qed.
Lemma c127_read2 : just_read a_html (map fst (y_taken (snd c127_run2))) (ascii_text c127_broken).
Proof.
  rewrite c127_taken2. exists (firstn 3 c127_told1), (MDidOpen a_html (ascii_text c127_broken)), []. split; [reflexivity|]. split; [reflexivity|]. split; [apply et_open|constructor].
Qed.
Theorem C127_broken_refuted :
  exists parse edit url b l l' (y y' : sys (ts_with parse edit)) s s' uri v t tr F s1 s1',
    parse_total (ts_with parse edit) /\
    exec url b (sys0 (ts_with parse edit)) l = Some y /\ at_rest y /\ state_of y s /\
    exec url b (sys0 (ts_with parse edit)) l' = Some y' /\ at_rest y' /\ state_of y' s' /\
    file_ext uri = Some Template /\ becomes (ts_with parse edit) t tr /\ just_read uri (map fst (y_taken y)) t /\ just_read uri (map fst (y_taken y')) t /\
    url uri = Some v /\ (forall u, url u = Some v -> u = uri) /\ ls_ignore (tk_data s) = ls_ignore (tk_data s') /\
    last_reading url b y uri F s1 /\ last_reading url b y' uri F s1' /\ same_names s1 s1' /\
    cf_templates (ls_config (tk_data s)) = cf_templates (ls_config (tk_data s')) /\
    (exists d, last_published v (y_published y) = Some [d]) /\ last_published v (y_published y') = None.
Proof.
  exists c127_parse, (fun t _ => t), any_url, Debug, (fst c127_run1), (fst c127_run2), (snd c127_run1), (snd c127_run2).
  exists (c127_state _ (snd c127_run1)), (c127_state _ (snd c127_run2)), a_html, a_html, (ascii_text c127_broken), c127_tree, fs_empty.
  exists (c127_after _ 7 (snd c127_run1)), (c127_after _ 4 (snd c127_run2)).
  split; [intros l c old; discriminate|].
  split; [ran|]. split; [split; [exists (c127_state _ (snd c127_run1)); ran|conj; vm_compute; reflexivity]|]. split; [left; ran|].
  split; [ran|]. split; [split; [exists (c127_state _ (snd c127_run2)); ran|conj; vm_compute; reflexivity]|]. split; [left; ran|].
  split; [reflexivity|]. split; [split; [repeat constructor|intros old; reflexivity]|]. split; [exact c127_read1|]. split; [exact c127_read2|].
  split; [reflexivity|]. split; [intros u E; unfold any_url in E; congruence|]. split; [ran|].
  split. { exists (firstn 6 (y_taken (snd c127_run1))), (MDidSave a_html), (skipn 7 (y_taken (snd c127_run1))), (c127_trace _ 7 (snd c127_run1)).
    split; [ran|]. split; [reflexivity|]. split; [vm_compute; repeat constructor|apply c127_replays; vm_compute; reflexivity]. }
  split. { exists (firstn 3 (y_taken (snd c127_run2))), (MDidOpen a_html (ascii_text c127_broken)), (skipn 4 (y_taken (snd c127_run2))), (c127_trace _ 4 (snd c127_run2)).
    split; [ran|]. split; [reflexivity|]. split; [vm_compute; repeat constructor|apply c127_replays; vm_compute; reflexivity]. }
  split.
  { assert (E1 : ls_vars (tk_data (c127_after c127_ts 7 (snd c127_run1))) = [(a_html, [])]) by ran. assert (E2 : ls_vars (tk_data (c127_after c127_ts 4 (snd c127_run2))) = []) by ran.
    intros name. unfold c127_ts in *. rewrite E1, E2. split; [intros (f & vs & i & [H|[]] & Hi & _); injection H as <- <-; destruct Hi|intros (f & vs & i & [] & _)]. }
  split; [ran|]. split; [|ran].
  exists (mkdiag (lsp_range (mkpt 0 3) (mkpt 0 4)) SevWarning "Undefined variable"%string). ran.
Qed.
Print Assumptions C127_broken_refuted.
