(** * PropOffer: completion while a name, a filter or a test is written (C128). *)
From Verif Require Import Base RString Utf8 Rope Types Captures MTemplates MDefinition MObjects MLspFiles MSearchErrors MLspTask MChannels MQueries.
From Verif Require Import SpecText SpecFiles SpecScope SpecScope2 SpecObjects SpecLint SpecNav SpecQueries SpecQueries2 SpecQueries4 SpecChannels SpecServer SpecClient SpecQueries5 SpecOffer.
From Verif Require Import PQueries7 POffer PropText PropObjects PropLint PropFiles PropChannels PropQueries PropQueries2 PropQueries3.

(** ** C128: completion while a word is written *)
(** In every session, at every request: if the cursor is in the letters of a name
    of an expression, the local names are offered that begin with what is typed in
    front of the cursor and are visible there, as of when the template was last
    read; each replaces the name. *)
Theorem C128_name :
  forall parse edit url b, parse_total (ts_with parse edit) ->
  forall l (y : sys (ts_with parse edit)) sy a F c rid, exec url b (sys0 (ts_with parse edit)) l = Some y -> y_task y = TIdle sy ->
  forall uri t0 tr0 tp0 ps0 sts0 t tr tp ps sts,
    file_ext uri = Some Template -> last_read uri (map fst a) t0 t ->
    conveys parse t0 tr0 tp0 ps0 sts0 -> conveys parse t tr tp ps sts ->
    forall pos ctx, ctx = Some TkInvoked \/ ctx = Some TkTriggerCharacter -> y_taken y = a ++ (MCompletion rid uri pos ctx, F) :: c ->
    forall n h ps2 typed, typing (point_of pos) ps n h [] ps2 typed -> plain_start ps2 ->
      exists s x items, replay url b (task0 (ts_with parse edit)) a = Ok (s, x) /\
        variables_offered (tk_data s) uri (defines tr0 tp0) (point_of pos) typed (to_range (loc h)) items /\
        In (rid, RCompletion (map RItem items)) (y_replies y).
Proof. exact asked_typing_name. Qed.
Print Assumptions C128_name.
(** Whatever follows the name: more may be replaced if attributes follow. *)
Theorem C128_name_exact :
  forall parse edit url b, parse_total (ts_with parse edit) ->
  forall l (y : sys (ts_with parse edit)) sy a F c rid, exec url b (sys0 (ts_with parse edit)) l = Some y -> y_task y = TIdle sy ->
  forall uri t0 tr0 tp0 ps0 sts0 t tr tp ps sts,
    file_ext uri = Some Template -> last_read uri (map fst a) t0 t ->
    conveys parse t0 tr0 tp0 ps0 sts0 -> conveys parse t tr tp ps sts ->
    forall pos ctx, ctx = Some TkInvoked \/ ctx = Some TkTriggerCharacter -> y_taken y = a ++ (MCompletion rid uri pos ctx, F) :: c ->
    forall n h fs ps2 typed, typing (point_of pos) ps n h fs ps2 typed ->
      exists s x items, replay url b (task0 (ts_with parse edit)) a = Ok (s, x) /\
        variables_offered (tk_data s) uri (defines tr0 tp0) (point_of pos) typed (to_replace (point_of pos) h fs ps2) items /\
        In (rid, RCompletion (map RItem items)) (y_replies y).
Proof. exact asked_typing. Qed.
Print Assumptions C128_name_exact.
(** On the pipe of a filter: the filters of Jinja, all and nothing else. *)
Theorem C128_filters :
  forall parse edit url b, parse_total (ts_with parse edit) ->
  forall l (y : sys (ts_with parse edit)) sy a F c rid, exec url b (sys0 (ts_with parse edit)) l = Some y -> y_task y = TIdle sy ->
  forall uri t0 tr0 tp0 ps0 sts0 t tr tp ps sts,
    file_ext uri = Some Template -> last_read uri (map fst a) t0 t ->
    conveys parse t0 tr0 tp0 ps0 sts0 -> conveys parse t tr tp ps sts ->
    forall pos ctx, ctx = Some TkInvoked \/ ctx = Some TkTriggerCharacter -> y_taken y = a ++ (MCompletion rid uri pos ctx, F) :: c ->
    at_pipe (point_of pos) ps ->
    In (rid, RCompletion (map (fun n => RDoc n (DocFilter n)) filter_names)) (y_replies y).
Proof. exact asked_pipe. Qed.
Print Assumptions C128_filters.
(** Behind the [is] of a statement: the tests, all and nothing else. *)
Theorem C128_tests :
  forall parse edit url b, parse_total (ts_with parse edit) ->
  forall l (y : sys (ts_with parse edit)) sy a F c rid, exec url b (sys0 (ts_with parse edit)) l = Some y -> y_task y = TIdle sy ->
  forall uri t0 tr0 tp0 ps0 sts0 t tr tp ps sts,
    file_ext uri = Some Template -> last_read uri (map fst a) t0 t ->
    conveys parse t0 tr0 tp0 ps0 sts0 -> conveys parse t tr tp ps sts ->
    forall pos ctx, ctx = Some TkInvoked \/ ctx = Some TkTriggerCharacter -> y_taken y = a ++ (MCompletion rid uri pos ctx, F) :: c ->
    behind_is (point_of pos) ps ->
    In (rid, RCompletion (map (fun n => RDoc n (DocTest n)) test_names)) (y_replies y).
Proof. exact asked_is. Qed.
Print Assumptions C128_tests.

(** All of them in one session: [us] is completed, then filters are asked for
    behind the pipe and tests behind [is]. *)
Definition c128_src : string := "{% set user = 1 %}{% if user is defined %}{{ us }}{{ user|upper }}{% endif %}".
Definition c128_tree : stree :=
 (SN "source_file" (nn 1 0 77)
  [("", SN "statement" (nn 2 0 18) [on "statement_begin" 3 0 2; on "keyword" 4 3 6; on "identifier" 5 7 11; on "operator" 6 12 13; on "identifier" 7 14 15; on "statement_end" 8 16 18]);
   ("", SN "statement" (nn 9 18 42) [on "statement_begin" 10 18 20; on "keyword" 11 21 23; on "identifier" 12 24 28; on "keyword" 13 29 31; on "identifier" 14 32 39; on "statement_end" 15 40 42]);
   ("", SN "expression" (xn 16 42 50) [on "expression_begin" 17 42 44; on "identifier" 18 45 47; on "expression_end" 19 48 50]);
   ("", SN "expression" (xn 20 50 66) [on "expression_begin" 21 50 52; on "identifier" 22 53 57; on "operator" 23 57 58; on "identifier" 24 58 63; on "expression_end" 25 64 66]);
   ("", SN "statement" (nn 26 66 77) [on "statement_begin" 27 66 68; on "keyword" 28 69 74; on "statement_end" 29 75 77])])%string.
Definition c128_tpl : tpl :=
  TSet (nn 4 3 6) (wt 5 7 11 "user") [NEq (nn 6 12 13)] (nn 3 0 2) (nn 8 16 18)
    (TBlock (HPlain (wt 11 21 23 "if") [NId (wt 12 24 28 "user"); NId (wt 14 32 39 "defined")]) (nn 10 18 20) (nn 15 40 42)
      (TExpr [NId (wt 18 45 47 "us")] (TExpr [NId (wt 22 53 57 "user"); NId (wt 24 58 63 "upper")] TNil))
      (mkend (nn 28 69 74) [] (nn 27 66 68) (nn 29 75 77)) TNil).
Definition c128_ps : list piece :=
  [PChain (wt 5 7 11 "user") []; POp (wt 6 12 13 "="); PChain (wt 12 24 28 "user") []; PTest (nn 13 29 31) [] (wt 14 32 39 "defined");
   PExpr (xn 16 42 50); PChain (wt 18 45 47 "us") [];
   PExpr (xn 20 50 66); PChain (wt 22 53 57 "user") []; PFilter (wt 23 57 58 "|") (wt 24 58 63 "upper")].
Definition c128_ts : ts := always c128_tree.
Lemma c128_conveys : conveys (fun _ _ _ => Some c128_tree) (ascii_text c128_src) c128_tree c128_tpl c128_ps [].
Proof.
  constructor; [repeat constructor|intros old; reflexivity|whole| |placed_tree|cbn; repeat split; repeat constructor].
  change (encode (ascii_text c128_src)) with c128_src. constructor.
  - unfold root_kind. cbn. intuition discriminate.
  - unfold told_apart. vm_compute. repeat constructor; cbn; intuition discriminate.
  - vm_compute. repeat constructor; discriminate.
  - vm_compute. repeat constructor; discriminate.
  - cbn. repeat split; try discriminate; repeat constructor; try discriminate.
  - apply told_of. vm_compute. reflexivity.
  - split; [repeat (apply Forall_cons; [piece_okay|]); apply Forall_nil|exists (mkpt 0 1); split; [right; cbn; lia|]; vm_compute; intuition discriminate].
  - repeat constructor.
  - exact (spoken_of c128_src (preorder c128_tree)).
  - constructor.
  - cbn [c128_tree s_children map snd].
    refine (LdStmt c128_src _ _ [on "keyword" 4 3 6; on "identifier" 5 7 11; on "operator" 6 12 13; on "identifier" 7 14 15] _ "" "" _ None [] _ _ _);
      [now apply innerb_ok|apply LkNone; vm_compute; repeat constructor; intuition discriminate|].
    refine (LdStmt c128_src _ _ [on "keyword" 11 21 23; on "identifier" 12 24 28; on "keyword" 13 29 31; on "identifier" 14 32 39] _ "" "" _ None [] _ _ _);
      [now apply innerb_ok|apply LkNone; vm_compute; repeat constructor; intuition discriminate|].
    do 2 (apply LdOther; [now apply innerb_ok|]).
    refine (LdStmt c128_src _ _ [on "keyword" 28 69 74] _ "" "" _ None [] _ _ _);
      [now apply innerb_ok|apply LkNone; vm_compute; repeat constructor; intuition discriminate|constructor].
Qed.
Definition c128_open := script (T := c128_ts) any_url Debug fs_empty true (sys0 c128_ts) [MDidChangeConfiguration (Some cfg_rust); MDidOpen a_html (ascii_text c128_src)].
Definition c128_asked := script (T := c128_ts) any_url Debug fs_empty false (snd c128_open)
  [MCompletion 1 a_html (mkpos 0 47) (Some TkInvoked); MCompletion 2 a_html (mkpos 0 58) (Some TkInvoked); MCompletion 3 a_html (mkpos 0 31) (Some TkInvoked)].
Definition c128_told : list msg :=
  [MDidChangeConfiguration (Some cfg_rust); MInitialized; MCodeActions []; MDidOpen a_html (ascii_text c128_src); MCodeActions [(a_html, [])]].
Example C128_example :
  exec any_url Debug (sys0 c128_ts) (fst c128_open ++ fst c128_asked) = Some (snd c128_asked) /\
  (exists s, y_task (snd c128_asked) = TIdle s) /\
  map fst (y_taken (snd c128_asked)) = c128_told ++
    [MCompletion 1 a_html (mkpos 0 47) (Some TkInvoked); MCompletion 2 a_html (mkpos 0 58) (Some TkInvoked); MCompletion 3 a_html (mkpos 0 31) (Some TkInvoked)] /\
  last_read a_html c128_told (ascii_text c128_src) (ascii_text c128_src) /\
  conveys (fun _ _ _ => Some c128_tree) (ascii_text c128_src) c128_tree c128_tpl c128_ps [] /\
  typing (mkpt 0 47) c128_ps (xn 16 42 50) (wt 18 45 47 "us") [] (skipn 6 c128_ps) "us" /\ plain_start (skipn 6 c128_ps) /\
  typing (mkpt 0 46) c128_ps (xn 16 42 50) (wt 18 45 47 "us") [] (skipn 6 c128_ps) "u" /\
  at_pipe (mkpt 0 58) c128_ps /\ behind_is (mkpt 0 31) c128_ps /\
  map (fun r => match snd r with RCompletion [RItem i] => Some (ci_label i, ci_edit i) | _ => None end) (y_replies (snd c128_asked)) =
    [Some ("user"%string, Some (CInsertReplace "user" (mkrange (mkpos 0 45) (mkpos 0 47)) (mkrange (mkpos 0 45) (mkpos 0 47)))); None; None] /\
  map (fun r => match snd r with RCompletion l => length l | _ => 0%nat end) (y_replies (snd c128_asked)) = [1; length filter_names; length test_names]%nat.
Proof.
  split; [vm_compute; reflexivity|]. split; [eexists; vm_compute; reflexivity|]. split; [vm_compute; reflexivity|].
  split.
  { exists [MDidChangeConfiguration (Some cfg_rust); MInitialized; MCodeActions []], (MDidOpen a_html (ascii_text c128_src)), [MCodeActions [(a_html, [])]].
    split; [reflexivity|]. split; [reflexivity|]. split; [exact (et_open a_html [_; _; _] _)|]. split; [repeat constructor|].
    apply (et_other a_html [_; _; _; _] _ (MCodeActions _)); [exact (et_open a_html [_; _; _] _)|exact I]. }
  split; [exact c128_conveys|].
  split.
  { constructor; [exists (firstn 4 c128_ps), []; split; [reflexivity|constructor]|before|before| |repeat (apply Forall_cons; [vm_compute; discriminate|]); apply Forall_nil].
    constructor; [reflexivity|exists EmptyString; split; [reflexivity|exact I]|discriminate|reflexivity]. }
  split; [exact I|].
  split.
  { constructor; [exists (firstn 4 c128_ps), []; split; [reflexivity|constructor]|before|before| |repeat (apply Forall_cons; [vm_compute; discriminate|]); apply Forall_nil].
    constructor; [reflexivity|exists "s"%string; split; [reflexivity|left; vm_compute; reflexivity]|discriminate|reflexivity]. }
  split; [exists (firstn 8 c128_ps), (wt 23 57 58 "|"), (wt 24 58 63 "upper"), []; split; [reflexivity|split; before]|].
  split.
  { exists (firstn 3 c128_ps), (nn 13 29 31), [], (wt 14 32 39 "defined"), (skipn 4 c128_ps).
    split; [reflexivity|]. split; [before|]. split; [reflexivity|]. split; [before|]. intros n H. cbn in H. repeat (destruct H as [H|H]; [discriminate|]). destruct H. }
  split; vm_compute; reflexivity.
Qed.
