(** * PropTyping: property C119 (completions that come up while typing). *)
From Coq Require Import Ascii.
From Verif Require Import Base RString Utf8 Rope Types Captures.
From Verif Require Import MDefinition MObjects MTemplates MSearchErrors MLspFiles MLspTask MChannels MQueries MBackend.
From Verif Require Import SpecText SpecFiles SpecScope SpecScope2 SpecObjects SpecObjects2 SpecLint SpecNav SpecQueries SpecQueries2 SpecQueries4 SpecChannels SpecServer SpecClient SpecAccept SpecQueries5 SpecQueries6 SpecTyping.
From Verif Require Import PObjects PNav2 PQueries11 PQueries7 PQueries12 PTyping PropObjects PropLint PropNav PropAccept PropQueries PropQueries2 PropQueries3 PropQueries4 PropFiles PropChannels.

(** ** C119 *)
(** After which characters the editor asks. *)
Theorem C119_asks :
  forall a, asks_after server_caps a <> None <-> word_char a = true \/ In a ["-"; dquote; " "; "%"; "{"]%char.
Proof. exact asks_exactly. Qed.
Print Assumptions C119_asks.
(** Whatever was typed, the server does not turn the request down for its kind. *)
Theorem C119_never_refused :
  forall T b uri pos (s : lsp_files T) a k, asks_after server_caps a = Some k ->
    do_completion b uri pos (Some k) s = do_completion b uri pos (Some TkInvoked) s.
Proof. exact @kind_ignored. Qed.
Print Assumptions C119_never_refused.
(** A double quote typed in front of (what is left of) a template name: the request
    reaches the server and its answer offers the templates. *)
Theorem C119_quote :
  forall rid uri pos, exists m, forwarded (on_typing server_caps dquote rid uri pos) = [m] /\
  forall parse edit url b, parse_total (ts_with parse edit) ->
  forall l (y : sys (ts_with parse edit)) sy a F c, exec url b (sys0 (ts_with parse edit)) l = Some y -> y_task y = TIdle sy ->
  forall t tr tp ps1 ps2 sts i r,
    file_ext uri = Some Template -> editor_text uri (map fst a) t -> conveys parse t tr tp (ps1 ++ ps2) sts ->
    y_taken y = a ++ (m, F) :: c ->
    In i sts -> In r (refs i) -> in_quotes (point_of pos) r -> between (point_of pos) ps1 ps2 ->
    outside ps1 (point_of pos) -> plain_line r -> col (point_of pos) = col (n_start (fst r)) + 1 ->
    exists s x, replay url b (task0 (ts_with parse edit)) a = Ok (s, x) /\
      let d := strip_dots (cf_templates (ls_config (tk_data s))) in
      ((forall u, In u (map fst (ls_tt (tk_data s))) -> sought (snd r) u -> exists label, lies_below d u label) ->
       exists us items, In (rid, RCompletion (map RItem items)) (y_replies y) /\
         (forall u, In u us <-> In u (map fst (ls_tt (tk_data s))) /\ sought (snd r) u) /\
         (NoDup (map fst (ls_tt (tk_data s))) -> NoDup us) /\
         Forall2 (template_for d (ls_vscode (tk_data s)) (lsp_range (n_start (fst r)) (n_end (fst r)))) us items).
Proof. exact quote_typed. Qed.
Print Assumptions C119_quote.
(** A space typed between the words of an expression: the variables. *)
Theorem C119_space_in_expression :
  forall rid uri pos, exists m, forwarded (on_typing server_caps " " rid uri pos) = [m] /\
  forall parse edit url b, parse_total (ts_with parse edit) ->
  forall l (y : sys (ts_with parse edit)) sy a F c, exec url b (sys0 (ts_with parse edit)) l = Some y -> y_task y = TIdle sy ->
  forall t0 tr0 tp0 ps0 sts0 t tr tp ps1 ps2 sts,
    file_ext uri = Some Template -> last_read uri (map fst a) t0 t ->
    conveys parse t0 tr0 tp0 ps0 sts0 -> conveys parse t tr tp (ps1 ++ ps2) sts ->
    y_taken y = a ++ (m, F) :: c -> between (point_of pos) ps1 ps2 -> SpecObjects.inside ps1 (point_of pos) ->
    exists s x items, replay url b (task0 (ts_with parse edit)) a = Ok (s, x) /\
      variables_offered (tk_data s) uri (defines tr0 tp0) (point_of pos) EmptyString range0 items /\
      In (rid, RCompletion (map RItem items)) (y_replies y).
Proof. exact space_typed. Qed.
Print Assumptions C119_space_in_expression.
(** A space typed behind a pipe: the filters, each once with its documentation. *)
Theorem C119_space_after_pipe :
  exists k, asks_after server_caps " " = Some k /\
  forall T b (st : lsp_files T) uri pos tr t ps p rest,
    asked T st uri pos (Some k) tr t ->
    let src := rope_content t in
    let tp := point_of pos in
    ends_before src ps (n_start (fst p)) -> reads src p -> (exists r, snd p = ("|" ++ r)%string) ->
    pt_lt (n_start (fst p)) tp -> pt_le tp (n_end (fst p)) ->
    concat (t_captures T QObjects tr src) = cap_pieces ps ++ cap CPipe (fst p) :: rest -> before_all tp rest ->
    exists ns, do_completion b uri pos (Some k) st = Ok (Some (map (fun n => RDoc n (DocFilter n)) ns)) /\
      NoDup ns /\ forall n, In n ns <-> In n filter_docs.
Proof.
  exists TkTriggerCharacter. split; [reflexivity|]. intros T b st uri pos tr t ps p rest HA src tp H1 H2 H3 H4 H5 H6 H7.
  destruct (C20_filters_on_pipe T b st uri pos _ tr t ps p rest HA H1 H2 H3 H4 H5 H6 (or_introl H7)) as (a & E).
  exact (proj1 (C101_documented_offered T b st uri pos _ a) E).
Qed.
Print Assumptions C119_space_after_pipe.
(** A space typed behind [is] in a statement: the tests. *)
Theorem C119_space_after_is :
  exists k, asks_after server_caps " " = Some k /\
  forall T b (st : lsp_files T) uri pos tr t ps kw rest,
    asked T st uri pos (Some k) tr t ->
    let src := rope_content t in
    let tp := point_of pos in
    ends_before src ps (n_start kw) -> pt_lt (n_start kw) (n_end kw) -> pt_le (n_end kw) tp ->
    concat (t_captures T QObjects tr src) = cap_pieces ps ++ cap CIs kw :: rest -> before_all tp rest ->
    outside ps tp -> row tp = row (n_end kw) ->
    exists ns, do_completion b uri pos (Some k) st = Ok (Some (map (fun n => RDoc n (DocTest n)) ns)) /\
      NoDup ns /\ forall n, In n ns <-> In n test_docs.
Proof.
  exists TkTriggerCharacter. split; [reflexivity|]. intros T b st uri pos tr t ps kw rest HA src tp H1 H2 H3 H4 H5 H6 H7.
  exact (proj2 (C101_documented_offered T b st uri pos _ _) (C20_tests_after_is T b st uri pos _ tr t ps kw rest HA H1 H2 H3 H4 H5 H6 H7)).
Qed.
Print Assumptions C119_space_after_is.
(** A bracket, percent sign, minus sign or space typed in the first incomplete
    statement: the snippets. *)
Theorem C119_statement_begun :
  forall a, In a ["{"; "%"; "-"; " "]%char -> exists k, asks_after server_caps a = Some k /\
  forall T b (st : lsp_files T) uri pos tr t cs1 n cs2,
    holds st uri tr t -> character pos + 1 < two32 ->
    concat (t_captures T QSnippets tr (rope_content t)) = cs1 ++ cap CErrorBlock n :: cs2 ->
    (forall c, In c cs1 -> c_name c <> CErrorBlock) -> on_node (point_of pos) n ->
    exists items, do_completion b uri pos (Some k) st = Ok (Some items) /\
      map (fun i => p_label (proposal_of i)) items = map (fun k => fst (fst k)) snippet_kinds.
Proof.
  intros a Ha. exists TkTriggerCharacter. split; [cbn in Ha; intuition subst; reflexivity|].
  intros T b st uri pos tr t cs1 n cs2 H1 H2 H3 H4 H5.
  destruct (C102_incomplete_partial T b st uri pos (Some TkTriggerCharacter) tr t cs1 n cs2 (or_intror eq_refl) H1 H2 H3 H4 H5) as (r & e & E).
  destruct (C98_snippets_offered T b st uri pos _ r e E) as (items & D & L & _). eauto.
Qed.
Print Assumptions C119_statement_begun.
(** Completions come up wherever there is something to offer: false.  After a pipe
    the server has all filters to offer, but the editor does not ask before
    something else is typed; the same holds after a single quote, with which
    Jinja's names may be quoted as well. *)
Theorem C119_pipe_refuted :
  exists ps src, rope_content (ascii_text src) = src /\ src = ("{{ x |" ++ "}}")%string /\
    forwarded (on_typing server_caps "|" 1 a_html (mkpos 0 6)) = [] /\
    forwarded (on_typing server_caps "'" 1 a_html (mkpos 0 6)) = [] /\
    exists ns, do_completion Debug a_html (mkpos 0 6) (Some TkInvoked) (holding ps src) = Ok (Some (map (fun n => RDoc n (DocFilter n)) ns)) /\ ns <> [].
Proof.
  exists [PExpr (ex 0 8); PChain (tk 3 4 "x") []; POp (tk 5 6 "|")], "{{ x |}}"%string.
  split; [reflexivity|]. split; [reflexivity|]. split; [reflexivity|]. split; [reflexivity|]. exists filter_names. split; [vm_compute; reflexivity|discriminate].
Qed.
Print Assumptions C119_pipe_refuted.

(** [{% include  %}] is open and the user types a quote, which the editor closes. *)
Definition c119_src : string := "{% include """" %}".
Definition c119_tree : stree :=
  (SN "source_file" (nn 1 0 16)
    [("", SN "statement" (nn 2 0 16) [on "statement_begin" 3 0 2; on "keyword" 4 3 10; on "string" 5 11 13; on "statement_end" 6 14 16])])%string.
Definition c119_tpl : tpl := TOther [] (nn 3 0 2) (nn 6 14 16) TNil.
Definition c119_ref : sref := (nn 5 11 13, EmptyString).
Definition c119_sts : list istmt := [SInclude (nn 2 0 16) (nn 4 3 10) [c119_ref]].
Lemma c119_conveys : conveys (fun _ _ _ => Some c119_tree) (ascii_text c119_src) c119_tree c119_tpl ([] ++ []) c119_sts.
Proof.
  constructor; [repeat constructor|intros old; reflexivity|whole| |placed_tree|cbn; repeat split; repeat constructor].
  change (encode (ascii_text c119_src)) with c119_src.
  constructor.
  - unfold root_kind. cbn. intuition discriminate.
  - unfold told_apart. vm_compute. repeat constructor; cbn; intuition discriminate.
  - vm_compute. repeat constructor; discriminate.
  - vm_compute. repeat constructor; discriminate.
  - cbn. repeat split; try discriminate; repeat constructor; try discriminate.
  - apply told_of. vm_compute. reflexivity.
  - split; [apply Forall_nil|exists (mkpt 0 1); split; [right; cbn; lia|]; vm_compute; intuition discriminate].
  - repeat constructor.
  - exact (spoken_of c119_src (preorder c119_tree)).
  - constructor; [split; [discriminate|constructor; [quoted_ref|constructor]]|constructor].
  - cbn [c119_tree s_children map snd].
    refine (LdStmt c119_src (nn 2 0 16) (nn 3 0 2) [on "keyword" 4 3 10; on "string" 5 11 13] (nn 6 14 16) "" "" _ (Some _) [] _ _ _);
      [now apply innerb_ok| |constructor].
    refine (LkInclude c119_src _ [] "" (nn 4 3 10) [] [on "string" 5 11 13] [c119_ref] _ _ _ _); [constructor|constructor|reflexivity|reflexivity].
Qed.
Definition c119_src0 : string := "{% include  %}".
Definition c119_edit : list change := [mkchange (Some (mkrange (mkpos 0 11) (mkpos 0 11))) (ascii_text """""")].
Definition c119_msgs : list msg := forwarded (LChange (c117_url "a.html") c119_edit :: on_typing server_caps dquote 8 (c117_url "a.html") (mkpos 0 12)).
Definition c119_open := script (T := always c119_tree) any_url Debug fs_empty true (sys0 (always c119_tree))
  [MDidChangeConfiguration (Some (cfg_dir "views")); MDidOpen (c117_url "b1.html") (ascii_text c117_src); MDidOpen (c117_url "a.html") (ascii_text c119_src0)].
Definition c119_asked := script (T := always c119_tree) any_url Debug fs_empty false (snd c119_open) c119_msgs.
Lemma c119_edited : easy_changes (ascii_text c119_src0) c119_edit (ascii_text c119_src).
Proof.
  apply easy_cons with (t1 := ascii_text c119_src); [|apply easy_nil]. exists 11%nat, 11%nat.
  assert (Hi : index_of (ascii_text c119_src0) (mkpos 0 11) 11) by (exists (ascii_text c119_src0), [], 11%nat; repeat split; cbn; lia).
  split; [exact Hi|]. split; [exact Hi|]. split; [lia|]. split; [reflexivity|]. split; [intros c []|].
  split; split; repeat constructor.
Qed.
Definition c119_told : list msg := firstn 7 (map fst (y_taken (snd c119_asked))).
Lemma c119_told_is : exists ids, c119_told =
  [MDidChangeConfiguration (Some (cfg_dir "views")); MInitialized; MCodeActions []; MDidOpen (c117_url "b1.html") (ascii_text c117_src);
   MCodeActions [(c117_url "b1.html", [])]; MDidOpen (c117_url "a.html") (ascii_text c119_src0); MCodeActions [(c117_url "a.html", ids)]].
Proof. exists [mkid (mkpt 0 11) (mkpt 0 13) " %" (0, mkpt 0 0) JinjaTemplate []]. vm_compute. reflexivity. Qed.
(** The edit and the request are taken; all templates are offered. *)
Example C119_example :
  exec any_url Debug (sys0 (always c119_tree)) (fst c119_open ++ fst c119_asked) = Some (snd c119_asked) /\
  c119_msgs = [MDidChange (c117_url "a.html") c119_edit; MCompletion 8 (c117_url "a.html") (mkpos 0 12) (Some TkTriggerCharacter)] /\
  map fst (y_taken (snd c119_asked)) = c119_told ++ c119_msgs /\
  editor_text (c117_url "a.html") (c119_told ++ [MDidChange (c117_url "a.html") c119_edit]) (ascii_text c119_src) /\
  conveys (fun _ _ _ => Some c119_tree) (ascii_text c119_src) c119_tree c119_tpl ([] ++ []) c119_sts /\
  In c119_ref (flat_map refs c119_sts) /\ in_quotes (mkpt 0 12) c119_ref /\ between (mkpt 0 12) [] [] /\ outside [] (mkpt 0 12) /\ plain_line c119_ref /\
  Forall (fun n => lies_below "views" (c117_url n) n) ["a.html"; "b1.html"]%string /\
  map (fun r => match snd r with RCompletion l => (fst r, map (fun i => p_label (proposal_of i)) l) | _ => (fst r, []) end) (y_replies (snd c119_asked)) =
    [(8, ["b1.html"; "a.html"]%string)].
Proof.
  split; [ran|]. split; [reflexivity|]. split; [vm_compute; reflexivity|].
  split.
  { destruct c119_told_is as (ids & ->). eapply et_change; [|exact c119_edited].
    apply (et_other _ [_; _; _; _; _; _]); [exact (et_open (c117_url "a.html") [_; _; _; _; _] _)|exact I]. }
  split; [exact c119_conveys|]. split; [now left|]. split; [split; before|]. split; [split; [before|split; [apply Forall_nil|exact I]]|].
  split; [intros n []|]. split; [split; [apply Forall_nil|reflexivity]|].
  split; [|vm_compute; reflexivity].
  repeat (apply Forall_cons; [|]); [| |apply Forall_nil].
  all: split; [discriminate|]; exists "file:///"%string; split; [reflexivity|]; intros a z H.
  all: do 8 (destruct a as [|? a]; [discriminate H|]; injection H as <- H); (destruct a as [|? a]; [reflexivity|]).
  all: exfalso; repeat (injection H as <- H; destruct a as [|? a]; [discriminate H|]); discriminate H.
Qed.
(** The other theorems: a space in [{{ i }}] in the session of C116, behind the
    pipe of [{{ x | }}], and [{% ] begun. *)
Definition c119_pipe : list piece := [PExpr (ex 0 10); PChain (tk 3 4 "x") []; POp (tk 5 7 "| ")].
Definition c119_space := script (T := c116_ts) any_url Debug fs_empty false (snd c116_rest)
  (forwarded (on_typing server_caps " " 9 a_html (mkpos 0 20))).
Example C119_others_example :
  exec any_url Debug (sys0 c116_ts) (c116_l2 ++ fst c119_space) = Some (snd c119_space) /\
  last_read a_html (map fst (y_taken (snd c116_rest))) (ascii_text c116_src) (ascii_text c116_src) /\
  map fst (y_taken (snd c119_space)) = map fst (y_taken (snd c116_rest)) ++ [MCompletion 9 a_html (mkpos 0 20) (Some TkTriggerCharacter)] /\
  between (mkpt 0 20) (firstn 3 c116_ps) (skipn 3 c116_ps) /\ SpecObjects.inside (firstn 3 c116_ps) (mkpt 0 20) /\
  map (fun r => match snd r with RCompletion l => map (fun i => p_label (proposal_of i)) l | _ => [] end) (y_replies (snd c119_space)) = [[]; []; ["i"%string]] /\
  asked (ts_fixed c119_pipe) (holding c119_pipe "{{ x |  }}") "file:///a.html" (mkpos 0 7) (Some TkTriggerCharacter) tt (ascii_text "{{ x |  }}") /\
  ends_before "{{ x |  }}" (firstn 2 c119_pipe) (mkpt 0 5) /\ reads "{{ x |  }}" (tk 5 7 "| ") /\
  do_completion Debug a_html (mkpos 0 7) (Some TkTriggerCharacter) (holding c119_pipe "{{ x |  }}") = Ok (Some (map (fun n => RDoc n (DocFilter n)) filter_names)) /\
  holds c102_st a_html tt (ascii_text "{% %}x{% %}") /\ on_node (point_of (mkpos 0 2)) (nd 0 5) /\
  concat (t_captures c102_ts QSnippets tt "{% %}x{% %}") = [] ++ cap CErrorBlock (nd 0 5) :: [cap CErrorBlock (nd 6 11)].
Proof.
  split; [ran|].
  split.
  { rewrite c116_taken2. exists ((((c116_before ++ [MDidChange a_html c116_edit]) ++ [MGoto 7 a_html (mkpos 0 21)]) ++ [MDocumentSymbol 8 a_html])), (MDidSave a_html), [MCodeActions [(a_html, [])]].
    split; [reflexivity|]. split; [reflexivity|].
    assert (E : editor_text a_html (((((c116_before ++ [MDidChange a_html c116_edit]) ++ [MGoto 7 a_html (mkpos 0 21)]) ++ [MDocumentSymbol 8 a_html])) ++ [MDidSave a_html]) (ascii_text c116_src))
      by (do 3 (apply et_other; [|exact I]); exact c116_text).
    split; [exact E|]. split; [repeat constructor|]. apply et_other; [exact E|exact I]. }
  split; [vm_compute; reflexivity|].
  split; [split; [before|split; [repeat (apply Forall_cons; [before|]); apply Forall_nil|before]]|].
  split; [exists [PChain (wt 5 9 10 "i") []; PChain (wt 7 14 15 "l") []], (xn 9 18 25), []; split; [reflexivity|]; split; [constructor|before]|].
  split; [vm_compute; reflexivity|].
  split; [split; [now right|]; do 3 (split; [reflexivity|]); now apply clean_nil|].
  split; [split; [repeat (apply Forall_cons; [piece_okay|]); apply Forall_nil|exists (mkpt 0 1); vm_compute; intuition discriminate]|].
  split; [split; vm_compute; intuition discriminate|]. split; [vm_compute; reflexivity|].
  split; [split; [reflexivity|split; reflexivity]|]. split; [split; vm_compute; intuition discriminate|]. vm_compute. reflexivity.
Qed.
