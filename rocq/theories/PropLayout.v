(** * PropLayout: a template laid out differently or renamed (C123). *)
From Verif Require Import Base RString Utf8 Rope Types Captures MTemplates MDefinition MObjects MLspFiles MSearchErrors MLspTask MChannels MQueries.
From Verif Require Import SpecText SpecFiles SpecScope SpecScope2 SpecObjects SpecLint SpecNav SpecQueries SpecQueries2 SpecQueries4 SpecChannels SpecServer SpecClient SpecQueries5 SpecScreen SpecLayout.
From Verif Require Import PQueries7 PQueries11 PClient PScreen PLayout PropObjects PropLint PropFiles PropChannels PropQueries PropQueries2 PropQueries3 PropQueries4.

(** ** C123: diagnostics depend neither on the layout nor on the choice of names *)
(** Two templates are made of the same statements in the same order; one is laid
    out differently, and its names are replaced by others, different ones by
    different ones.  Opening either publishes the same reports, at the places
    they have moved to. *)
Theorem C123_opened :
  forall parse edit f g F F' b uri uri' t t' tr tr' tp tp' ps ps' sts sts' (s s' : lsp_files (ts_with parse edit)),
    keeps_order f -> renaming g -> file_ext uri = Some Template -> file_ext uri' = Some Template ->
    conveys parse t tr tp ps sts -> conveys parse t' tr' tp' ps' sts' -> ls_ignore s = false -> ls_ignore s' = false ->
    tpl_like f g tp tp' -> uses_like f g ps ps' -> refs_like f sts sts' -> n_end (s_node tr') = f (n_end (s_node tr)) ->
    found_alike F F' (cf_templates (ls_config s)) (cf_templates (ls_config s')) sts ->
    exists s1 e s1' e', did_open F b uri t false s = Ok (s1, Some [(uri, e)]) /\ did_open F' b uri' t' false s' = Ok (s1', Some [(uri', e')]) /\
      (known_alike g (ls_vars s1) (ls_vars s1') ps -> Forall2 (report_like f) e e').
Proof. exact layout_opened. Qed.
Print Assumptions C123_opened.
(** The same of what is on the screen, for all executions. *)
Theorem C123_screen :
  forall parse edit f g url b l l' (y y' : sys (ts_with parse edit)) s s' uri uri' v v' t t' tr tr' tp tp' ps ps' sts sts',
    parse_total (ts_with parse edit) -> keeps_order f -> renaming g ->
    exec url b (sys0 (ts_with parse edit)) l = Some y -> at_rest y -> state_of y s -> file_ext uri = Some Template ->
    just_read uri (map fst (y_taken y)) t -> conveys parse t tr tp ps sts ->
    ls_ignore (tk_data s) = false -> url uri = Some v -> (forall u, url u = Some v -> u = uri) ->
    exec url b (sys0 (ts_with parse edit)) l' = Some y' -> at_rest y' -> state_of y' s' -> file_ext uri' = Some Template ->
    just_read uri' (map fst (y_taken y')) t' -> conveys parse t' tr' tp' ps' sts' ->
    ls_ignore (tk_data s') = false -> url uri' = Some v' -> (forall u, url u = Some v' -> u = uri') ->
    tpl_like f g tp tp' -> uses_like f g ps ps' -> refs_like f sts sts' -> n_end (s_node tr') = f (n_end (s_node tr)) ->
    exists F s1 e F' s1' e', last_reading url b y uri F s1 /\ last_reading url b y' uri' F' s1' /\
      last_published v (y_published y) = Some (publish_of e) /\ last_published v' (y_published y') = Some (publish_of e') /\
      (known_alike g (ls_vars (tk_data s1)) (ls_vars (tk_data s1')) ps ->
       found_alike F F' (cf_templates (ls_config (tk_data s))) (cf_templates (ls_config (tk_data s'))) sts ->
       Forall2 (report_like f) e e').
Proof. exact layout_screen. Qed.
Print Assumptions C123_screen.
(** Goto, asked on corresponding uses of a name, answers with corresponding places. *)
Theorem C123_goto :
  forall parse edit f g url b l l' (y y' : sys (ts_with parse edit)) sy sy' a a' F F' c c' rid rid' uri uri' t t' tr tr' tp tp' ps ps' sts sts' h h' fs fs' pos pos',
    parse_total (ts_with parse edit) -> keeps_order f -> renaming g ->
    exec url b (sys0 (ts_with parse edit)) l = Some y -> y_task y = TIdle sy -> file_ext uri = Some Template ->
    y_taken y = a ++ (MGoto rid uri pos, F) :: c -> just_read uri (map fst a) t -> conveys parse t tr tp ps sts ->
    In (h, fs) (chains ps) -> cursor_on tr (point_of pos) (fst h) ->
    exec url b (sys0 (ts_with parse edit)) l' = Some y' -> y_task y' = TIdle sy' -> file_ext uri' = Some Template ->
    y_taken y' = a' ++ (MGoto rid' uri' pos', F') :: c' -> just_read uri' (map fst a') t' -> conveys parse t' tr' tp' ps' sts' ->
    In (h', fs') (chains ps') -> cursor_on tr' (point_of pos') (fst h') ->
    tpl_like f g tp tp' -> n_end (s_node tr') = f (n_end (s_node tr)) -> word_like f g h h' ->
    (exists d, In d (defines tr tp) /\ goto_sees (point_of pos) (snd h) d) ->
    exists p q, In (rid, RGoto (GScalar (mkloc uri (lsp_range p q)))) (y_replies y) /\
      In (rid', RGoto (GScalar (mkloc uri' (lsp_range (f p) (f q))))) (y_replies y').
Proof. exact layout_goto. Qed.
Print Assumptions C123_goto.

(** A loop on one line; then every tag on a line of its own below an empty line, and
    the loop variable [i] called [k]. *)
Definition c123_src : string := c116_src0.
Definition c123_src' : string := "
{% for k in l %}
{{ k }}
{% endfor %}"%string.
(** A node on line [r], which begins at byte [o]. *)
Definition rn (i r o a z : N) : node :=
  mknode i (o + a) (o + z) (mkpt r a) (mkpt r z) (mkpt r a, mkpt r z) (mkpt r a, mkpt r z) None.
Definition rx (i r o a z : N) : node :=
  mknode i (o + a) (o + z) (mkpt r a) (mkpt r z) (mkpt r a, mkpt r (a + 2)) (mkpt r (z - 2), mkpt r z) None.
Definition ron (k : string) (i r o a z : N) : string * stree := (EmptyString, SN k (rn i r o a z) []).
Definition c123_tree' : stree :=
 (SN "source_file" (mknode 1 0 38 (mkpt 0 0) (mkpt 3 12) (mkpt 1 0, mkpt 1 16) (mkpt 3 0, mkpt 3 12) None)
  [("", SN "statement" (rn 2 1 1 0 16) [ron "statement_begin" 3 1 1 0 2; ron "keyword" 4 1 1 3 6; ron "identifier" 5 1 1 7 8; ron "keyword" 6 1 1 9 11; ron "identifier" 7 1 1 12 13; ron "statement_end" 8 1 1 14 16]);
   ("", SN "expression" (rx 9 2 18 0 7) [ron "expression_begin" 10 2 18 0 2; ron "identifier" 11 2 18 3 4; ron "expression_end" 12 2 18 5 7]);
   ("", SN "statement" (rn 13 3 26 0 12) [ron "statement_begin" 14 3 26 0 2; ron "keyword" 15 3 26 3 9; ron "statement_end" 16 3 26 10 12])])%string.
Definition c123_tpl' : tpl :=
  TBlock (HFor (rn 4 1 1 3 6) (rn 5 1 1 7 8, "k"%string) [] [NId (rn 7 1 1 12 13, "l"%string)]) (rn 3 1 1 0 2) (rn 8 1 1 14 16)
    (TExpr [NId (rn 11 2 18 3 4, "k"%string)] TNil) (mkend (rn 15 3 26 3 9) [] (rn 14 3 26 0 2) (rn 16 3 26 10 12)) TNil.
Definition c123_ps' : list piece :=
  [PChain (rn 5 1 1 7 8, "k"%string) []; PChain (rn 7 1 1 12 13, "l"%string) []; PExpr (rx 9 2 18 0 7); PChain (rn 11 2 18 3 4, "k"%string) []].
Definition c123_parse (l : plang) (c : string) (old : option stree) : option stree :=
  Some (if String.eqb c c123_src' then c123_tree' else c116_tree0).
Definition c123_ts : ts := ts_with c123_parse (fun t _ => t).
Definition c123_f (p : point) : point :=
  if row p =? 0 then (if col p <? 16 then mkpt 1 (col p) else if col p <? 23 then mkpt 2 (col p - 16) else mkpt 3 (col p - 23)) else mkpt (row p + 3) (col p).
Definition c123_g (n : string) : string := if String.eqb n "i" then "k"%string else if String.eqb n "k" then "i"%string else n.
Lemma c123_order : keeps_order c123_f.
Proof.
  intros [r c] [r' c'] H. unfold pt_lt, c123_f in *. cbn [row col] in *.
  destruct (r =? 0) eqn:E1; destruct (r' =? 0) eqn:E2; [| | |]; try (destruct (c <? 16) eqn:E3; [|destruct (c <? 23) eqn:E4]);
    try (destruct (c' <? 16) eqn:E5; [|destruct (c' <? 23) eqn:E6]); cbn [row col];
    rewrite ?N.eqb_eq, ?N.eqb_neq, ?N.ltb_lt, ?N.ltb_ge in *; lia.
Qed.
Lemma c123_renames : renaming c123_g.
Proof.
  intros a b. unfold c123_g. destruct (String.eqb_spec a "i"), (String.eqb_spec a "k"), (String.eqb_spec b "i"), (String.eqb_spec b "k"); congruence.
Qed.
Lemma c123_conveys : conveys c123_parse (ascii_text c123_src) c116_tree0 c116_tpl0 c116_ps0 [].
Proof. destruct c116_conveys0. constructor; auto. Qed.
Lemma c123_conveys' : conveys c123_parse (ascii_text c123_src') c123_tree' c123_tpl' c123_ps' [].
Proof.
  constructor; [repeat constructor|intros old; reflexivity|whole| |placed_tree|cbn; repeat split; repeat constructor].
  change (encode (ascii_text c123_src')) with c123_src'.
  c116_depicts c123_src' c123_tree' 0 0 [ron "keyword" 4 1 1 3 6; ron "identifier" 5 1 1 7 8; ron "keyword" 6 1 1 9 11; ron "identifier" 7 1 1 12 13] [ron "keyword" 15 3 26 3 9].
Qed.
Definition c123_open := script (T := c123_ts) any_url Debug fs_empty true (sys0 c123_ts)
  [MDidChangeConfiguration (Some cfg_rust); MDidOpen a_html (ascii_text c123_src); MDidOpen b_html (ascii_text c123_src')].
Definition c123_asked := script (T := c123_ts) any_url Debug fs_empty false (snd c123_open) [MGoto 7 a_html (mkpos 0 20); MGoto 8 b_html (mkpos 2 3)].
Definition c123_s : task_state c123_ts := idle_state (snd c123_open).
Definition c123_l : list action := fst c123_open.
Definition c123_told : list msg :=
  [MDidChangeConfiguration (Some cfg_rust); MInitialized; MCodeActions []; MDidOpen a_html (ascii_text c123_src); MCodeActions [(a_html, [])];
   MDidOpen b_html (ascii_text c123_src'); MCodeActions [(b_html, [])]].
Lemma c123_taken : map fst (y_taken (snd c123_open)) = c123_told.
Proof. vm_compute. reflexivity. Qed.
Lemma c123_read : just_read a_html c123_told (ascii_text c123_src) /\ just_read b_html c123_told (ascii_text c123_src').
Proof.
  split.
  - exists (firstn 3 c123_told), (MDidOpen a_html (ascii_text c123_src)), (skipn 4 c123_told). split; [reflexivity|]. split; [reflexivity|]. split; [apply et_open|].
    constructor; [exact I|]. constructor; [intros H; discriminate H|]. constructor; [exact I|constructor].
  - exists (firstn 5 c123_told), (MDidOpen b_html (ascii_text c123_src')), (skipn 6 c123_told). split; [reflexivity|]. split; [reflexivity|]. split; [apply et_open|].
    constructor; [exact I|constructor].
Qed.
Example C123_example :
  keeps_order c123_f /\ renaming c123_g /\
  exec any_url Debug (sys0 c123_ts) c123_l = Some (snd c123_open) /\ at_rest (snd c123_open) /\ state_of (snd c123_open) c123_s /\
  ls_ignore (tk_data c123_s) = false /\
  just_read a_html (map fst (y_taken (snd c123_open))) (ascii_text c123_src) /\ just_read b_html (map fst (y_taken (snd c123_open))) (ascii_text c123_src') /\
  conveys c123_parse (ascii_text c123_src) c116_tree0 c116_tpl0 c116_ps0 [] /\ conveys c123_parse (ascii_text c123_src') c123_tree' c123_tpl' c123_ps' [] /\
  tpl_like c123_f c123_g c116_tpl0 c123_tpl' /\ uses_like c123_f c123_g c116_ps0 c123_ps' /\ refs_like c123_f [] [] /\
  n_end (s_node c123_tree') = c123_f (n_end (s_node c116_tree0)) /\
  known_alike c123_g [(a_html, [mkid (mkpt 0 7) (mkpt 0 8) "i" (1, mkpt 0 23) ForLoopKey []])]
    [(a_html, [mkid (mkpt 0 7) (mkpt 0 8) "i" (1, mkpt 0 23) ForLoopKey []]); (b_html, [mkid (mkpt 1 7) (mkpt 1 8) "k" (1, mkpt 3 0) ForLoopKey []])] c116_ps0 /\
  map (fun x => (fst x, map dg_range (snd x))) (y_published (snd c123_open)) =
    [(a_html, [lsp_range (mkpt 0 12) (mkpt 0 13)]); (b_html, [lsp_range (c123_f (mkpt 0 12)) (c123_f (mkpt 0 13))])] /\
  exec any_url Debug (sys0 c123_ts) (c123_l ++ fst c123_asked) = Some (snd c123_asked) /\
  cursor_on c116_tree0 (mkpt 0 20) (nn 11 19 20) /\ cursor_on c123_tree' (mkpt 2 3) (rn 11 2 18 3 4) /\
  word_like c123_f c123_g (wt 11 19 20 "i") (rn 11 2 18 3 4, "k"%string) /\
  y_replies (snd c123_asked) =
    [(7, RGoto (GScalar (mkloc a_html (lsp_range (mkpt 0 7) (mkpt 0 8))))); (8, RGoto (GScalar (mkloc b_html (lsp_range (c123_f (mkpt 0 7)) (c123_f (mkpt 0 8))))))].
Proof.
  split; [exact c123_order|]. split; [exact c123_renames|]. split; [ran|]. split; [split; [exists c123_s; ran|conj; vm_compute; reflexivity]|].
  split; [left; ran|]. split; [vm_compute; reflexivity|]. rewrite c123_taken. split; [exact (proj1 c123_read)|]. split; [exact (proj2 c123_read)|].
  split; [exact c123_conveys|]. split; [exact c123_conveys'|].
  split. { constructor; [constructor; [repeat split|constructor|repeat constructor]|repeat constructor|reflexivity|constructor]. }
  split; [repeat constructor|]. split; [constructor|]. split; [reflexivity|].
  split.
  { intros u [<-|[<-|[<-|[]]]]; cbn [fst snd wt]; split; intros (file & vs & v & H1 & H2 & H3).
    - exists b_html, [mkid (mkpt 1 7) (mkpt 1 8) "k" (1, mkpt 3 0) ForLoopKey []], (mkid (mkpt 1 7) (mkpt 1 8) "k" (1, mkpt 3 0) ForLoopKey []). split; [right; now left|]. split; [now left|reflexivity].
    - exists a_html, [mkid (mkpt 0 7) (mkpt 0 8) "i" (1, mkpt 0 23) ForLoopKey []], (mkid (mkpt 0 7) (mkpt 0 8) "i" (1, mkpt 0 23) ForLoopKey []). split; [now left|]. split; [now left|reflexivity].
    - exfalso. destruct H1 as [H1|[]]. injection H1 as <- <-. destruct H2 as [<-|[]]. discriminate H3.
    - exfalso. destruct H1 as [H1|[H1|[]]]; injection H1 as <- <-; destruct H2 as [<-|[]]; discriminate H3.
    - exists b_html, [mkid (mkpt 1 7) (mkpt 1 8) "k" (1, mkpt 3 0) ForLoopKey []], (mkid (mkpt 1 7) (mkpt 1 8) "k" (1, mkpt 3 0) ForLoopKey []). split; [right; now left|]. split; [now left|reflexivity].
    - exists a_html, [mkid (mkpt 0 7) (mkpt 0 8) "i" (1, mkpt 0 23) ForLoopKey []], (mkid (mkpt 0 7) (mkpt 0 8) "i" (1, mkpt 0 23) ForLoopKey []). split; [now left|]. split; [now left|reflexivity]. }
  split; [vm_compute; reflexivity|]. split; [ran|].
  split; [split; [split; before|repeat (apply Forall_cons; [aside ltac:(vm_compute; discriminate)|]); apply Forall_nil]|].
  split; [split; [split; before|repeat (apply Forall_cons; [aside ltac:(vm_compute; discriminate)|]); apply Forall_nil]|].
  split; [repeat split|]. vm_compute. reflexivity.
Qed.
