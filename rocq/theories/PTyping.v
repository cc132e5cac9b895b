(** * PTyping: lemmas about completions that come up while typing (for C119). *)
From Coq Require Import Ascii.
From Verif Require Import Base RString Utf8 Rope Types Captures.
From Verif Require Import MDefinition MObjects MTemplates MSearchErrors MLspFiles MLspTask MChannels MQueries MBackend.
From Verif Require Import SpecText SpecFiles SpecScope SpecScope2 SpecObjects SpecObjects2 SpecLint SpecNav SpecQueries SpecQueries2 SpecQueries4 SpecChannels SpecServer SpecClient SpecQueries5 SpecQueries6 SpecTyping.
From Verif Require Import PQueries11 PQueries12.

Lemma asks_exactly a : asks_after server_caps a <> None <-> word_char a = true \/ In a ["-"; dquote; " "; "%"; "{"]%char.
Proof.
  destruct a as [b0 b1 b2 b3 b4 b5 b6 b7].
  destruct b0, b1, b2, b3, b4, b5, b6, b7; vm_compute; split; intros H; try (now left); try discriminate;
    try (now (exfalso; apply H; reflexivity)); try (right; tauto);
    destruct H as [H|H]; try discriminate H; repeat (destruct H as [H|H]; [discriminate H|]); destruct H.
Qed.
Lemma asks_kind c a k : asks_after c a = Some k -> Some k = Some TkInvoked \/ Some k = Some TkTriggerCharacter.
Proof. unfold asks_after. destruct (existsb _ _); [intros [= <-]; now right|]. destruct (word_char a); [intros [= <-]; now left|discriminate]. Qed.
Lemma kind_ignored T b uri pos (s : lsp_files T) a k : asks_after server_caps a = Some k ->
  do_completion b uri pos (Some k) s = do_completion b uri pos (Some TkInvoked) s.
Proof. intros H. destruct (asks_kind _ _ _ H) as [E|E]; injection E as ->; reflexivity. Qed.
Lemma quote_typed rid uri pos : exists m, forwarded (on_typing server_caps dquote rid uri pos) = [m] /\
  forall parse edit url b, parse_total (ts_with parse edit) ->
  forall l (y : sys (ts_with parse edit)) sy a F c, exec url b (sys0 (ts_with parse edit)) l = Some y -> y_task y = TIdle sy ->
  forall t tr tp ps1 ps2 sts i r,
    file_ext uri = Some Template -> editor_text uri (map fst a) t -> conveys parse t tr tp (ps1 ++ ps2) sts ->
    y_taken y = a ++ (m, F) :: c ->
    In i sts -> In r (refs i) -> in_quotes (point_of pos) r -> between (point_of pos) ps1 ps2 ->
    outside ps1 (point_of pos) -> plain_line r -> col (point_of pos) = col (n_start (fst r)) + 1 ->
    exists s x, replay url b (task0 (ts_with parse edit)) a = Ok (s, x) /\
      let d := strip_dots (cf_templates (ls_config (tk_data s))) in
      ((forall u, In u (map fst (ls_tt (tk_data s))) -> sought (snd r) u -> exists label, lies_below d u label) ->
       exists us items, In (rid, RCompletion (map RItem items)) (y_replies y) /\
         (forall u, In u us <-> In u (map fst (ls_tt (tk_data s))) /\ sought (snd r) u) /\
         (NoDup (map fst (ls_tt (tk_data s))) -> NoDup us) /\
         Forall2 (template_for d (ls_vscode (tk_data s)) (lsp_range (n_start (fst r)) (n_end (fst r)))) us items).
Proof.
  exists (MCompletion rid uri pos (Some TkTriggerCharacter)). split; [reflexivity|].
  intros parse edit url b Hp l y sy a F c He Hi t tr tp ps1 ps2 sts i r Hx Ht R Hy H1 H2 H3 H4 H5 H6 H7.
  destruct (@asked_offer parse edit url b Hp l y sy a F c rid He Hi uri t tr tp ps1 ps2 sts i r pos (Some TkTriggerCharacter) EmptyString (snd r) Hx Ht R Hy H1 H2 H3 H4
    (or_intror eq_refl) H5 H6 eq_refl ltac:(rewrite H7; symmetry; apply N.add_0_r)) as (s & x & n & Hr & Hn & H).
  exists s, x. split; [exact Hr|]. assert (E : n = snd r) by (destruct Hn as [[_ E]|(k & E & Hk)]; [exact E|destruct n; [now elim Hk|discriminate E]]).
  subst n. exact H.
Qed.
Lemma space_typed rid uri pos : exists m, forwarded (on_typing server_caps " " rid uri pos) = [m] /\
  forall parse edit url b, parse_total (ts_with parse edit) ->
  forall l (y : sys (ts_with parse edit)) sy a F c, exec url b (sys0 (ts_with parse edit)) l = Some y -> y_task y = TIdle sy ->
  forall t0 tr0 tp0 ps0 sts0 t tr tp ps1 ps2 sts,
    file_ext uri = Some Template -> last_read uri (map fst a) t0 t ->
    conveys parse t0 tr0 tp0 ps0 sts0 -> conveys parse t tr tp (ps1 ++ ps2) sts ->
    y_taken y = a ++ (m, F) :: c -> between (point_of pos) ps1 ps2 -> SpecObjects.inside ps1 (point_of pos) ->
    exists s x items, replay url b (task0 (ts_with parse edit)) a = Ok (s, x) /\
      variables_offered (tk_data s) uri (defines tr0 tp0) (point_of pos) EmptyString range0 items /\
      In (rid, RCompletion (map RItem items)) (y_replies y).
Proof.
  exists (MCompletion rid uri pos (Some TkTriggerCharacter)). split; [reflexivity|].
  intros parse edit url b Hp l y sy a F c He Hi t0 tr0 tp0 ps0 sts0 t tr tp ps1 ps2 sts Hx Hl R0 R Hy Hb Hin.
  exact (@asked_complete parse edit url b Hp l y sy a F c rid He Hi uri t0 tr0 tp0 ps0 sts0 t tr tp (ps1 ++ ps2) sts Hx Hl R0 R pos _ ps1 ps2 Hy eq_refl (or_intror eq_refl) Hb Hin).
Qed.
