(** * PIndex9: the templates that are offered (C139). *)
From Verif Require Import Base RString Utf8 Rope Types Captures MTemplates MDefinition MObjects MLspFiles MSearchErrors MLspTask MChannels MQueries.
From Verif Require Import SpecText SpecFiles SpecBackend SpecScope SpecScope2 SpecObjects SpecObjects2 SpecLint SpecNav SpecConfig SpecChannels SpecServer SpecClient SpecQueries SpecQueries2 SpecQueries4 SpecQueries5 SpecQueries6 SpecScreen SpecCode SpecSettings SpecIndex SpecIndex2 SpecIndex3.
From Verif Require Import PUtf8 PText PText2 PFiles PNode PNav PNav2 POrder PObjects PLint PLint2 PLint3 PScope3 PConfig PBackend PQueries PQueries2 PQueries3 PQueries4 PQueries6 PQueries7 PQueries9 PQueries10 PQueries12 PChannels PChannels2 PChannels3 PChannels4 PChannels5 PNav3 PServer PClient PClient2 PQueries11 PScreen PCode PCode2 PCode3 PCode4 PHistory PIndex PIndex2 PIndex3 PIndex4 PIndex5 PIndex6 PIndex7 PIndex8.

Section Known.
Context {T : ts} (url : url_parser) (b : build).
Hypothesis Hpt : parse_total T.
Definition has (u : string) (d : lsp_files T) : Prop := exists tr, sget u (ls_tt d) = Some tr.
Lemma has_edits u l es : forall d : lsp_files T, has u (apply_edits u l es d) <-> has u d.
Proof.
  unfold apply_edits. induction es as [|e es IH]; intros d; [reflexivity|]. cbn [fold_left]. rewrite IH. unfold input_edit_tree.
  destruct l as [l|]; [|reflexivity]. destruct (sget u (trees_of l d)) as [tr|] eqn:E; [|reflexivity].
  unfold has. destruct (parse _ _ _ _) as [tr'|]; destruct l; cbn [set_trees trees_of ls_tt] in *; rewrite ?sget_sinsert_same, ?E; split; eauto.
Qed.
Lemma has_open F u t (d d' : lsp_files T) r : did_open F b u t false d = Ok (d', r) -> (has u d' <-> has u d \/ file_ext u = Some Template).
Proof.
  unfold did_open. destruct (file_ext u) as [l|]; [|intros H; inversion H; subst; intuition discriminate].
  match goal with |- context [add_tree u l (encode t) ?s] => set (s2 := s) end.
  assert (E2 : ls_tt s2 = ls_tt d) by (unfold s2, delete_variables; destruct (sget u (ls_vars d)); reflexivity). clearbody s2.
  destruct (add_variables u l (encode t) (add_tree u l (encode t) s2)) as [d3|] eqn:E; cbn [bind]; [|discriminate].
  apply add_variables_docs in E. destruct E as (_ & E & _). intros H.
  assert (d' = d3) by (destruct (read_tree F b u d3) as [[v|]|]; cbn [bind] in H; inversion H; reflexivity). subst d'.
  unfold has. rewrite E, <- E2. unfold add_tree. destruct (parse s2 l (encode t) _) as [tr|] eqn:Ep; [|elim (Hpt _ _ _ Ep)].
  destruct l; cbn [set_trees trees_of ls_tt]; [rewrite sget_sinsert_same; split; eauto|intuition discriminate].
Qed.
Lemma step_known F (s s' : task_state T) m es u : m <> MInitialized -> MLspTask.step F url b s m = Ok (s', es) ->
  (has u (tk_data s') <-> has u (tk_data s) \/ file_ext u = Some Template /\ exists t, m = MDidOpen u t).
Proof.
  intros Hm H. destruct m; cbn [MLspTask.step] in H; try (now elim Hm).
  - inversion H; subst. cbn. unfold has. destruct client as [n|]; [destruct (String.eqb n _)|]; split; auto; intros [A|(_ & t & A)]; auto; discriminate.
  - destruct (did_open F b uri t false (tk_data s)) as [(d & r)|] eqn:E; cbn [bind] in H; inversion H; subst. cbn [with_data tk_data fst].
    destruct (string_dec u uri) as [->|Hne].
    + rewrite (has_open _ _ _ _ _ _ E). split; [intros [A|A]; [now left|right; eauto]|intros [A|(A & _)]; auto].
    + destruct (did_open_frame F b _ _ _ _ _ _ E) as (Hf & _). destruct (Hf u Hne) as (_ & Ht & _). unfold has. rewrite Ht. split; [now left|]. intros [A|(_ & t' & A)]; [exact A|congruence].
  - destruct (did_change (tk_next s) uri cs (tk_data s)) as [(d & r)|] eqn:E; cbn [bind snd fst] in H; [|discriminate].
    assert (Hd : has u (tk_data s') <-> has u d) by (destruct r; inversion H; subst; reflexivity). rewrite Hd. clear H Hd.
    assert (Hc : has u d <-> has u (tk_data s)).
    { destruct (string_dec u uri) as [->|Hne].
      - unfold did_change in E. destruct (sget uri (ls_docs (tk_data s))) as [t|]; [|inversion E; reflexivity].
        destruct (apply_changes t cs) as [((t2 & early) & edits)|]; cbn [bind] in E; [|discriminate]. destruct early; inversion E; subst; [reflexivity|].
        exact (has_edits uri (file_ext uri) edits (set_docs (sinsert uri t2 (ls_docs (tk_data s))) (tk_data s))).
      - destruct (did_change_frame _ _ _ _ _ _ E) as (Hf & _). destruct (Hf u Hne) as (_ & Ht & _). unfold has. now rewrite Ht. }
    rewrite Hc. split; [now left|]. intros [A|(_ & t & A)]; [exact A|discriminate].
  - destruct (did_save F b uri (tk_data s)) as [(d & r)|] eqn:E; cbn [bind] in H; inversion H; subst. cbn [with_data tk_data fst]. unfold has. rewrite (did_save_tt b _ _ _ _ _ E).
    split; [now left|]. intros [A|(_ & t & A)]; [exact A|discriminate].
  - destruct (do_completion _ _ _ _ _); cbn [bind] in H; inversion H; subst; (split; [now left|]; intros [A|(_ & t & A)]; [exact A|discriminate]).
  - destruct (do_hover _ _ _ _); cbn [bind] in H; inversion H; subst; (split; [now left|]; intros [A|(_ & t & A)]; [exact A|discriminate]).
  - destruct (goto_definition _ _ _ _ _ _); cbn [bind] in H; inversion H; subst; (split; [now left|]; intros [A|(_ & t & A)]; [exact A|discriminate]).
  - destruct (code_action _ _ _ _) as [[a|]|]; cbn [bind] in H; [|inversion H; subst; (split; [now left|]; intros [A|(_ & t & A)]; [exact A|discriminate])|discriminate].
    destruct (process_code_actions _ _ _ _) as [p|]; cbn [bind] in H; [|discriminate]. destruct (snd p); inversion H; subst; (split; [now left|]; intros [A|(_ & t & A)]; [exact A|discriminate]).
  - destruct (String.eqb cmd _); inversion H; subst; (split; [now left|]; intros [A|(_ & t & A)]; [exact A|discriminate]).
  - inversion H; subst; (split; [now left|]; intros [A|(_ & t & A)]; [exact A|discriminate]).
  - inversion H; subst; (split; [now left|]; intros [A|(_ & t & A)]; [exact A|discriminate]).
  - inversion H; subst; (split; [now left|]; intros [A|(_ & t & A)]; [exact A|discriminate]).
Qed.
Lemma replay_known u : forall post (s s' : task_state T) tr, ~ In MInitialized (map fst post) -> replay url b s post = Ok (s', tr) ->
  (has u (tk_data s') <-> has u (tk_data s) \/ file_ext u = Some Template /\ exists t, In (MDidOpen u t) (map fst post)).
Proof.
  induction post as [|(m, F) post IH]; intros s s' tr Hno H; cbn [replay map] in *.
  { inversion H; subst. split; [now left|]. intros [A|(_ & t & [])]. exact A. }
  destruct (MLspTask.step F url b s m) as [(s1 & es)|] eqn:E; [|discriminate]. destruct (replay url b s1 post) as [(s2 & tr')|] eqn:E2; [|discriminate]. inversion H; subst.
  cbn [fst In] in *. rewrite (IH s1 s' tr' ltac:(tauto) E2), (step_known F s s1 m es u ltac:(intros ->; tauto) E). split.
  - intros [[A|(A & t & ->)]|(A & t & B)]; [now left|right; split; [exact A|exists t; now left]|right; split; [exact A|exists t; now right]].
  - intros [A|(A & t & [B|B])]; [left; now left|left; right; split; [exact A|exists t; exact B]|right; eauto].
Qed.
Lemma all_known a (s : task_state T) x F c since : replay url b (task0 T) a = Ok (s, x) -> indexed_before T url b a F c since -> usable F c ->
  forall u, In u (map fst (ls_tt (tk_data s))) <-> known_template F c since u.
Proof.
  intros Hr (pre & post & s0 & x0 & -> & -> & Hno & R0 & Hc) (Hl & Hw) u. rewrite sget_Some_In. change (exists v, sget u (ls_tt (tk_data s)) = Some v) with (has u (tk_data s)).
  destruct (replay_split url b _ _ _ _ _ Hr) as (s0' & x' & trB & R1 & R2 & _). rewrite R0 in R1. injection R1 as <- <-. cbn [replay] in R2.
  destruct (MLspTask.step F url b s0 MInitialized) as [(s1 & es)|] eqn:Es; [|discriminate]. destruct (replay url b s1 post) as [(s3 & trC)|] eqn:E3; [|discriminate]. injection R2 as <- <-.
  rewrite (replay_known u post s1 s3 trC Hno E3). cbn [MLspTask.step] in Es.
  destruct (do_initialized_cases F b s0 s1 es Hpt Es) as [(_ & _ & _ & _ & I & _)|([Hn|Hn] & _)]; rewrite Hc in *; [|now elim Hn|now elim Hn].
  unfold known_template, has. rewrite (ix_tree _ _ _ _ I Template u). reflexivity.
Qed.
End Known.

Section Offered.
Variables (parse : plang -> string -> option stree -> option stree) (edit : stree -> input_edit -> stree).
Notation T := (ts_with parse edit).
Variables (url : url_parser) (b : build).
Hypothesis Hpt : parse_total T.
Lemma before_set_up a F c since : indexed_before T url b a F c since -> set_up T url b a F c.
Proof. intros (pre & post & s & x & H1 & -> & H2 & H3 & H4). exists pre, post, s, x. auto. Qed.
Lemma offered_template : forall l (y : sys T) sy a F more rid F0 c since, exec url b (sys0 T) l = Some y -> y_task y = TIdle sy ->
  forall uri t tr tp ps1 ps2 sts i r pos ctx typed rest,
    file_ext uri = Some Template -> editor_text uri (map fst a) t -> conveys parse t tr tp (ps1 ++ ps2) sts ->
    y_taken y = a ++ (MCompletion rid uri pos ctx, F) :: more -> indexed_before T url b a F0 c since -> usable F0 c ->
    In i sts -> In r (refs i) -> in_quotes (point_of pos) r -> between (point_of pos) ps1 ps2 ->
    ctx = Some TkInvoked \/ ctx = Some TkTriggerCharacter -> outside ps1 (point_of pos) ->
    plain_line r -> snd r = (typed ++ rest)%string -> col (point_of pos) = col (n_start (fst r)) + 1 + slen typed ->
    exists s x n, replay url b (task0 T) a = Ok (s, x) /\ quoted_prefix typed (snd r) n /\
      let d := strip_dots (cf_templates c) in
      ((forall u, known_template F0 c since u -> sought n u -> exists label, lies_below d u label) ->
       exists us items, In (rid, RCompletion (map RItem items)) (y_replies y) /\
         (forall u, In u us <-> known_template F0 c since u /\ sought n u) /\ NoDup us /\
         Forall2 (template_for d (ls_vscode (tk_data s)) (lsp_range (n_start (fst r)) (n_end (fst r)))) us items).
Proof.
  intros l y sy a F more rid F0 c since He Hidle uri t tr tp ps1 ps2 sts i r pos ctx typed rest Hx Ht R Hy Hset Hus Hi Hr Hq Hb Hctx Hout Hl En Hcol.
  destruct (asked_offer url b Hpt l y sy a F more rid He Hidle uri t tr tp ps1 ps2 sts i r pos ctx typed rest Hx Ht R Hy Hi Hr Hq Hb Hctx Hout Hl En Hcol) as (s & x & n & Hrp & Hn & H).
  exists s, x, n. split; [exact Hrp|]. split; [exact Hn|]. cbv zeta in H. rewrite (settings_then parse edit url b Hpt a s x F0 c Hrp (before_set_up _ _ _ _ Hset) Hus) in H.
  pose proof (all_known url b Hpt a s x F0 c since Hrp Hset Hus) as K. intros d Hd. destruct H as (us & items & H1 & H2 & H3 & H4); [intros u Hu; apply Hd; now apply K|].
  exists us, items. split; [exact H1|]. split; [intros u; rewrite H2; now rewrite K|]. split; [|exact H4]. apply H3. exact (proj2 (keyed_reach url b _ _ _ Hrp)).
Qed.
Lemma offered_code : forall l (y : sys T) sy a F more rid F0 c since, exec url b (sys0 T) l = Some y -> y_task y = TIdle sy ->
  forall uri t pos ctx tr, file_ext uri = Some Backend -> editor_text uri (map fst a) t -> y_taken y = a ++ (MCompletion rid uri pos ctx, F) :: more ->
    indexed_before T url b a F0 c since -> usable F0 c ->
    let d := strip_dots (cf_templates c) in
    let lang := SpecConfig.lang_of c in
    let src := encode t in
    let cur := point_of pos in
    code_conveys parse lang t tr ->
    exists s x, replay url b (task0 T) a = Ok (s, x) /\
      (forall ar n typed rest, loading lang src tr ar n -> touches cur (loaded_ref src n) -> first_in_line lang src tr cur n ->
         ctx = Some TkInvoked \/ ctx = Some TkTriggerCharacter ->
         plain_line (loaded_ref src n) -> snd (loaded_ref src n) = (typed ++ rest)%string -> col cur = col (n_start n) + 1 + slen typed ->
         exists pre, quoted_prefix typed (snd (loaded_ref src n)) pre /\
           ((forall u, known_template F0 c since u -> sought pre u -> exists label, lies_below d u label) ->
            exists us items, In (rid, RCompletion (map RItem items)) (y_replies y) /\
              (forall u, In u us <-> known_template F0 c since u /\ sought pre u) /\ NoDup us /\
              Forall2 (template_for d (ls_vscode (tk_data s)) (lsp_range (n_start n) (n_end n))) us items)) /\
      ((forall ar n, loading lang src tr ar n -> ~ touches cur (loaded_ref src n)) -> In (rid, RNull) (y_replies y)).
Proof.
  intros l y sy a F more rid F0 c since He Hidle uri t pos ctx tr Hx Ht Hy Hset Hus d lang src cur R.
  destruct (asked_code_offer parse edit url b Hpt l y sy a F more rid He Hidle uri t pos ctx Hx Ht Hy) as (s & x & Hrp & H).
  exists s, x. split; [exact Hrp|]. cbv zeta in H. rewrite (settings_then parse edit url b Hpt a s x F0 c Hrp (before_set_up _ _ _ _ Hset) Hus) in H.
  pose proof (all_known url b Hpt a s x F0 c since Hrp Hset Hus) as K. destruct (H tr R) as (H1 & H2). split; [|exact H2].
  intros ar n typed rest A1 A2 A3 A4 A5 A6 A7. destruct (H1 ar n typed rest A1 A2 A3 A4 A5 A6 A7) as (pre & Hn & Ho). exists pre. split; [exact Hn|].
  intros Hd. destruct Ho as (us & items & B1 & B2 & B3 & B4); [intros u Hu; apply Hd; now apply K|].
  exists us, items. split; [exact B1|]. split; [intros u; rewrite B2; now rewrite K|]. split; [|exact B4]. apply B3. exact (proj2 (keyed_reach url b _ _ _ Hrp)).
Qed.
End Offered.
