(** * PCode2: Rust and Python code in a session (C124). *)
From Verif Require Import Base RString Utf8 Rope Types Captures MTemplates MObjects MSearchErrors MLspFiles MLspTask MChannels MQueries.
From Verif Require Import SpecText SpecFiles SpecBackend SpecObjects SpecLint SpecNav SpecConfig SpecChannels SpecServer SpecClient SpecQueries SpecQueries2 SpecQueries4 SpecQueries5 SpecQueries6 SpecScreen SpecCode.
From Verif Require Import PUtf8 PText PText2 PFiles PLint PLint2 PLint3 PNode PNode2 PObjects PNav PNav2 PNav3 PConfig PBackend PQueries PQueries2 PQueries3 PQueries4 PQueries7 PQueries9 PChannels PChannels2 PChannels3 PServer PClient PClient2 PQueries11 PCode.

(** ** The language of backend files *)
Section Lang.
Context {T : ts} (url : url_parser) (b : build).
Implicit Types s : task_state T.
Definition langs (d : lsp_files T) : plang * plang * config := (ls_query d, ls_parser d, ls_config d).
Definition spoken_as (d : lsp_files T) : Prop := ls_query d = SpecConfig.lang_of (ls_config d) /\ ls_parser d = SpecConfig.lang_of (ls_config d).
Lemma frame_langs uri (d d' : lsp_files T) : same_elsewhere uri d d' -> langs d' = langs d.
Proof. intros (_ & E1 & E2 & E3 & _). unfold langs. now rewrite E1, E2, E3. Qed.
Lemma langs_spoken (d d' : lsp_files T) : langs d' = langs d -> spoken_as d -> spoken_as d'.
Proof. unfold langs, spoken_as. intros E. inversion E as [[E1 E2 E3]]. now rewrite E1, E2, E3. Qed.
Lemma step_langs F s s' m es : m <> MInitialized -> MLspTask.step F url b s m = Ok (s', es) -> langs (tk_data s') = langs (tk_data s).
Proof.
  intros Hm H. destruct m; cbn [MLspTask.step] in *.
  - inversion H; subst. cbn. destruct client as [n|]; [|reflexivity]. destruct (String.eqb n _); reflexivity.
  - now elim Hm.
  - destruct (did_open F b uri t false (tk_data s)) as [(d & r)|] eqn:E; cbn [bind] in H; inversion H; subst. cbn. eapply frame_langs, did_open_frame, E.
  - destruct (did_change (tk_next s) uri cs (tk_data s)) as [(d & r)|] eqn:E; cbn [bind snd fst] in H; [|discriminate].
    apply did_change_frame, frame_langs in E. destruct r; inversion H; subst; exact E.
  - destruct (did_save F b uri (tk_data s)) as [(d & r)|] eqn:E; cbn [bind] in H; inversion H; subst. cbn. eapply frame_langs, did_save_frame, E.
  - destruct (do_completion _ _ _ _ _); cbn [bind] in H; inversion H; subst; reflexivity.
  - destruct (do_hover _ _ _ _); cbn [bind] in H; inversion H; subst; reflexivity.
  - destruct (goto_definition _ _ _ _ _ _); cbn [bind] in H; inversion H; subst; reflexivity.
  - destruct (code_action _ _ _ _) as [[a|]|]; cbn [bind] in H; [|inversion H; subst; reflexivity|discriminate].
    destruct (process_code_actions _ _ _ _) as [p|]; cbn [bind] in H; [|discriminate]. destruct (snd p); inversion H; subst; reflexivity.
  - destruct (String.eqb cmd _); inversion H; subst; reflexivity.
  - inversion H; subst; reflexivity.
  - inversion H; subst; reflexivity.
  - inversion H; subst; reflexivity.
Qed.
Lemma step_spoken F s s' m es : parse_total T -> spoken_as (tk_data s) -> MLspTask.step F url b s m = Ok (s', es) -> spoken_as (tk_data s').
Proof.
  intros Hp Hs H. assert (D : {m = MInitialized} + {m <> MInitialized}) by (destruct m; ((left; reflexivity) || (right; discriminate))).
  destruct D as [->|D]; [|eapply langs_spoken; [eapply step_langs; eauto|exact Hs]]. cbn [MLspTask.step] in H.
  destruct (do_initialized_cases F b s s' es Hp H) as [(_ & _ & _ & _ & _ & E1 & E2 & E3 & _)|(_ & -> & _)]; [|exact Hs]. unfold spoken_as. now rewrite E1, E2, E3.
Qed.
Lemma replay_spoken : parse_total T -> forall l s s' tr, spoken_as (tk_data s) -> replay url b s l = Ok (s', tr) -> spoken_as (tk_data s').
Proof.
  intros Hp. induction l as [|(m, F) l IH]; intros s s' tr Hq H; cbn [replay] in *; [inversion H; subst; exact Hq|].
  destruct (MLspTask.step F url b s m) as [(s1 & es)|] eqn:E; [|discriminate].
  destruct (replay url b s1 l) as [(s2 & tr')|] eqn:E2; [|discriminate]. inversion H; subst. eapply IH; [|exact E2]. eapply step_spoken; eauto.
Qed.
Lemma task0_spoken : spoken_as (tk_data (task0 T)).
Proof. split; reflexivity. Qed.

(** ** The tree of a backend file *)
Lemma add_variables_bt uri l src (d d' : lsp_files T) : add_variables uri l src d = Ok d' -> ls_bt d' = ls_bt d.
Proof. intros H. apply add_variables_docs in H. destruct H as (_ & _ & H & _). exact H. Qed.
Lemma did_save_bt F uri (d d' : lsp_files T) r : did_save F b uri d = Ok (d', r) -> ls_bt d' = ls_bt d.
Proof.
  unfold did_save. destruct (file_ext uri) as [l|]; [|intros H; inversion H; reflexivity].
  destruct (sget uri (ls_docs d)) as [t|]; [|intros H; inversion H; reflexivity].
  destruct (add_variables uri l (rope_content t) (delete_variables uri d)) as [d1|] eqn:E; cbn [bind]; [|discriminate].
  destruct (read_tree F b uri d1); cbn [bind]; [|discriminate]. intros H. inversion H; subst.
  rewrite (add_variables_bt _ _ _ _ _ E). unfold delete_variables. destruct (sget uri (ls_vars d)); reflexivity.
Qed.
Lemma step_bt F uri s s' m es : untouched uri m -> MLspTask.step F url b s m = Ok (s', es) ->
  sget uri (ls_bt (tk_data s')) = sget uri (ls_bt (tk_data s)).
Proof.
  intros Hm H. destruct m; cbn [MLspTask.step untouched] in *.
  - inversion H; subst. cbn. destruct client as [n|]; [|reflexivity]. destruct (String.eqb n _); reflexivity.
  - destruct Hm.
  - destruct (did_open F b uri0 t false (tk_data s)) as [(d & r)|] eqn:E; cbn [bind] in H; inversion H; subst. cbn.
    destruct (did_open_frame _ _ _ _ _ _ _ _ E) as (Hs & _). destruct (Hs uri (not_eq_sym Hm)) as (_ & _ & Hd & _). now rewrite Hd.
  - destruct (did_change (tk_next s) uri0 cs (tk_data s)) as [(d & r)|] eqn:E; cbn [bind snd fst] in H; [|discriminate].
    destruct (did_change_frame _ _ _ _ _ _ E) as (Hs & _). destruct (Hs uri (not_eq_sym Hm)) as (_ & _ & Hd & _).
    destruct r; inversion H; subst; cbn; now rewrite Hd.
  - destruct (did_save F b uri0 (tk_data s)) as [(d & r)|] eqn:E; cbn [bind] in H; inversion H; subst. cbn.
    now rewrite (did_save_bt _ _ _ _ _ E).
  - destruct (do_completion _ _ _ _ _); cbn [bind] in H; inversion H; subst; reflexivity.
  - destruct (do_hover _ _ _ _); cbn [bind] in H; inversion H; subst; reflexivity.
  - destruct (goto_definition _ _ _ _ _ _); cbn [bind] in H; inversion H; subst; reflexivity.
  - destruct (code_action _ _ _ _) as [[a|]|]; cbn [bind] in H; [|inversion H; subst; reflexivity|discriminate].
    destruct (process_code_actions _ _ _ _) as [p|]; cbn [bind] in H; [|discriminate]. destruct (snd p); inversion H; subst; reflexivity.
  - destruct (String.eqb cmd _); inversion H; subst; reflexivity.
  - inversion H; subst; reflexivity.
  - inversion H; subst; reflexivity.
  - inversion H; subst; reflexivity.
Qed.
Definition has_code (uri : string) (t : text) (d : lsp_files T) : Prop :=
  exists tr, sget uri (ls_bt d) = Some tr /\ (scalars t -> exists old, t_parse T (ls_parser d) (encode t) old = Some tr).
Lemma step_change_code F uri cs t t' s s' es : parse_total T -> file_ext uri = Some Backend ->
  sget uri (ls_docs (tk_data s)) = Some t -> has_code uri t (tk_data s) -> easy_changes t cs t' ->
  MLspTask.step F url b s (MDidChange uri cs) = Ok (s', es) -> sget uri (ls_docs (tk_data s')) = Some t' -> has_code uri t' (tk_data s').
Proof.
  intros Hp Hx Hd (tr0 & Ht0 & Hpar) Hc H Hd'.
  assert (El : ls_parser (tk_data s') = ls_parser (tk_data s)) by (apply step_langs in H; [unfold langs in H; congruence|discriminate]).
  unfold has_code. rewrite El. clear El.
  cbn [MLspTask.step] in H. unfold did_change in H. rewrite Hd in H.
  destruct (apply_changes t cs) as [[[t2 early] ed]|] eqn:E; cbn [bind] in H; [|discriminate].
  pose proof (ranged_late _ _ _ _ _ (easy_ranged _ _ _ Hc) E) as ->. cbn [bind fst snd] in H. inversion H; subst s'. clear H.
  cbn [tk_data with_timer] in *. rewrite Hx in *. lsimp.
  destruct (changes_last _ _ _ _ E) as (He & Hl).
  set (s1 := set_docs _ _) in *.
  destruct (apply_edits_tree uri Backend Hp ed s1 tr0) as (tr & Htr & Hm); [exact Ht0|].
  assert (t' = t2). { unfold set_task in Hd'. cbn [ls_docs] in Hd'. rewrite (proj1 (PServer.input_edit_same uri (Some Backend) ed s1)) in Hd'. unfold s1 in Hd'. lsimp in Hd'. rewrite sget_sinsert_same in Hd'. congruence. }
  subst t'. exists tr. split; [exact Htr|]. intros Hs. destruct (last_opt ed) as [e|] eqn:El.
  - destruct Hm as (old & Hm). rewrite (Hl e eq_refl), rope_content_encode in Hm by exact Hs. exists old. exact Hm.
  - subst tr. assert (Ed : ed = []) by (destruct ed; [reflexivity|now apply last_opt_none in El]). rewrite (He Ed) in *. auto.
Qed.
Lemma replay_code uri : parse_total T -> file_ext uri = Some Backend -> forall ms t, editor_text uri ms t -> forall s l s' tr,
  map fst l = ms -> replay url b s l = Ok (s', tr) -> has_code uri t (tk_data s').
Proof.
  intros Hp Hx ms t He. induction He as [ms t|ms t cs t' He IH Hc|ms t m He IH Hm]; intros s l s' tr Hl Hr;
    apply map_eq_app in Hl; destruct Hl as (l1 & l2 & -> & Hl1 & Hl2);
    (destruct l2 as [|(m', F) [|? ?]]; try discriminate); cbn in Hl2; inversion Hl2; subst;
    destruct (replay_snoc_inv _ _ _ _ _ _ _ _ Hr) as (s1 & tr1 & es & H1 & H2 & _).
  - cbn [MLspTask.step] in H2. destruct (did_open F b uri t false (tk_data s1)) as [(d & r)|] eqn:E; cbn [bind] in H2; inversion H2; subst.
    pose proof (did_open_tree F b uri Backend t false _ _ _ Hp Hx E) as Ht. cbn [trees_of] in Ht. cbn [fst with_data tk_data].
    destruct (t_parse T (ls_parser (tk_data s1)) (encode t) (sget uri (ls_bt (tk_data s1)))) as [tr0|] eqn:Ep; [|now apply Hp in Ep].
    exists tr0. split; [exact Ht|]. intros _. destruct (did_open_frame _ _ _ _ _ _ _ _ E) as (_ & -> & _). eauto.
  - eapply step_change_code; [exact Hp|exact Hx| |eapply IH; [reflexivity|exact H1]|exact Hc|exact H2|].
    + eapply (replay_text url b uri); [congruence|exact He|reflexivity|exact H1].
    + eapply (replay_text url b uri); [congruence| |reflexivity|exact Hr]. rewrite map_app. eapply et_change; eauto.
  - destruct (IH s l1 s1 tr1 eq_refl H1) as (tr0 & A & B). exists tr0. rewrite (step_bt _ _ _ _ _ _ Hm H2). split; [exact A|].
    assert (El : ls_parser (tk_data s') = ls_parser (tk_data s1)); [|now rewrite El].
    apply step_langs in H2; [unfold langs in H2; congruence|]. intros ->. exact Hm.
Qed.
End Lang.

(** ** Where completion starts in a quoted name *)
Lemma start_quoted b tp r typed rest : plain_line r -> snd r = (typed ++ rest)%string -> col tp = col (n_start (fst r)) + 1 + slen typed ->
  exists n, quoted_prefix typed (snd r) n /\ completion_start b tp (ref_id r) = Ok (Some n).
Proof.
  intros (Has & Hce) En Hct. pose proof (typed_prefix_quoted b tp (ref_id r) typed rest En Hce Hct) as Hpre. destruct (slen typed <=? 1) eqn:El.
  - exists (snd r). split; [left; split; [lia|reflexivity]|exact Hpre].
  - assert (Hx : exists a x, typed = (a ++ String x EmptyString)%string).
    { clear - El. induction typed as [|y l IH]; [discriminate|]. destruct l as [|z l].
      - exists EmptyString, y. reflexivity.
      - destruct (slen (String z l) <=? 1) eqn:El'.
        + destruct l; [|unfold slen in *; cbn [String.length] in *; lia]. exists (String y EmptyString), z. reflexivity.
        + destruct (IH eq_refl) as (a & x & ->). exists (String y a), x. reflexivity. }
    destruct Hx as (a & x & ->). rewrite slen_app in *. change (slen (String x EmptyString)) with 1 in *.
    exists a. split.
    { right. exists x. split; [reflexivity|]. intros ->. unfold slen in El. cbn in El. discriminate. }
    rewrite Hpre. replace (slen a + 1 - 1) with (slen a) by lia. f_equal. change (id_name (ref_id r)) with (snd r).
    rewrite En, append_assoc. rewrite get_to_app; [reflexivity|].
    cbn [append]. cbn [splits_char].
    rewrite En, append_assoc in Has. clear - Has. induction a as [|y a IH]; cbn [append list_ascii_of_string map] in Has; inversion Has; subst; auto.
    unfold splits_char, is_cont. destruct (128 <=? N_of_ascii x) eqn:Z; [lia|reflexivity].
Qed.

(** ** Goto and completion *)
Section Code.
Variables (parse : plang -> string -> option stree -> option stree) (edit : stree -> input_edit -> stree).
Notation T := (ts_with parse edit).
Section State.
Variables (s : lsp_files T) (uri : string) (t : text) (tr : stree) (lang : plang).
Hypothesis Hx : file_ext uri = Some Backend.
Hypothesis Hd : sget uri (ls_docs s) = Some t.
Hypothesis Htr : sget uri (ls_bt s) = Some tr.
Hypothesis Hq : ls_query s = lang.
Hypothesis R : code_conveys parse lang t tr.
Notation src := (encode t).
Lemma code_query cur : exists st, backend_templates_query (t_captures T (QBackendTemplates (ls_query s)) tr (rope_content t)) cur (rope_content t) false = Ok st /\
    (forall ar n, loading lang src tr ar n -> touches cur (loaded_ref src n) -> first_in_line lang src tr cur n ->
       bt_in_template st cur = Some (ref_id (loaded_ref src n))) /\
    ((forall ar n, loading lang src tr ar n -> ~ touches cur (loaded_ref src n)) -> bt_in_template st cur = None).
Proof.
  destruct R as [R1 R2 R3 R4 R5 R6 R7 R8]. rewrite (rope_content_encode t R1), Hq. cbn [ts_with t_captures].
  destruct (templates_at lang src tr cur R4 R6 (characters_readable _ _ R1 R3) R7) as (st & E & H1 & H2). exists st. split; [exact E|]. unfold bt_in_template. split.
  - intros ar n HL (T1 & T2) Hf. cbn [loaded_ref fst] in T1, T2. rewrite (H1 ar n HL T1 Hf). unfold in_id. cbn [at_node id_start id_end].
    rewrite (pt_le_leb _ _ T1), (pt_le_leb _ _ T2). reflexivity.
  - intros Hno. destruct (last_opt (bt_templates st)) as [i|] eqn:El; [|reflexivity]. destruct (H2 i eq_refl) as (ar & n & HL & ->).
    destruct (in_id cur _) eqn:Ei; [|reflexivity]. exfalso. apply (Hno ar n HL). unfold in_id in Ei. apply andb_true_iff in Ei. destruct Ei as (E1 & E2). split; now apply pt_leb_le.
Qed.
Lemma code_goto F url b pos ar n : loading lang src tr ar n -> touches (point_of pos) (loaded_ref src n) -> first_in_line lang src tr (point_of pos) n ->
  proper_name (unquoted (text_of src n)) ->
  (forall u, stands_for F url (cf_templates (ls_config s)) (unquoted (text_of src n)) u -> goto_definition F url b uri pos s = Ok (Some (GScalar (mkloc u range0)))) /\
  ((forall u, ~ stands_for F url (cf_templates (ls_config s)) (unquoted (text_of src n)) u) -> goto_definition F url b uri pos s = Ok None).
Proof.
  intros HL Ht Hf Hn. destruct (code_query (point_of pos)) as (st & E & H & _). unfold goto_definition. rewrite Hx. cbn [trees_of]. rewrite Htr, Hd, E. cbn [bind]. rewrite (H ar n HL Ht Hf).
  unfold goto_template. change (id_name _) with (unquoted (text_of src n)). rewrite (goto_lint_path _ _ Hn). split.
  - intros u (p & Hp & Hu). now rewrite Hp, Hu.
  - intros Hno. destruct (f_canon F _) as [p| |] eqn:Ec; try reflexivity. destruct (url (file_uri p)) as [u|] eqn:Eu; [|reflexivity]. exfalso. apply (Hno u). exists p. auto.
Qed.
Lemma code_goto_none F url b pos : (forall ar n, loading lang src tr ar n -> ~ touches (point_of pos) (loaded_ref src n)) -> goto_definition F url b uri pos s = Ok None.
Proof.
  intros Hno. destruct (code_query (point_of pos)) as (st & E & _ & H). unfold goto_definition. rewrite Hx. cbn [trees_of]. rewrite Htr, Hd, E. cbn [bind]. now rewrite (H Hno).
Qed.
Lemma loading_small ar n : loading lang src tr ar n -> small (n_start n) /\ small (n_end n).
Proof.
  intros HL. destruct R as [R1 R2 R3 R4 R5 R6 R7 R8]. destruct (templates_of lang) as (call & member & name & args & _ & EL). rewrite EL in HL.
  destruct HL as (x & f & callee & g & h & method & rest & Hin & _ & Ho & _ & _ & _ & Eo).
  destruct (of_kind_cons _ _ _ _ Eo) as (a & k & y & z & Ec & _ & <- & _). unfold small_tree in R8. rewrite Forall_forall in R8. apply R8.
  apply preorder_trans with x; [exact Hin|]. apply preorder_trans with ar; [eapply child_in; exact (in_order_r _ _ _ _ _ Ho)|]. apply (child_in ar k). rewrite Ec. apply in_or_app. right. now left.
Qed.
Lemma code_offer b pos ctx ar n typed rest : let r := loaded_ref src n in let d := strip_dots (cf_templates (ls_config s)) in
  ctx = Some TkInvoked \/ ctx = Some TkTriggerCharacter ->
  loading lang src tr ar n -> touches (point_of pos) r -> first_in_line lang src tr (point_of pos) n ->
  plain_line r -> snd r = (typed ++ rest)%string -> col (point_of pos) = col (n_start n) + 1 + slen typed ->
  exists n', quoted_prefix typed (snd r) n' /\
    ((forall u, In u (map fst (ls_tt s)) -> sought n' u -> exists label, lies_below d u label) ->
     exists us items, do_completion b uri pos ctx s = Ok (Some (map RItem items)) /\
       (forall u, In u us <-> In u (map fst (ls_tt s)) /\ sought n' u) /\ (NoDup (map fst (ls_tt s)) -> NoDup us) /\
       Forall2 (template_for d (ls_vscode s) (lsp_range (n_start n) (n_end n))) us items).
Proof.
  intros r d Hctx HL Ht Hf Hp En Hcol. destruct (code_query (point_of pos)) as (st & E & H & _). destruct (start_quoted b (point_of pos) r typed rest Hp En Hcol) as (n' & Hn & Hst).
  exists n'. split; [exact Hn|]. intros Hu. destruct (read_templates_exact s n' (lsp_range (n_start n) (n_end n)) pos Hu) as (us & items & Er & H1 & H2 & H3).
  exists us, items. split; [|split; [exact H1|split; [exact H2|exact H3]]].
  assert (Hcan : (match ctx with Some TkTriggerCharacter | Some TkInvoked => true | _ => false end) = true) by (destruct Hctx as [->| ->]; reflexivity).
  unfold do_completion, completion. rewrite Hcan. cbn [negb]. rewrite Hx. cbn [trees_of]. rewrite Htr, Hd, E. cbn [bind]. rewrite (H ar n HL Ht Hf). fold r. rewrite Hst. cbn [bind].
  destruct (loading_small ar n HL) as (S1 & S2). change (id_start (ref_id r)) with (n_start n). change (id_end (ref_id r)) with (n_end n).
  rewrite (to_range_lsp _ _ S1 S2). now rewrite Er.
Qed.
Lemma code_no_offer b pos ctx : (forall ar n, loading lang src tr ar n -> ~ touches (point_of pos) (loaded_ref src n)) -> do_completion b uri pos ctx s = Ok None.
Proof.
  intros Hno. destruct (code_query (point_of pos)) as (st & E & _ & H). unfold do_completion, completion.
  destruct (negb _); [reflexivity|]. rewrite Hx. cbn [trees_of]. rewrite Htr, Hd, E. cbn [bind]. now rewrite (H Hno).
Qed.
End State.
Section Asked.
Variables (url : url_parser) (b : build).
Hypothesis Hpt : parse_total T.
Variables (l : list action) (y : sys T) (sy : task_state T) (a : list (msg * fs)) (m : msg) (F : fs) (c : list (msg * fs)).
Hypothesis He : exec url b (sys0 T) l = Some y.
Hypothesis Hidle : y_task y = TIdle sy.
Hypothesis Hy : y_taken y = a ++ (m, F) :: c.
Variables (uri : string) (t : text).
Hypothesis Hx : file_ext uri = Some Backend.
Hypothesis Ht : editor_text uri (map fst a) t.
Lemma code_session : exists s x sb es, replay url b (task0 T) a = Ok (s, x) /\ MLspTask.step F url b s m = Ok (sb, es) /\
  (forall r, In r (answers m es) -> In r (y_replies y)) /\
  sget uri (ls_docs (tk_data s)) = Some t /\
  let lang := SpecConfig.lang_of (ls_config (tk_data s)) in
  ls_query (tk_data s) = lang /\ (forall tr, code_conveys parse lang t tr -> sget uri (ls_bt (tk_data s)) = Some tr).
Proof.
  destruct (session_reply parse edit url b l y sy a m F c He Hidle Hy) as (sa & x & sb & es & Hrp & Hs & Hin).
  exists sa, x, sb, es. split; [exact Hrp|]. split; [exact Hs|]. split; [exact Hin|].
  split; [exact (replay_text url b uri ltac:(congruence) _ _ Ht _ _ _ _ eq_refl Hrp)|].
  destruct (replay_spoken url b Hpt _ _ _ _ task0_spoken Hrp) as (Q1 & Q2). split; [exact Q1|].
  destruct (replay_code url b uri Hpt Hx _ _ Ht _ _ _ _ eq_refl Hrp) as (tr0 & A & B). intros tr R. rewrite A. destruct (B (cc_scalars _ _ _ _ R)) as (old & Bp).
  cbn [ts_with t_parse] in Bp. rewrite Q2 in Bp. rewrite (cc_parse _ _ _ _ R) in Bp. congruence.
Qed.
End Asked.
Lemma asked_code_goto url b : parse_total T ->
  forall l (y : sys T) sy a F c rid, exec url b (sys0 T) l = Some y -> y_task y = TIdle sy ->
  forall uri t pos, file_ext uri = Some Backend -> editor_text uri (map fst a) t -> y_taken y = a ++ (MGoto rid uri pos, F) :: c ->
  exists s x, replay url b (task0 T) a = Ok (s, x) /\
    let dir := cf_templates (ls_config (tk_data s)) in
    let lang := SpecConfig.lang_of (ls_config (tk_data s)) in
    let src := encode t in
    let cur := point_of pos in
    forall tr, code_conveys parse lang t tr ->
      (forall ar n, loading lang src tr ar n -> touches cur (loaded_ref src n) -> first_in_line lang src tr cur n ->
         let name := snd (loaded_ref src n) in proper_name name ->
         (forall u, stands_for F url dir name u -> In (rid, RGoto (GScalar (mkloc u range0))) (y_replies y)) /\
         ((forall u, ~ stands_for F url dir name u) -> In (rid, RNull) (y_replies y))) /\
      ((forall ar n, loading lang src tr ar n -> ~ touches cur (loaded_ref src n)) -> In (rid, RNull) (y_replies y)).
Proof.
  intros Hpt l y sy a F c rid He Hidle uri t pos Hx Ht Hy.
  destruct (code_session url b Hpt l y sy a _ F c He Hidle Hy uri t Hx Ht) as (s & x & sb & es & Hrp & Hs & Hin & Hd & Hq & Htree).
  exists s, x. split; [exact Hrp|]. intros dir lang src cur tr R. specialize (Htree tr R). cbn [MLspTask.step] in Hs. split.
  - intros ar n HL Hto Hf name Hn. destruct (code_goto (tk_data s) uri t tr lang Hx Hd Htree Hq R F url b pos ar n HL Hto Hf Hn) as (G1 & G2). split.
    + intros u Hu. apply Hin. rewrite (G1 u Hu) in Hs. cbn [bind] in Hs. inversion Hs; subst. now left.
    + intros Hu. apply Hin. rewrite (G2 Hu) in Hs. cbn [bind] in Hs. inversion Hs; subst. now left.
  - intros Hno. apply Hin. rewrite (code_goto_none (tk_data s) uri t tr lang Hx Hd Htree Hq R F url b pos Hno) in Hs. cbn [bind] in Hs. inversion Hs; subst. now left.
Qed.
Lemma asked_code_offer url b : parse_total T ->
  forall l (y : sys T) sy a F c rid, exec url b (sys0 T) l = Some y -> y_task y = TIdle sy ->
  forall uri t pos ctx, file_ext uri = Some Backend -> editor_text uri (map fst a) t -> y_taken y = a ++ (MCompletion rid uri pos ctx, F) :: c ->
  exists s x, replay url b (task0 T) a = Ok (s, x) /\
    let d := strip_dots (cf_templates (ls_config (tk_data s))) in
    let lang := SpecConfig.lang_of (ls_config (tk_data s)) in
    let src := encode t in
    let cur := point_of pos in
    let known := map fst (ls_tt (tk_data s)) in
    forall tr, code_conveys parse lang t tr ->
      (forall ar n typed rest, loading lang src tr ar n -> touches cur (loaded_ref src n) -> first_in_line lang src tr cur n ->
         ctx = Some TkInvoked \/ ctx = Some TkTriggerCharacter ->
         plain_line (loaded_ref src n) -> snd (loaded_ref src n) = (typed ++ rest)%string -> col cur = col (n_start n) + 1 + slen typed ->
         exists pre, quoted_prefix typed (snd (loaded_ref src n)) pre /\
           ((forall u, In u known -> sought pre u -> exists label, lies_below d u label) ->
            exists us items, In (rid, RCompletion (map RItem items)) (y_replies y) /\
              (forall u, In u us <-> In u known /\ sought pre u) /\ (NoDup known -> NoDup us) /\
              Forall2 (template_for d (ls_vscode (tk_data s)) (lsp_range (n_start n) (n_end n))) us items)) /\
      ((forall ar n, loading lang src tr ar n -> ~ touches cur (loaded_ref src n)) -> In (rid, RNull) (y_replies y)).
Proof.
  intros Hpt l y sy a F c rid He Hidle uri t pos ctx Hx Ht Hy.
  destruct (code_session url b Hpt l y sy a _ F c He Hidle Hy uri t Hx Ht) as (s & x & sb & es & Hrp & Hs & Hin & Hd & Hq & Htree).
  exists s, x. split; [exact Hrp|]. intros d lang src cur known tr R. specialize (Htree tr R). cbn [MLspTask.step] in Hs. split.
  - intros ar n typed rest HL Hto Hf Hctx Hl En Hcol.
    destruct (code_offer (tk_data s) uri t tr lang Hx Hd Htree Hq R b pos ctx ar n typed rest Hctx HL Hto Hf Hl En Hcol) as (pre & Hn & Ho).
    exists pre. split; [exact Hn|]. intros Hu. destruct (Ho Hu) as (us & items & E & H1 & H2 & H3). exists us, items.
    split; [|auto]. apply Hin. rewrite E in Hs. cbn [bind] in Hs. inversion Hs; subst. now left.
  - intros Hno. apply Hin. rewrite (code_no_offer (tk_data s) uri t tr lang Hx Hd Htree Hq R b pos ctx Hno) in Hs. cbn [bind] in Hs. inversion Hs; subst. now left.
Qed.
End Code.
