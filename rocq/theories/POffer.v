(** * POffer: completion in names, on pipes and behind [is], from syntax trees. *)
From Verif Require Import Base RString Utf8 Rope Types Captures MTemplates MDefinition MObjects MLspFiles MSearchErrors MLspTask MChannels MQueries.
From Verif Require Import SpecFiles SpecScope SpecScope2 SpecObjects SpecObjects2 SpecLint SpecNav SpecQueries SpecQueries2 SpecQueries4 SpecChannels SpecServer SpecClient SpecQueries5 SpecOffer.
From Verif Require Import PUtf8 PText PFiles PLint PLint2 PNode PObjects PObjects2 PObjects4 PNav PNav2 PNav3 PQueries PQueries2 PQueries3 PQueries4 PQueries6 PQueries7 PQueries9 PQueries10 PChannels PChannels2 PChannels3 PServer PClient PClient2 PQueries11.

Lemma at_char_splits s : at_char s -> splits_char s = false.
Proof.
  destruct s as [|a s]; [reflexivity|]. cbn [at_char splits_char]. unfold is_cont. intros H. destruct (128 <=? N_of_ascii a) eqn:E1; [|reflexivity].
  apply N.leb_le in E1. cbn [andb]. apply N.ltb_ge. lia.
Qed.
Section Tree.
Variables (parse : plang -> string -> option stree -> option stree) (edit : stree -> input_edit -> stree).
Notation T := (ts_with parse edit).

Section Displayed.
Variables (s : lsp_files T) (uri : string) (t : text) (tr : stree) (tp : tpl) (ps : list piece) (sts : list istmt).
Hypothesis Hsh : displayed s uri t tr tp ps sts.
Let Hd : depicts (encode t) tr tp ps sts := sh_depicts _ _ _ _ _ _ _ Hsh.
Let Hpl : well_placed tr := sh_placed _ _ _ _ _ _ _ Hsh.

(** No word behind a name begins in front of its end. *)
Lemma words_after pre q post n A : ps = pre ++ q :: post -> piece_nodes q = A ++ [("identifier"%string, n)] \/ (exists Z, piece_nodes q = A ++ ("identifier"%string, n) :: Z) ->
  forall k m, In (k, m) (flat_map piece_nodes post) -> pt_le (n_end n) (n_start m).
Proof.
  intros E Hq. assert (Hq' : exists Z, piece_nodes q = A ++ ("identifier"%string, n) :: Z) by (destruct Hq as [Hq|Hq]; [exists []; exact Hq|exact Hq]). clear Hq. destruct Hq' as (Z & Hq).
  destruct Hpl as (Hl & Htk & _). pose proof (dp_spoken _ _ _ _ _ Hd) as Hsp. rewrite E, flat_map_app in Hsp. cbn [flat_map] in Hsp. rewrite Hq, <- app_assoc in Hsp. cbn [app] in Hsp. rewrite app_assoc in Hsp.
  destruct (spoken_split _ _ _ Hsp _ _ _ eq_refl) as (a & x & z & Ep & En & Hz). inversion En as [[Ek Em]].
  assert (Hx : In x (preorder tr)) by (rewrite Ep; apply in_or_app; right; now left).
  unfold tokens_whole in Htk. rewrite Forall_forall in Htk. destruct (Htk _ Hx) as (Cx & _); [rewrite <- Ek; now left|].
  pose proof (laid_after _ _ _ _ Hl Ep Cx) as Hafter. rewrite Forall_forall in Hafter. intros k m Hin.
  destruct (spoken_in _ _ _ Hz k m) as (y & Hy & Yk & Yn); [apply in_or_app; now right|]. rewrite <- Yn. now apply Hafter.
Qed.
Lemma words_behind pre h fs post cur : ps = pre ++ PChain h fs :: post -> pt_le cur (n_end (fst h)) -> none_at cur post ->
  Forall (fun c => pt_lt cur (n_start (c_node c))) (cap_pieces post).
Proof.
  intros E Hon Hn. apply Forall_forall. intros c Hc.
  unfold cap_pieces in Hc. apply in_flat_map in Hc. destruct Hc as (p & Hp & Hc). destruct (piece_cap _ _ Hc) as (k & Hk & _ & _).
  assert (Hin : In (k, c_node c) (flat_map piece_nodes post)) by (apply in_flat_map; exists p; auto).
  pose proof (words_after _ _ _ (fst h) [] E (or_intror (ex_intro _ _ eq_refl)) _ _ Hin) as Hb.
  unfold none_at in Hn. rewrite Forall_forall in Hn. specialize (Hn _ Hin). cbn [snd] in Hn.
  destruct (pt_le_lt_eq _ _ (pt_le_trans' _ _ _ Hon Hb)) as [L|L]; [exact L|congruence].
Qed.
Lemma clean_tree cur : clean_before cur (t_captures T QSnippets tr (rope_content t)).
Proof.
  pose proof (depicts_parsed parse edit _ _ _ _ _ Hd) as Hpa. intros n (b0 & c & a0 & E & Ec & _). exfalso. pose proof (pd_clean _ _ _ _ _ _ Hpa) as Hcl. rewrite (content _ _ _ _ _ _ _ _ _ Hsh) in E.
  change (t_captures (ts_with parse edit)) with (t_captures T) in E. rewrite E in Hcl. apply Forall_app in Hcl. destruct Hcl as (_ & Hcl). inversion Hcl; subst. contradiction.
Qed.
Lemma to_template b pos ctx st c : ctx = Some TkInvoked \/ ctx = Some TkTriggerCharacter ->
  objects_query b (t_captures T QObjects tr (rope_content t)) (point_of pos) (rope_content t) false = Ok st ->
  obj_completion b st (point_of pos) = Ok (Some c) -> completion b uri pos ctx s = Ok (Some c).
Proof.
  intros Hctx. eapply completion_in_template; [exact Hctx|exact (sh_kind _ _ _ _ _ _ _ Hsh)|exact (sh_tree _ _ _ _ _ _ _ Hsh)|exact (sh_doc _ _ _ _ _ _ _ Hsh)|apply clean_tree].
Qed.
Lemma known_query b cur n h fs ps2 typed : typing cur ps n h fs ps2 typed ->
  exists st o a, objects_query b (t_captures T QObjects tr (rope_content t)) cur (rope_content t) false = Ok st /\ last_opt (os_objects st) = Some o /\ o_loc o = loc h /\
    obj_completion b st cur = Ok (Some (CtIncompleteIdentifier typed (to_range (n_start (fst h), last_field_end o)), a)) /\
    to_range (n_start (fst h), last_field_end o) = to_replace cur h fs ps2 /\ (fs = [] -> plain_start ps2 -> o_fields o = []).
Proof.
  intros [(ps1 & p2 & E & Hp2) Ho Hc [L (more & En & Hs) Hne Hcur] Hnx]. apply at_char_splits in Hs.
  assert (H4 : pt_lt (n_start (fst h)) cur).
  { rewrite Hcur. destruct (n_start (fst h)) as [r k]. right. cbn [row col]. split; [reflexivity|]. destruct typed; [now elim Hne|]. unfold slen. cbn [String.length]. lia. }
  assert (H5 : pt_le cur (n_end (fst h))).
  { rewrite Hcur, L. right. cbn [row col]. split; [reflexivity|]. rewrite En, slen_app. lia. }
  pose proof (objects_are _ _ _ _ _ _ _ _ _ Hsh) as Hob. pose proof (pieces_are _ _ _ _ _ _ _ _ _ Hsh) as Hp.
  pose proof (words_behind _ _ _ _ cur E H5 Hnx) as H6. rewrite E in Hob, Hp.
  destruct (complete_chain b _ cur (rope_content t) ps1 n p2 h fs ps2 Hp Hob Hp2 H4 H5 H6 Hc Ho) as (st & o & ex & Q & Eo & El & Ef & _ & O).
  assert (K1 : col (n_end (fst h)) = col (n_start (fst h)) + slen (snd h)) by now rewrite L.
  assert (K2 : col cur = col (n_start (fst h)) + slen typed) by now rewrite Hcur.
  rewrite (typed_prefix b cur (id_new (snd h) (n_start (fst h)) (n_end (fst h))) typed more) in O; auto.
  cbn [bind] in O. exists st, o. eexists. split; [exact Q|]. split; [rewrite Eo; now rewrite last_opt_app by discriminate|]. split; [exact El|]. split; [exact O|]. split.
  - destruct (select_end b _ cur (rope_content t) _ h fs ps2 st Hp Hob) as (o' & Eo' & Ee); auto.
    { split; [now apply pt_lt_le|exact H5]. }
    { eapply Forall_impl; [|exact H6]. intros c Hc'. unfold behind. destruct (c_name c); auto. }
    assert (o' = o) by (rewrite Eo in Eo'; apply app_inj_tail in Eo'; symmetry; tauto). subst o'. rewrite Ee. reflexivity.
  - intros -> Hpl2. destruct (head_alone b _ cur (rope_content t) _ h ps2 st Hp Hob) as (o' & Eo' & Ef'); auto.
    { now apply pt_lt_le. }
    assert (o' = o) by (rewrite Eo in Eo'; apply app_inj_tail in Eo'; symmetry; tauto). subst o'. exact Ef'.
Qed.
Lemma known_typing b pos ctx ds n h fs ps2 typed : knows s uri ds -> ctx = Some TkInvoked \/ ctx = Some TkTriggerCharacter ->
  typing (point_of pos) ps n h fs ps2 typed ->
  exists items, do_completion b uri pos ctx s = Ok (Some (map RItem items)) /\
    variables_offered s uri ds (point_of pos) typed (to_replace (point_of pos) h fs ps2) items.
Proof.
  intros Hk Hctx Hty. destruct (known_query b _ _ _ _ _ _ Hty) as (st & o & a & Q & _ & _ & O & <- & _).
  eapply do_completion_variables; [exact Hk|eapply to_template; [exact Hctx|exact Q|exact O]|right; reflexivity].
Qed.
(** The name alone, if it has no attributes and the next word has none. *)
Lemma replaces_name cur n h ps2 typed : typing cur ps n h [] ps2 typed -> plain_start ps2 -> to_replace cur h [] ps2 = to_range (loc h).
Proof.
  intros Hty Hps. destruct (known_query Debug _ _ _ _ _ _ Hty) as (st & o & a & _ & _ & El & _ & <- & Hf). unfold last_field_end. rewrite (Hf eq_refl Hps), El. reflexivity.
Qed.
Lemma known_pipe b pos ctx : ctx = Some TkInvoked \/ ctx = Some TkTriggerCharacter -> at_pipe (point_of pos) ps ->
  do_completion b uri pos ctx s = Ok (Some (map (fun n => RDoc n (DocFilter n)) filter_names)).
Proof.
  intros Hctx (ps1 & p & name & ps2 & E & H1 & H2).
  pose proof (objects_are _ _ _ _ _ _ _ _ _ Hsh) as Hob. pose proof (pieces_are _ _ _ _ _ _ _ _ _ Hsh) as Hp. rewrite E in Hob, Hp.
  pose proof Hp as (Hok & p0 & Hp0 & Hord). apply Forall_app in Hok. destruct Hok as (Hok1 & Hok2). pose proof (Forall_inv Hok2) as Hq. cbn [piece_ok] in Hq.
  destruct Hq as (R1 & Hpi & Hj & R2 & _). rewrite flat_map_app in Hord. apply ordered_app in Hord. destruct Hord as (Hord1 & Hord2).
  cbn [flat_map marks app ordered] in Hord2. destruct Hord2 as (O1 & _ & _ & O4 & _).
  unfold cap_pieces in Hob. rewrite flat_map_app in Hob. cbn [flat_map cap_piece app] in Hob.
  destruct (complete_pipe b (t_captures T QObjects tr (rope_content t)) (point_of pos) (rope_content t) ps1 p (cap CJustId (fst name) :: cap_pieces ps2)) as (st & a & Q & O); auto.
  - split; [exact Hok1|]. exists p0. auto.
  - right. exists name, (cap_pieces ps2). split; [reflexivity|]. split; [exact R2|]. split; [now symmetry|]. split; [exact O4|].
    destruct (cap_pieces ps2) as [|c cs] eqn:Ec; [exact I|]. cbn [before_all].
    assert (Hc : In c (cap_pieces ps2)) by (rewrite Ec; now left). unfold cap_pieces in Hc. apply in_flat_map in Hc. destruct Hc as (q & Hq & Hc). destruct (piece_cap _ _ Hc) as (k & Hk & _ & _).
    pose proof (words_after _ _ _ (fst name) [("operator"%string, fst p)] E (or_introl eq_refl) k (c_node c)) as W.
    assert (B : pt_le (n_end (fst name)) (n_start (c_node c))) by (apply W; apply in_flat_map; exists q; auto).
    rewrite <- Hj in O4. clear - H2 O4 B. unfold pt_le, pt_lt in *. lia.
  - unfold do_completion. rewrite (to_template b pos ctx _ _ Hctx Q O). reflexivity.
Qed.
Lemma known_is b pos ctx : ctx = Some TkInvoked \/ ctx = Some TkTriggerCharacter -> behind_is (point_of pos) ps ->
  do_completion b uri pos ctx s = Ok (Some (map (fun n => RDoc n (DocTest n)) test_names)).
Proof.
  intros Hctx (ps1 & kw & nots & name & ps2 & E & H1 & H2 & H3 & H4).
  pose proof (objects_are _ _ _ _ _ _ _ _ _ Hsh) as Hob. pose proof (pieces_are _ _ _ _ _ _ _ _ _ Hsh) as Hp. rewrite E in Hob, Hp.
  destruct Hp as (Hok & p0 & Hp0 & Hord). apply Forall_app in Hok. destruct Hok as (Hok1 & Hok2).
  rewrite flat_map_app in Hord. apply ordered_app in Hord. destruct Hord as (Hord1 & Hord2). cbn [flat_map marks app ordered] in Hord2. destruct Hord2 as (O1 & O2 & _).
  unfold cap_pieces in Hob. rewrite flat_map_app in Hob. cbn [flat_map cap_piece app] in Hob.
  destruct (complete_is b (t_captures T QObjects tr (rope_content t)) (point_of pos) (rope_content t) ps1 kw _ ltac:(split; [exact Hok1|exists p0; auto]) O2 H1 Hob) as (st & Q & _ & O).
  { rewrite <- app_assoc. destruct nots as [|x nots]; exact H3. }
  specialize (O H4). rewrite H2, N.eqb_refl in O. unfold do_completion. rewrite (to_template b pos ctx _ _ Hctx Q O). reflexivity.
Qed.
End Displayed.

Section Session.
Variables (url : url_parser) (b : build).
Hypothesis Hpt : parse_total T.
Variables (l : list action) (y : sys T) (sy : task_state T) (a : list (msg * fs)) (F : fs) (c : list (msg * fs)) (rid : N).
Hypothesis He : exec url b (sys0 T) l = Some y.
Hypothesis Hidle : y_task y = TIdle sy.
Variables (uri : string) (t0 : text) (tr0 : stree) (tp0 : tpl) (ps0 : list piece) (sts0 : list istmt).
Variables (t : text) (tr : stree) (tp : tpl) (ps : list piece) (sts : list istmt).
Hypothesis Hx : file_ext uri = Some Template.
Hypothesis Hlast : last_read uri (map fst a) t0 t.
Hypothesis R0 : conveys parse t0 tr0 tp0 ps0 sts0.
Hypothesis R : conveys parse t tr tp ps sts.
Variables (pos : position) (ctx : option trigger_kind).
Hypothesis Hctx : ctx = Some TkInvoked \/ ctx = Some TkTriggerCharacter.
Hypothesis Ht : y_taken y = a ++ (MCompletion rid uri pos ctx, F) :: c.
Lemma asked_typing n h fs ps2 typed : typing (point_of pos) ps n h fs ps2 typed ->
  exists s x items, replay url b (task0 T) a = Ok (s, x) /\
    variables_offered (tk_data s) uri (defines tr0 tp0) (point_of pos) typed (to_replace (point_of pos) h fs ps2) items /\
    In (rid, RCompletion (map RItem items)) (y_replies y).
Proof.
  intros Hty. destruct (session_reply parse edit url b l y sy a _ F c He Hidle Ht) as (sa & x & sb & es & Hr & Hs & Hin).
  destruct (session_held parse edit url b Hpt uri t0 tr0 tp0 ps0 sts0 t tr tp ps sts _ _ _ _ Hx Hr Hlast R0 R) as (Hd & Hk & _).
  destruct (known_typing _ _ _ _ _ _ _ Hd b pos ctx (defines tr0 tp0) _ _ _ _ _ Hk Hctx Hty) as (items & Hh & Ha). exists sa, x, items. split; [exact Hr|]. split; [exact Ha|]. apply Hin.
  cbn [MLspTask.step] in Hs. rewrite Hh in Hs. cbn [bind] in Hs. inversion Hs; subst. now left.
Qed.
Lemma asked_typing_name n h ps2 typed : typing (point_of pos) ps n h [] ps2 typed -> plain_start ps2 ->
  exists s x items, replay url b (task0 T) a = Ok (s, x) /\
    variables_offered (tk_data s) uri (defines tr0 tp0) (point_of pos) typed (to_range (loc h)) items /\
    In (rid, RCompletion (map RItem items)) (y_replies y).
Proof.
  intros Hty Hps. destruct (asked_typing _ _ _ _ _ Hty) as (s & x & items & Hr & Hv & Hi). exists s, x, items. split; [exact Hr|]. split; [|exact Hi].
  destruct (session_held parse edit url b Hpt uri t0 tr0 tp0 ps0 sts0 t tr tp ps sts _ _ _ _ Hx Hr Hlast R0 R) as (Hd & _ & _).
  now rewrite <- (replaces_name _ _ _ _ _ _ _ Hd _ _ _ _ _ Hty Hps).
Qed.
Lemma asked_pipe : at_pipe (point_of pos) ps ->
  In (rid, RCompletion (map (fun n => RDoc n (DocFilter n)) filter_names)) (y_replies y).
Proof.
  intros Hty. destruct (session_reply parse edit url b l y sy a _ F c He Hidle Ht) as (sa & x & sb & es & Hr & Hs & Hin).
  destruct (session_held parse edit url b Hpt uri t0 tr0 tp0 ps0 sts0 t tr tp ps sts _ _ _ _ Hx Hr Hlast R0 R) as (Hd & _ & _).
  pose proof (known_pipe _ _ _ _ _ _ _ Hd b pos ctx Hctx Hty) as Hh. apply Hin.
  cbn [MLspTask.step] in Hs. rewrite Hh in Hs. cbn [bind] in Hs. inversion Hs; subst. now left.
Qed.
Lemma asked_is : behind_is (point_of pos) ps ->
  In (rid, RCompletion (map (fun n => RDoc n (DocTest n)) test_names)) (y_replies y).
Proof.
  intros Hty. destruct (session_reply parse edit url b l y sy a _ F c He Hidle Ht) as (sa & x & sb & es & Hr & Hs & Hin).
  destruct (session_held parse edit url b Hpt uri t0 tr0 tp0 ps0 sts0 t tr tp ps sts _ _ _ _ Hx Hr Hlast R0 R) as (Hd & _ & _).
  pose proof (known_is _ _ _ _ _ _ _ Hd b pos ctx Hctx Hty) as Hh. apply Hin.
  cbn [MLspTask.step] in Hs. rewrite Hh in Hs. cbn [bind] in Hs. inversion Hs; subst. now left.
Qed.
End Session.
End Tree.
