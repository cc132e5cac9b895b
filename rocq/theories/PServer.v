(** * PServer: the server survives well-behaved sessions (C85), and its trees
    belong to its texts in every reachable state (C08). *)
From Verif Require Import Base RString Utf8 Rope Types Captures.
From Verif Require Import MDefinition MObjects MTemplates MSearchErrors MLspFiles MLspTask MChannels.
From Verif Require Import SpecText SpecFiles SpecScope SpecObjects SpecChannels SpecServer.
From Verif Require Import PText PText2 PUtf8 PFiles PScope PScope2 PObjects PLint POrder PNav PChannels.

(** ** Queries do not panic on nodes inside the text *)
Lemma inside_flat (P : capture -> Prop) all tp ms : Forall P (concat ms) -> Forall P (flat_captures all tp ms).
Proof.
  rewrite !Forall_forall. intros H c Hc. unfold flat_captures in Hc. apply in_flat_map in Hc.
  destruct Hc as (m & Hm & Hc). apply filter_In in Hc. apply H. apply in_concat. exists m. tauto.
Qed.
Lemma inside_text src c : inside src c -> exists s, utf8_text (c_node c) src = Ok (Some s).
Proof. now intros (H & _). Qed.
Lemma snippets_ok ms tp all : exists s, snippets_query ms tp all = Ok s.
Proof.
  unfold snippets_query. apply (run_ok _ (fun _ => True)).
  - intros s c _. unfold snip_check. destruct (c_name c); eauto.
  - apply Forall_forall. auto.
Qed.
Lemma definitions_ok ms root tp src all : Forall (inside src) (concat ms) ->
  exists d, definition_query ms root tp src all = Ok d.
Proof.
  intros H. apply definitions_total. rewrite Forall_forall in *. intros m Hm. apply Forall_forall. intros c Hc.
  destruct (inside_text src c) as (s & E); [apply H; apply in_concat; eauto|].
  unfold readable. destruct (c_name c); auto; [eauto|rewrite E; discriminate].
Qed.
Lemma objects_ok b ms tp src all : Forall (inside src) (concat ms) ->
  exists s, objects_query b ms tp src all = Ok s.
Proof.
  intros H. apply objects_query_no_panic.
  - eapply Forall_impl; [|exact H]. intros c (Hc & _). destruct Hc as (s & E). unfold text_ok.
    destruct (c_name c); auto; rewrite E; discriminate.
  - eapply Forall_impl; [|exact H]. now intros c (_ & Hc).
Qed.
Lemma imports_ok ms tp src all : Forall (inside src) (concat ms) ->
  exists s, templates_query ms tp src all = Ok s.
Proof.
  intros H. unfold templates_query. apply (run_ok _ (inside src)); [|now apply inside_flat].
  intros s c Hc. apply imp_check_ok. destruct (inside_text _ _ Hc) as (x & ->). discriminate.
Qed.
Lemma backend_defs_ok ms tp src all : Forall (inside src) (concat ms) ->
  exists s, backend_definition_query ms tp src all = Ok s.
Proof.
  intros H. unfold backend_definition_query. apply (run_ok _ (inside src)); [|now apply inside_flat].
  intros s c Hc. destruct (inside_text _ _ Hc) as (x & E). unfold backend_check. rewrite E. cbn [bind].
  destruct (c_name c); eauto.
Qed.
Lemma backend_templates_ok ms tp src all : Forall (inside src) (concat ms) ->
  exists s, backend_templates_query ms tp src all = Ok s.
Proof.
  intros H. unfold backend_templates_query. apply (run_ok _ (inside src)); [|now apply inside_flat].
  intros s c Hc. destruct (inside_text _ _ Hc) as (x & E). unfold bt_check. rewrite E. cbn [bind].
  destruct (c_name c); eauto; [destruct (bt_in_method s); eauto|destruct (str_mem x methods); eauto].
Qed.

Section Server.
Context {T : ts} (url : url_parser) (b : build).
Context (fits ready : plang -> tree T -> string -> Prop) (ok : fs -> task_state T -> msg -> Prop).
(** Successive texts, each with a tree that is ready for it. *)
Inductive edit_chain : text -> list (string * input_edit) -> text -> Prop :=
| chain_nil t : edit_chain t [] t
| chain_cons t t1 ie es t2 :
    (forall l tr, fits l tr (encode t) -> ready l (t_edit T tr ie) (encode t1)) ->
    edit_chain t1 es t2 -> edit_chain t ((encode t1, ie) :: es) t2.
Hypothesis Hp : parse_total T.
Hypothesis Hfresh : forall l c tr, t_parse T l c None = Some tr -> fits l tr c.
Hypothesis Hreuse : forall l c o tr, ready l o c -> t_parse T l c (Some o) = Some tr -> fits l tr c.
Hypothesis Hsame : forall l tr c, fits l tr c -> ready l tr c.
Hypothesis Hin : forall l tr c q x, fits l tr c -> In x (concat (t_captures T q tr c)) -> inside c x.
Hypothesis Hrow : b = Debug -> forall l tr c q x, fits l tr c -> In x (concat (t_captures T q tr c)) -> one_row x.
Hypothesis Hurl : urls_ok url.
Hypothesis ok_init : forall F s, ok F s MInitialized -> disk_ok F /\ rooted F.
Hypothesis ok_open : forall F s uri t, ok F s (MDidOpen uri t) -> scalars t /\ linkable url uri /\
  forall l tr t0, sget uri (ls_docs (tk_data s)) = Some t0 -> fits l tr (encode t0) -> ready l tr (encode t).
Hypothesis ok_change : forall F s uri cs t, ok F s (MDidChange uri cs) ->
  sget uri (ls_docs (tk_data s)) = Some t -> scalars t ->
  exists t' edits, apply_changes t cs = Ok (t', false, edits) /\ scalars t' /\ edit_chain t edits t'.
Hypothesis ok_comp : forall F s rid uri pos ctx, ok F s (MCompletion rid uri pos ctx) -> b = Debug -> character pos + 1 < two32.
Implicit Types (d : lsp_files T).

Definition keys_ok {V} (m : smap V) : Prop := forall k, In k (map fst m) -> linkable url k.
Definition fitting_at uri d : Prop :=
  forall t, sget uri (ls_docs d) = Some t -> scalars t /\
    exists l tr, file_ext uri = Some l /\ sget uri (trees_of l d) = Some tr /\ fits (lang_of l d) tr (encode t).
Definition fitting d : Prop := forall uri, fitting_at uri d.
Lemma fitting_get d uri l t : fitting d -> file_ext uri = Some l -> sget uri (ls_docs d) = Some t ->
  scalars t /\ exists tr, sget uri (trees_of l d) = Some tr /\ fits (lang_of l d) tr (encode t).
Proof.
  intros H Hl Ht. destruct (H uri t Ht) as (Hs & l' & tr & E & E1 & E2). assert (l' = l) by congruence. subst l'. eauto.
Qed.
Definition known d : Prop :=
  forall uri l tr, sget uri (trees_of l d) = Some tr -> exists t, file_ext uri = Some l /\ sget uri (ls_docs d) = Some t.
Record good d : Prop := mkgood {
  g_trees : fitting d;
  g_known : known d;
  g_docs : keys_ok (ls_docs d);
  g_vars : keys_ok (ls_vars d) }.

Lemma trees_of_other_lang l l' m d : l <> l' -> trees_of l (set_trees l' m d) = trees_of l d.
Proof. destruct l, l'; congruence || reflexivity. Qed.
Lemma same_docs_fitting d d' : same_docs d d' -> fitting d -> fitting d'.
Proof.
  intros (H1 & H2 & H3 & H4) H uri t Ht. rewrite H1 in Ht. destruct (H uri t Ht) as (Hs & l & tr & Hl & Htr & Hf).
  split; [exact Hs|]. exists l, tr. split; [exact Hl|]. split; [destruct l; cbn in *; congruence|]. destruct l; cbn in *; [exact Hf|now rewrite H4].
Qed.
Lemma same_docs_known d d' : same_docs d d' -> known d -> known d'.
Proof.
  intros (H1 & H2 & H3 & H4) H uri l tr Htr. rewrite H1. apply H with tr. destruct l; cbn in *; congruence.
Qed.
Lemma fitting_update uri d d' : same_elsewhere uri d d' -> fitting d -> fitting_at uri d' -> fitting d'.
Proof.
  intros Hse Hc Hu k t Ht. destruct (String.string_dec k uri) as [->|Hk]; [now apply Hu|].
  pose proof (fun l => trees_of_other uri k l d d' Hse Hk) as Htr. destruct Hse as (H & Hpr & _). destruct (H k Hk) as (Hd & _).
  rewrite Hd in Ht. destruct (Hc k t Ht) as (Hs & l & tr & Hl & H1 & H2). split; [exact Hs|]. exists l, tr. rewrite Htr.
  split; [exact Hl|]. split; [exact H1|]. destruct l; cbn in *; [exact H2|now rewrite Hpr].
Qed.
Lemma known_update uri d d' : same_elsewhere uri d d' -> known d ->
  (forall l tr, sget uri (trees_of l d') = Some tr -> exists t, file_ext uri = Some l /\ sget uri (ls_docs d') = Some t) -> known d'.
Proof.
  intros Hse Hc Hu k l tr Ht. destruct (String.string_dec k uri) as [->|Hk]; [exact (Hu _ _ Ht)|].
  pose proof (trees_of_other uri k l d d' Hse Hk) as Htr. destruct Hse as (H & _). destruct (H k Hk) as (Hd & _).
  rewrite Hd. apply Hc with tr. congruence.
Qed.
Lemma keys_insert {V} k (v : V) m : linkable url k -> keys_ok m -> keys_ok (sinsert k v m).
Proof. intros Hk H x Hx. apply sinsert_keys in Hx. destruct Hx as [->|Hx]; auto. Qed.
Lemma sget_key {V} k (v : V) m : sget k m = Some v -> In k (map fst m).
Proof.
  induction m as [|(k', v') m IH]; [discriminate|]. cbn. unfold sget, hm_get in *. destruct (String.eqb_spec k k'); [now left|].
  right. now apply IH.
Qed.
Lemma keys_get {V} k (v : V) m : keys_ok m -> sget k m = Some v -> linkable url k.
Proof. intros H E. apply H. eapply sget_key; exact E. Qed.

(** The captures of a stored tree are inside the stored text. *)
Lemma tree_fits d uri l t tr : fitting d -> file_ext uri = Some l ->
  sget uri (ls_docs d) = Some t -> sget uri (trees_of l d) = Some tr ->
  fits (lang_of l d) tr (rope_content t).
Proof.
  intros Hc Hl Ht Htr. destruct (fitting_get d uri l t Hc Hl Ht) as (Hs & tr' & E1 & E2).
  rewrite (rope_content_encode t Hs). assert (tr' = tr) by congruence. now subst tr'.
Qed.
Lemma tree_inside d uri l t tr q : fitting d -> file_ext uri = Some l ->
  sget uri (ls_docs d) = Some t -> sget uri (trees_of l d) = Some tr ->
  Forall (inside (rope_content t)) (concat (t_captures T q tr (rope_content t))).
Proof.
  intros Hc Hl Ht Htr. apply Forall_forall. intros x Hx. eapply Hin; [|exact Hx]. eapply tree_fits; eauto.
Qed.
Lemma tree_rows d uri l t tr q : b = Debug -> fitting d -> file_ext uri = Some l ->
  sget uri (ls_docs d) = Some t -> sget uri (trees_of l d) = Some tr ->
  Forall one_row (concat (t_captures T q tr (rope_content t))).
Proof.
  intros Hb Hc Hl Ht Htr. apply Forall_forall. intros x Hx. eapply (Hrow Hb); [|exact Hx]. eapply tree_fits; eauto.
Qed.
(** Linting a stored document does not panic. *)
Lemma read_tree_ok F uri d : fitting d -> exists v, read_tree F b uri d = Ok v.
Proof.
  intros Hc. unfold read_tree. destruct (sget uri (ls_docs d)) as [t|] eqn:Et; [|eauto].
  destruct (file_ext uri) as [l|] eqn:El; [|eauto]. destruct (sget uri (trees_of l d)) as [tr|] eqn:Etr; [|eauto].
  unfold search_errors. destruct l.
  - pose proof (tree_inside d uri Template t tr QObjects Hc El Et Etr) as H1.
    pose proof (tree_inside d uri Template t tr QImports Hc El Et Etr) as H2.
    destruct (objects_ok b _ pt0 _ true H1) as (o & ->). cbn [bind]. destruct (sget uri (ls_vars d)); [|eauto].
    destruct (imports_ok _ pt0 _ true H2) as (i & ->). cbn [bind]. eauto.
  - destruct (sget uri (ls_vars d)); eauto.
Qed.
Lemma read_trees_in_ok F names : forall d m, good d -> keys_ok m ->
  exists r, read_trees_in F b names d m = Ok r /\ keys_ok r.
Proof.
  induction names as [|n names IH]; intros d m Hg Hm; cbn [read_trees_in]; [eauto|].
  destruct (read_tree_ok F n d (g_trees _ Hg)) as (v & E). rewrite E. cbn [bind]. apply IH; [exact Hg|].
  destruct v as [v|]; [|exact Hm]. apply keys_insert; [|exact Hm].
  unfold read_tree in E. destruct (sget n (ls_docs d)) eqn:Ed; [|discriminate]. exact (keys_get _ _ _ (g_docs _ Hg) Ed).
Qed.
(** Analysing a stored tree for its variables does not panic. *)
Lemma add_variables_ok uri l pl c tr d :
  sget uri (trees_of l d) = Some tr -> fits pl tr c -> exists d', add_variables uri l c d = Ok d'.
Proof.
  intros Htr Hpl. unfold add_variables. rewrite Htr.
  assert (HI : forall q, Forall (inside c) (concat (t_captures T q tr c)))
    by (intros q; apply Forall_forall; intros x Hx; exact (Hin _ _ _ q x Hpl Hx)).
  destruct l.
  - destruct (snippets_ok (t_captures T QSnippets tr c) pt0 true) as (sn & ->). cbn [bind]. destruct (sn_error sn); [eauto|].
    destruct (definitions_ok (t_captures T QDefinitions tr c) (t_root_end T tr) pt0 c true (HI _)) as (x & ->). cbn [bind]. eauto.
  - destruct (backend_defs_ok (t_captures T (QBackendDefs (ls_query d)) tr c) pt0 c true (HI _)) as (x & ->). cbn [bind].
    destruct (backend_templates_ok (t_captures T (QBackendTemplates (ls_query d)) tr c) pt0 c true (HI _)) as (y & ->). cbn [bind]. eauto.
Qed.
Lemma add_variables_keys uri l c d d' : linkable url uri -> add_variables uri l c d = Ok d' -> keys_ok (ls_vars d) -> keys_ok (ls_vars d').
Proof.
  intros Hu. unfold add_variables. destruct (sget uri (trees_of l d)) as [tr|].
  2:{ intros H; inversion H; subst; auto. }
  destruct l.
  - destruct (snippets_query _ _ _) as [sn|]; [|discriminate]. cbn [bind].
    destruct (sn_error sn); [intros H; inversion H; subst; auto|].
    destruct (definition_query _ _ _ _ _) as [x|]; [|discriminate]. cbn [bind].
    intros H; inversion H; subst. lsimp. now apply keys_insert.
  - destruct (backend_definition_query _ _ _ _) as [ids|]; [|discriminate]. cbn [bind].
    destruct (backend_templates_query _ _ _ _) as [tp|]; [|discriminate]. cbn [bind].
    intros H; inversion H; subst. lsimp. now apply keys_insert.
Qed.
Lemma delete_variables_keys uri d : keys_ok (ls_vars d) -> keys_ok (ls_vars (delete_variables uri d)).
Proof.
  intros H. unfold delete_variables. destruct (sget uri (ls_vars d)) eqn:E; [|exact H]. lsimp.
  apply keys_insert; [|exact H]. exact (keys_get _ _ _ H E).
Qed.
Lemma add_tree_some uri l c d :
  (forall o, sget uri (trees_of l d) = Some o -> ready (lang_of l d) o c) ->
  exists tr, sget uri (trees_of l (add_tree uri l c d)) = Some tr /\ fits (lang_of l d) tr c.
Proof.
  intros H. unfold add_tree, parse. destruct (t_parse T _ c (sget uri (trees_of l d))) as [tr|] eqn:E; [|now apply Hp in E].
  exists tr. rewrite trees_of_set_same, sget_sinsert_same. split; [reflexivity|].
  destruct (sget uri (trees_of l d)) as [o|]; [|eapply Hfresh; exact E]. eapply Hreuse; [apply H; reflexivity|exact E].
Qed.
Lemma add_tree_other uri l l' c d : l' <> l -> trees_of l' (add_tree uri l c d) = trees_of l' d.
Proof. intros H. unfold add_tree. destruct (parse d l c _); [now apply trees_of_other_lang|reflexivity]. Qed.
Lemma add_tree_parser uri l c d : ls_parser (add_tree uri l c d) = ls_parser d.
Proof. unfold add_tree. destruct (parse d l c _); [apply set_trees_parser|reflexivity]. Qed.
Lemma add_tree_same uri l c d : ls_docs (add_tree uri l c d) = ls_docs d /\ ls_vars (add_tree uri l c d) = ls_vars d.
Proof. unfold add_tree. destruct (parse d l c _); destruct l; split; reflexivity. Qed.

(** Storing a text and its tree. *)
Lemma store_good uri l t d d' : fitting d -> known d -> file_ext uri = Some l -> scalars t ->
  (forall o t0, sget uri (trees_of l d) = Some o -> sget uri (ls_docs d) = Some t0 -> ready (lang_of l d) o (encode t)) ->
  let d2 := set_docs (sinsert uri t (ls_docs d)) d in
  (exists d3, add_variables uri l (encode t) (add_tree uri l (encode t) d2) = Ok d3) /\
  (add_variables uri l (encode t) (add_tree uri l (encode t) d2) = Ok d' -> fitting d' /\ known d').
Proof.
  intros Hc Hk El Hs Hr d2.
  assert (Hr2 : forall o, sget uri (trees_of l d2) = Some o -> ready (lang_of l d2) o (encode t)).
  { intros o Ho. assert (E : trees_of l d2 = trees_of l d) by (destruct l; reflexivity).
    rewrite E in Ho. destruct (Hk _ _ _ Ho) as (t0 & _ & Et0). exact (Hr o t0 Ho Et0). }
  destruct (add_tree_some uri l (encode t) d2 Hr2) as (tr & E1 & E2). split; [exact (add_variables_ok _ _ _ _ tr _ E1 E2)|].
  intros E. assert (Hse : same_elsewhere uri d d').
  { eapply same_trans; [apply (same_set_docs uri t)|]. eapply same_trans; [apply same_add_tree|]. eapply same_add_variables; exact E. }
  pose proof (add_variables_docs _ _ _ _ _ E) as (A1 & A2 & A3 & A4).
  assert (Et : forall l', trees_of l' d' = trees_of l' (add_tree uri l (encode t) d2)) by (intros []; assumption).
  assert (Ed : sget uri (ls_docs d') = Some t).
  { rewrite A1, (proj1 (add_tree_same _ _ _ _)). unfold d2. lsimp. apply sget_sinsert_same. }
  split.
  - eapply fitting_update; [exact Hse|exact Hc|]. intros t' Ht'.
    assert (t' = t) by congruence. subst t'. split; [exact Hs|]. exists l, tr. rewrite Et. split; [exact El|]. split; [exact E1|].
    replace (lang_of l d') with (lang_of l d2); [exact E2|]. destruct l; [reflexivity|]. change (ls_parser d2 = ls_parser d'). rewrite A4. symmetry. apply add_tree_parser.
  - eapply known_update; [exact Hse|exact Hk|]. intros l' tr' Ht'. exists t. split; [|exact Ed].
    assert (Hll : l' = l \/ l' <> l) by (destruct l, l'; auto; right; discriminate). destruct Hll as [->|Hll]; [exact El|].
    rewrite Et, (add_tree_other _ _ _ _ _ Hll) in Ht'.
    assert (E3 : trees_of l' d2 = trees_of l' d) by (destruct l'; reflexivity). rewrite E3 in Ht'.
    destruct (Hk _ _ _ Ht') as (t0 & H0 & _). exact H0.
Qed.

(** ** The notifications *)
Lemma did_open_good F uri t d : good d -> scalars t -> linkable url uri ->
  (forall l tr t0, sget uri (ls_docs d) = Some t0 -> fits l tr (encode t0) -> ready l tr (encode t)) ->
  exists d' r, did_open F b uri t false d = Ok (d', r) /\ good d' /\ match r with Some r => keys_ok r | None => True end.
Proof.
  intros [Hc Hk Hd Hv] Hs Hu Hrd. unfold did_open. destruct (file_ext uri) as [l|] eqn:El.
  2:{ exists d, None. split; [reflexivity|]. split; [now constructor|exact I]. }
  set (d1 := delete_variables uri d). cbn zeta.
  pose proof (delete_variables_docs uri d) as HD. fold d1 in HD. pose proof HD as (D1 & D2 & D3 & D4).
  assert (Hr1 : forall o t0, sget uri (trees_of l d1) = Some o -> sget uri (ls_docs d1) = Some t0 -> ready (lang_of l d1) o (encode t)).
  { intros o t0 Ho H0. rewrite D1 in H0. assert (Ho' : sget uri (trees_of l d) = Some o) by (destruct l; cbn in *; congruence).
    destruct (fitting_get d uri l t0 Hc El H0) as (_ & tr & E1 & E2). assert (tr = o) by congruence. subst tr.
    assert (lang_of l d1 = lang_of l d) as -> by (destruct l; [reflexivity|exact D4]). exact (Hrd _ _ _ H0 E2). }
  destruct (store_good uri l t d1 d1 (same_docs_fitting _ _ HD Hc) (same_docs_known _ _ HD Hk) El Hs Hr1) as ((d3 & E3) & _).
  destruct (store_good uri l t d1 d3 (same_docs_fitting _ _ HD Hc) (same_docs_known _ _ HD Hk) El Hs Hr1) as (_ & G3).
  destruct (G3 E3) as (Hf3 & Hk3). rewrite E3. cbn [bind].
  assert (Hg : good d3).
  { constructor; [exact Hf3|exact Hk3| |].
    - pose proof (add_variables_docs _ _ _ _ _ E3) as (A1 & _). rewrite A1, (proj1 (add_tree_same _ _ _ _)). lsimp.
      apply keys_insert; [exact Hu|]. rewrite D1. exact Hd.
    - eapply add_variables_keys; [exact Hu|exact E3|]. rewrite (proj2 (add_tree_same _ _ _ _)). lsimp. now apply delete_variables_keys. }
  destruct (read_tree_ok F uri d3 Hf3) as ([v|] & ->); cbn [bind]; (do 2 eexists; split; [reflexivity|]; split; [exact Hg|]); [|exact I].
  intros k [<-|[]]. exact Hu.
Qed.
Lemma did_save_good F uri d : good d ->
  exists d' r, did_save F b uri d = Ok (d', r) /\ good d' /\ match r with Some r => keys_ok r | None => True end.
Proof.
  intros [Hc Hk Hd Hv]. unfold did_save. destruct (file_ext uri) as [l|] eqn:El.
  2:{ exists d, None. split; [reflexivity|]. split; [now constructor|exact I]. }
  destruct (sget uri (ls_docs d)) as [t|] eqn:Et.
  2:{ exists d, None. split; [reflexivity|]. split; [now constructor|exact I]. }
  pose proof (keys_get _ _ _ Hd Et) as Hu.
  pose proof (delete_variables_docs uri d) as (B1 & B2 & B3 & B4).
  destruct (fitting_get d uri l t Hc El Et) as (Hs & tr & E1 & E2).
  assert (E1' : sget uri (trees_of l (delete_variables uri d)) = Some tr)
    by (destruct l; cbn [trees_of] in *; congruence).
  rewrite (rope_content_encode t Hs).
  destruct (add_variables_ok uri l _ (encode t) tr _ E1' E2) as (d1 & Ev). rewrite Ev. cbn [bind].
  assert (Hc1 : fitting d1).
  { eapply same_docs_fitting; [eapply add_variables_docs; exact Ev|]. eapply same_docs_fitting; [apply delete_variables_docs|exact Hc]. }
  destruct (read_tree_ok F uri d1 Hc1) as (v & ->). cbn [bind]. do 2 eexists. split; [reflexivity|]. split.
  - constructor; [exact Hc1| | |].
    + eapply same_docs_known; [eapply add_variables_docs; exact Ev|]. eapply same_docs_known; [apply delete_variables_docs|exact Hk].
    + pose proof (add_variables_docs _ _ _ _ _ Ev) as (A1 & _). rewrite A1, B1. exact Hd.
    + eapply add_variables_keys; [exact Hu|exact Ev|]. now apply delete_variables_keys.
  - intros k [<-|[]]. exact Hu.
Qed.
Lemma input_edit_same uri l edits : forall d, ls_docs (apply_edits uri l edits d) = ls_docs d /\ ls_vars (apply_edits uri l edits d) = ls_vars d.
Proof.
  induction edits as [|e edits IH]; intros d; [split; reflexivity|]. cbn [apply_edits fold_left].
  destruct (IH (input_edit_tree uri (fst e) (snd e) l d)) as (I1 & I2). unfold apply_edits in *. rewrite I1, I2.
  unfold input_edit_tree. destruct l as [l|]; [|split; reflexivity]. destruct (sget uri (trees_of l d)); [|split; reflexivity].
  destruct (parse _ l _ _); destruct l; split; reflexivity.
Qed.
Lemma apply_edits_other uri l l' edits : l' <> l -> forall d, trees_of l' (apply_edits uri (Some l) edits d) = trees_of l' d.
Proof.
  intros Hl. unfold apply_edits. induction edits as [|e edits IH]; intros d; [reflexivity|]. cbn [fold_left]. rewrite IH.
  unfold input_edit_tree. destruct (sget uri (trees_of l d)); [|reflexivity]. destruct (parse _ l _ _); now rewrite !trees_of_other_lang.
Qed.
Lemma apply_edits_fits uri l edits t t' : edit_chain t edits t' -> forall d tr,
  sget uri (trees_of l d) = Some tr -> fits (lang_of l d) tr (encode t) ->
  exists tr', sget uri (trees_of l (apply_edits uri (Some l) edits d)) = Some tr' /\ fits (lang_of l d) tr' (encode t').
Proof.
  unfold apply_edits. induction 1 as [t|t t1 ie es t2 Hr _ IH]; intros d tr Htr Hf; [eauto|]. cbn [fold_left fst snd].
  specialize (IH (input_edit_tree uri (encode t1) ie (Some l) d)).
  assert (E : exists new, sget uri (trees_of l (input_edit_tree uri (encode t1) ie (Some l) d)) = Some new /\
                fits (lang_of l d) new (encode t1) /\ lang_of l (input_edit_tree uri (encode t1) ie (Some l) d) = lang_of l d).
  { unfold input_edit_tree. rewrite Htr. unfold parse. rewrite set_trees_parser.
    destruct (t_parse T _ (encode t1) (Some (t_edit T tr ie))) as [new|] eqn:E; [|now apply Hp in E].
    exists new. rewrite trees_of_set_same, sget_sinsert_same. split; [reflexivity|].
    split; [eapply Hreuse; [apply Hr; exact Hf|exact E]|]. destruct l; reflexivity. }
  destruct E as (new & E1 & E2 & E3). rewrite E3 in IH. exact (IH new E1 E2).
Qed.
Lemma did_change_good tid uri cs d : good d ->
  (forall t, sget uri (ls_docs d) = Some t -> scalars t ->
     exists t' edits, apply_changes t cs = Ok (t', false, edits) /\ scalars t' /\ edit_chain t edits t') ->
  exists d' r, did_change tid uri cs d = Ok (d', r) /\ good d'.
Proof.
  intros [Hc Hk Hd Hv] He. destruct (sget uri (ls_docs d)) as [t|] eqn:Et.
  2:{ exists d, None. unfold did_change. rewrite Et. split; [reflexivity|]. now constructor. }
  destruct (Hc uri t Et) as (Hs & l & tr & El & Htr & Hf).
  destruct (He t eq_refl Hs) as (t' & edits & Ea & Hs' & Hch).
  unfold did_change. rewrite Et, Ea. cbn [bind]. do 2 eexists. split; [reflexivity|]. rewrite El.
  set (d1 := set_docs _ d). set (d2 := apply_edits _ _ _ d1).
  assert (Hse : same_elsewhere uri d (set_task (Some tid) d2)).
  { eapply did_change_frame. unfold did_change. rewrite Et, Ea. cbn [bind]. rewrite El. reflexivity. }
  assert (Ed : ls_docs (set_task (Some tid) d2) = sinsert uri t' (ls_docs d)).
  { change (ls_docs d2 = sinsert uri t' (ls_docs d)). unfold d2. rewrite (proj1 (input_edit_same _ _ _ _)). reflexivity. }
  assert (Htr1 : sget uri (trees_of l d1) = Some tr) by (destruct l; exact Htr).
  destruct (apply_edits_fits uri l edits t t' Hch d1 tr Htr1) as (tr' & F1 & F2); [destruct l; exact Hf|].
  constructor.
  - eapply fitting_update; [exact Hse|exact Hc|]. intros t0 Ht0.
    rewrite Ed, sget_sinsert_same in Ht0. inversion Ht0; subst t0. split; [exact Hs'|]. exists l, tr'. split; [exact El|].
    split; [rewrite set_task_trees; exact F1|].
    replace (lang_of l (set_task (Some tid) d2)) with (lang_of l d1); [exact F2|]. destruct l; [reflexivity|].
    symmetry. exact (apply_edits_parser uri (Some Backend) edits d1).
  - eapply known_update; [exact Hse|exact Hk|]. intros l' tr0 Ht0. exists t'. split; [|rewrite Ed; apply sget_sinsert_same].
    assert (Hll : l' = l \/ l' <> l) by (destruct l, l'; auto; right; discriminate). destruct Hll as [->|Hll]; [exact El|].
    rewrite set_task_trees in Ht0. assert (E : trees_of l' d2 = trees_of l' d).
    { unfold d2. rewrite (apply_edits_other uri l l' edits Hll). destruct l'; reflexivity. }
    rewrite E in Ht0. destruct (Hk _ _ _ Ht0) as (t1 & H1 & _). congruence.
  - rewrite Ed. apply keys_insert; [|exact Hd]. exact (keys_get _ _ _ Hd Et).
  - change (keys_ok (ls_vars d2)). unfold d2. rewrite (proj2 (input_edit_same _ _ _ _)). exact Hv.
Qed.

(** ** Indexing *)
Lemma file_uri_linkable r : linkable url (file_uri ("/" ++ r)).
Proof.
  split; [exact (Hurl r)|]. intros n.
  assert (E : (file_uri ("/" ++ r) ++ "-" ++ n = "file:///" ++ (r ++ "-" ++ n))%string) by reflexivity.
  rewrite E. apply Hurl.
Qed.
(** While one directory tree is indexed, the stored text of a file is what is
    on the disk. *)
Definition from_disk (F : fs) d : Prop :=
  forall n t, sget (file_uri n) (ls_docs d) = Some t -> f_read F n = Some t.
Lemma file_uri_inj n n' : file_uri n = file_uri n' -> n = n'.
Proof. unfold file_uri. cbn. intros H. now inversion H. Qed.
Lemma read_file_good F p l d : disk_ok F -> rooted F -> file_ext p = Some l -> good d -> from_disk F d ->
  exists d', read_file F p l d = Ok d' /\ good d' /\ from_disk F d'.
Proof.
  intros (Hd1 & Hd2) Hr Hl Hg Hfd. unfold read_file. destruct (f_canon F p) as [n| |] eqn:Ec; [|eauto|eauto].
  destruct (f_read F n) as [t|] eqn:Er; [|eauto].
  pose proof (Hd1 _ _ Ec) as Hext. rewrite Hl in Hext. pose proof (Hd2 _ _ Er) as Hs. cbn zeta. destruct Hg as [Hc Hk Hd Hv].
  assert (Hu : linkable url (file_uri n)) by (destruct (Hr _ _ Ec) as (r & ->); apply file_uri_linkable).
  assert (Hr1 : forall o t0, sget (file_uri n) (trees_of l d) = Some o -> sget (file_uri n) (ls_docs d) = Some t0 -> ready (lang_of l d) o (encode t)).
  { intros o t0 Ho H0. pose proof (Hfd n t0 H0) as E0. assert (t0 = t) by congruence. subst t0. apply Hsame.
    destruct (fitting_get d _ l t Hc Hext H0) as (_ & tr & E1 & E2). assert (tr = o) by congruence. now subst tr. }
  destruct (store_good (file_uri n) l t d d Hc Hk Hext Hs Hr1) as ((d' & E) & _).
  destruct (store_good (file_uri n) l t d d' Hc Hk Hext Hs Hr1) as (_ & G). destruct (G E) as (Hf' & Hk').
  pose proof (add_variables_docs _ _ _ _ _ E) as (A1 & _). rewrite (proj1 (add_tree_same _ _ _ _)) in A1. lsimp in A1.
  exists d'. split; [exact E|]. split; [constructor; [exact Hf'|exact Hk'| |]|].
  - rewrite A1. now apply keys_insert.
  - eapply add_variables_keys; [exact Hu|exact E|]. rewrite (proj2 (add_tree_same _ _ _ _)). lsimp. exact Hv.
  - intros m u Hm. rewrite A1 in Hm. destruct (String.string_dec (file_uri m) (file_uri n)) as [Em|Em].
    + rewrite Em, sget_sinsert_same in Hm. inversion Hm; subst u. apply file_uri_inj in Em. now subst m.
    + rewrite sget_sinsert_other in Hm by exact Em. exact (Hfd _ _ Hm).
Qed.
Lemma walk_entries_good F es : disk_ok F -> rooted F -> forall d, good d -> from_disk F d ->
  exists r, walk_entries F es d = Ok r /\ match r with Some d' => good d' /\ from_disk F d' | None => True end.
Proof.
  intros Hd Hr. induction es as [|e es IH]; intros d Hg Hfd; cbn [walk_entries]; [exists (Some d); auto|].
  destruct e as [|pth|pth]; [exists None; auto| |auto].
  destruct (file_ext pth) as [l|] eqn:El; [|auto].
  destruct (read_file_good F pth l d Hd Hr El Hg Hfd) as (d1 & -> & Hg1 & Hfd1). cbn [bind]. auto.
Qed.
Lemma walk_dirs_good F ds : disk_ok F -> rooted F -> forall d, good d -> from_disk F d ->
  exists r, walk_dirs F ds d = Ok r /\ match r with Some d' => good d' /\ from_disk F d' | None => True end.
Proof.
  intros Hd Hr. induction ds as [|e ds IH]; intros d Hg Hfd; cbn [walk_dirs]; [exists (Some d); auto|].
  destruct (walk_entries_good F (f_walk F e) Hd Hr d Hg Hfd) as (r & -> & Hg1). cbn [bind].
  destruct r as [d1|]; [destruct Hg1; auto|exists None; auto].
Qed.
Lemma walk_init_empty c : ls_docs (walk_init T c) = [] /\ ls_vars (walk_init T c) = [] /\ forall l, trees_of l (walk_init T c) = [].
Proof. unfold walk_init, update_backend. destruct (String.eqb (cf_lang c) "python"); (split; [reflexivity|]; split; [reflexivity|intros []; reflexivity]). Qed.
Lemma walk_init_good c : good (walk_init T c).
Proof.
  destruct (walk_init_empty c) as (E1 & E2 & E3).
  constructor; [intros u t X|intros u l tr X|intros k|intros k]; rewrite ?E1, ?E2, ?E3 in *; try discriminate; intros [].
Qed.
Lemma walkdir_good F c : disk_ok F -> rooted F ->
  exists r, walkdir T F b c = Ok r /\ match r with Some (m, d) => good d /\ keys_ok m | None => True end.
Proof.
  intros Hd Hr. unfold walkdir. destruct (walk_dirs_good F (cf_templates c :: cf_backend c) Hd Hr (walk_init T c) (walk_init_good c)) as (r & -> & Hg).
  { intros n t. rewrite (proj1 (walk_init_empty c)). discriminate. }
  cbn [bind]. destruct r as [d|]; [destruct Hg as (Hg & _)|exists None; auto].
  destruct (read_trees_in_ok F (map fst (ls_tt d)) d [] Hg) as (m & E & Hm); [intros k []|].
  unfold read_trees. rewrite E. cbn [bind]. exists (Some (m, d)). auto.
Qed.

(** ** The requests *)
Lemma usize_sub_ok x y : (b = Debug -> y <= x) -> exists z, usize_sub b x y = Ok z.
Proof.
  intros H. unfold usize_sub. destruct (y <=? x) eqn:E; [eauto|]. destruct b; [|eauto]. specialize (H eq_refl). lia.
Qed.
Lemma completion_start_ok tp i :
  (b = Debug -> row (id_start i) = row (id_end i) /\ in_id tp i = true) -> exists r, completion_start b tp i = Ok r.
Proof.
  intros H. unfold completion_start. destruct (slen (id_name i) =? 0); [eauto|].
  destruct (usize_sub_ok (col (id_end i)) (if 0 <? col tp then col tp - 1 else col tp)) as (z & ->).
  - intros Hb. destruct (H Hb) as (H1 & H2). unfold in_id in H2. apply andb_true_iff in H2. destruct H2 as (H2 & H3).
    unfold pt_leb in *. destruct (0 <? col tp) eqn:E; lia.
  - cbn [bind]. destruct ((z =? 0) || (z =? 1)); [eauto|]. destruct (slen (id_name i) <? z); eauto.
Qed.

(** The rows of what a lookup selects. *)
Definition flat (l : point * point) : Prop := row (fst l) = row (snd l).
Definition rowed (s : jobjects) : Prop := flat (os_ident s) /\ Forall (fun o => flat (o_loc o)) (os_objects s).
Lemma update_last_flat f os : (forall o, o_loc (f o) = o_loc o) -> Forall (fun o => flat (o_loc o)) os -> Forall (fun o => flat (o_loc o)) (update_last f os).
Proof. intros Hf H. apply update_last_Forall; [exact H|]. intros o Ho. now rewrite Hf. Qed.
Lemma obj_check_rowed src s c s' a : (c_name c = CJustId -> row (n_start (c_node c)) = row (n_end (c_node c))) ->
  rowed s -> obj_check src s c = Ok (s', a) -> rowed s'.
Proof.
  intros Hc (H1 & H2) H. unfold obj_check in H. destruct (c_name c) eqn:En; try (inversion H; subst; split; cbn; auto; fail).
  - specialize (Hc eq_refl). unfold build_object in H. destruct (utf8_text (c_node c) src) as [[v|]|]; cbn [bind fst snd] in H; [| |discriminate].
    2:{ inversion H; subst. split; auto. }
    assert (HN : forall s1 a1, new_object s v (n_start (c_node c)) (n_end (c_node c)) = (s1, a1) -> rowed s1).
    { intros s1 a1 E. unfold new_object in E. destruct (str_mem v valid_identifiers); inversion E; subst; split; cbn; auto.
      apply Forall_app. split; [exact H2|]. repeat constructor. exact Hc. }
    destruct ((_ =? _) && (_ =? _)).
    + destruct (os_objects s) as [|o os] eqn:Eo; cbn [bind] in H.
      * destruct (new_object s v _ _) as (s1 & a1) eqn:E. inversion H; subst. eapply HN; reflexivity.
      * inversion H; subst. split; cbn; [exact Hc|]. apply (update_last_flat _ (o :: os)); auto.
    + cbn [bind] in H. destruct (new_object s v _ _) as (s1 & a1) eqn:E. inversion H; subst. eapply HN; reflexivity.
  - destruct (utf8_text (c_node c) src) as [[v|]|]; cbn [bind] in H; inversion H; subst; [|split; auto].
    destruct (starts_with v "|"); split; cbn; auto.
Qed.
Lemma finish_rowed l s s' : rowed s -> finish_lookahead b l s = Ok s' -> rowed s'.
Proof.
  intros (H1 & H2) H. unfold finish_lookahead in H.
  set (s1 := match nth_error _ _ with Some o => _ | None => _ end) in H.
  assert (H3 : rowed s1).
  { unfold s1. destruct (nth_error (os_objects s) (N.to_nat (l_my_id l))) as [o|] eqn:E; [|split; auto]. split; cbn.
    - apply nth_error_In in E. rewrite Forall_forall in H2. exact (H2 _ E).
    - apply update_nth_Forall; [exact H2|]. auto. }
  clearbody s1. destruct (usize_sub _ _ _) as [n|]; cbn [bind] in H; [|discriminate].
  destruct (negb _); inversion H; subst; [|exact H3]. destruct H3 as (H4 & H5). split; cbn; [exact H4|].
  rewrite Forall_forall in *. intros o Ho. apply H5. clear -Ho. induction (os_objects s1) as [|x [|y l] IH]; [destruct Ho|destruct Ho|].
  destruct Ho as [->|Ho]; [now left|right; now apply IH].
Qed.
Lemma objects_rowed ms tp src all s :
  Forall one_row (concat ms) ->
  objects_query b ms tp src all = Ok s -> rowed s.
Proof.
  intros HF H. unfold objects_query in H. destruct (run _ oloop0 (concat ms)) as [l|] eqn:E; cbn [bind] in H; [|discriminate].
  inversion H; subst. clear H. assert (H0 : rowed (l_objs oloop0)) by (split; [reflexivity|constructor]).
  revert H0 E. generalize oloop0. induction (concat ms) as [|c cs IH]; intros l0 H0 E; cbn [run] in E; [inversion E; subst; exact H0|].
  inversion HF as [|? ? Hc HF']; subst. specialize (IH HF').
  destruct (obj_step b src tp all l0 c) as [(l1 & k)|] eqn:Es; [|discriminate].
  assert (H1 : rowed (l_objs l1)).
  { unfold obj_step in Es. cbn zeta in Es. destruct (all || _).
    - destruct (obj_check src (l_objs l0) c) as [(s1 & a)|] eqn:Ec; cbn [bind fst snd] in Es; [|discriminate]. inversion Es; subst. cbn.
      eapply obj_check_rowed; [|exact H0|exact Ec]. auto.
    - destruct (pt_leb tp _); [|inversion Es; subst; exact H0].
      destruct (is_filter _ || _); [inversion Es; subst; exact H0|].
      destruct (negb (l_continued l0)).
      + destruct (is_hover (l_objs l0) tp); [|inversion Es; subst; exact H0].
        destruct (usize_sub _ _ _); cbn [bind] in Es; inversion Es; subst; exact H0.
      + destruct (obj_check src (l_objs l0) c) as [(s1 & a)|] eqn:Ec; cbn [bind fst snd] in Es; [|discriminate].
        assert (H2 : rowed s1) by (eapply obj_check_rowed; [|exact H0|exact Ec]; auto).
        destruct a as [[]|]; try (inversion Es; subst; exact H2);
          (destruct (finish_lookahead b l0 s1) as [s2|] eqn:Ef; cbn [bind] in Es; inversion Es; subst; eapply finish_rowed; eauto). }
  destruct k; [eapply IH; eauto|inversion E; subst; exact H1].
Qed.
Lemma obj_completion_ok s tp : (b = Debug -> rowed s) -> exists r, obj_completion b s tp = Ok r.
Proof.
  intros H. unfold obj_completion. destruct (in_pipe s tp); [eauto|]. destruct (in_expr s tp).
  - destruct (pt_eqb tp _ && _); [eauto|]. destruct (pt_ltb (snd (os_ident s)) tp); [eauto|].
    destruct (is_ident s tp) as [n|] eqn:Ei; [|eauto].
    destruct (completion_start_ok tp (id_new n (fst (os_ident s)) (snd (os_ident s)))) as (r & ->).
    + intros Hb. destruct (H Hb) as (H1 & _). split; [exact H1|]. unfold is_ident in Ei. unfold in_id. cbn.
      destruct (pt_leb (fst (os_ident s)) tp && pt_leb tp (snd (os_ident s))); [reflexivity|discriminate].
    + cbn [bind]. destruct r; eauto.
  - destruct (is_test s tp); eauto.
Qed.
Lemma bt_rows src cs : forall s s',
  Forall one_row cs ->
  Forall (fun i => row (id_start i) = row (id_end i)) (bt_templates s) ->
  run (bt_check src) s cs = Ok s' -> Forall (fun i => row (id_start i) = row (id_end i)) (bt_templates s').
Proof.
  induction cs as [|c cs IH]; intros s s' HF Hs E; cbn [run] in E; [inversion E; subst; exact Hs|].
  inversion HF as [|? ? Hc HF']; subst. destruct (bt_check src s c) as [(s1 & k)|] eqn:Ec; [|discriminate].
  assert (H1 : Forall (fun i => row (id_start i) = row (id_end i)) (bt_templates s1)).
  { unfold bt_check in Ec. destruct (c_name c) eqn:En; try (inversion Ec; subst; exact Hs).
    - destruct (bt_in_method s); [|inversion Ec; subst; exact Hs].
      destruct (utf8_text (c_node c) src) as [[v|]|]; cbn [bind] in Ec; inversion Ec; subst; [|exact Hs]. cbn.
      apply Forall_app. split; [exact Hs|]. repeat constructor. cbn. auto.
    - destruct (utf8_text (c_node c) src) as [[v|]|]; cbn [bind] in Ec; try discriminate; [|inversion Ec; subst; exact Hs].
      destruct (str_mem v methods); inversion Ec; subst; exact Hs. }
  destruct k; [eapply IH; eauto|inversion E; subst; exact H1].
Qed.
Lemma last_opt_In {A} (x : A) l : last_opt l = Some x -> In x l.
Proof.
  induction l as [|y [|z l] IH]; cbn; [discriminate| |]; intros H; [inversion H; now left|]. right. apply IH. exact H.
Qed.
Lemma completion_ok uri pos ctx d : good d -> (b = Debug -> character pos + 1 < two32) ->
  exists r, completion b uri pos ctx d = Ok r.
Proof.
  intros [Hc Hk Hd Hv] Hpos. unfold completion. destruct (negb _); [eauto|]. cbn zeta.
  destruct (file_ext uri) as [l|] eqn:El; [|eauto]. destruct (sget uri (trees_of l d)) as [tr|] eqn:Etr; [|eauto].
  destruct (sget uri (ls_docs d)) as [t|] eqn:Et; [|eauto].
  assert (HI : forall q, Forall (inside (rope_content t)) (concat (t_captures T q tr (rope_content t))))
    by (intros q; exact (tree_inside d uri l t tr q Hc El Et Etr)).
  assert (HR : b = Debug -> forall q, Forall one_row (concat (t_captures T q tr (rope_content t))))
    by (intros Hb q; exact (tree_rows d uri l t tr q Hb Hc El Et Etr)).
  assert (HU : exists z, u32_add b (character (to_position2 (point_of pos))) 1 = Ok z).
  { unfold u32_add. destruct (_ <? two32) eqn:E; [eauto|]. destruct b; [|eauto]. specialize (Hpos eq_refl). cbn in E. unfold as_u32, two32 in *.
    rewrite N.mod_small in E by lia. lia. }
  destruct HU as (z & HU). destruct l.
  - destruct (snippets_ok (t_captures T QSnippets tr (rope_content t)) (point_of pos) false) as (sn & ->). cbn [bind].
    assert (HT : exists r, to_complete b sn (point_of pos) = Ok r).
    { unfold to_complete. destruct (sn_error sn && _); [eauto|]. destruct (sn_error sn && _ && _); [|eauto].
      destruct (pt_leb (sn_start sn) _ && _); [eauto|]. rewrite HU. cbn [bind]. eauto. }
    destruct HT as (r & ->). cbn [bind]. destruct (is_some r); [rewrite HU; cbn [bind]; eauto|].
    destruct (objects_ok b (t_captures T QObjects tr (rope_content t)) (point_of pos) (rope_content t) false (HI _)) as (os & Eo). rewrite Eo. cbn [bind].
    destruct (obj_completion_ok os (point_of pos)) as (c & ->); [intros Hb; eapply objects_rowed; [exact (HR Hb QObjects)|exact Eo]|]. cbn [bind].
    destruct c as [c|]; [eauto|].
    destruct (imports_ok (t_captures T QImports tr (rope_content t)) (point_of pos) (rope_content t) false (HI _)) as (im & Ei). rewrite Ei. cbn [bind].
    destruct (in_template im) as [i|] eqn:Em; [|eauto]. destruct (import_get i (point_of pos)) as [x|] eqn:Eg; [|eauto].
    destruct (completion_start_ok (point_of pos) x) as (st & ->); [|cbn [bind]; destruct st; eauto].
    intros Hb. set (P := fun s e : point => row s = row e).
    assert (HP : placed_all P im).
    { unfold templates_query in Ei. refine (run_placed P (rope_content t) eq_refl _ jimports0 im _ (Forall_nil _) Ei).
      apply inside_flat. eapply Forall_impl; [|exact (HR Hb QImports)]. intros c Hx Hn. apply Hx. now right. }
    unfold in_template in Em. destruct (im_current im) as [id|]; [|discriminate]. apply nget_In in Em.
    unfold placed_all in HP. rewrite Forall_forall in HP. specialize (HP _ Em). cbn [snd] in HP.
    destruct i; cbn [import_get placed_import] in *;
      try (destruct (in_id (point_of pos) template) eqn:Ex; inversion Eg; subst x; split; [exact HP|exact Ex]).
    apply find_some in Eg. destruct Eg as (Eg1 & Eg2). rewrite Forall_forall in HP. split; [exact (HP _ Eg1)|exact Eg2].
  - destruct (backend_templates_ok (t_captures T (QBackendTemplates (ls_query d)) tr (rope_content t)) (point_of pos) (rope_content t) false (HI _)) as (bt & Eb).
    rewrite Eb. cbn [bind]. destruct (bt_in_template bt (point_of pos)) as [i|] eqn:Ei; [|eauto].
    destruct (completion_start_ok (point_of pos) i) as (st & ->); [|cbn [bind]; destruct st; eauto].
    intros Hb. unfold bt_in_template in Ei. destruct (last_opt (bt_templates bt)) as [i'|] eqn:El'; [|discriminate].
    destruct (in_id (point_of pos) i') eqn:Ex; inversion Ei; subst i'. split; [|exact Ex].
    assert (HF : Forall (fun i => row (id_start i) = row (id_end i)) (bt_templates bt)).
    { unfold backend_templates_query in Eb. refine (bt_rows _ _ (mkbt [] false) bt _ (Forall_nil _) Eb). apply inside_flat. exact (HR Hb (QBackendTemplates (ls_query d))). }
    rewrite Forall_forall in HF. apply HF. now apply last_opt_In.
Qed.
Lemma do_completion_ok uri pos ctx d : good d -> (b = Debug -> character pos + 1 < two32) ->
  exists r, do_completion b uri pos ctx d = Ok r.
Proof.
  intros Hg Hpos. unfold do_completion. destruct (completion_ok uri pos ctx d Hg Hpos) as (r & ->). cbn [bind]. eauto.
Qed.
Lemma hover_ok uri pos d : good d -> exists r, do_hover b uri pos d = Ok r.
Proof.
  intros [Hc Hk Hd Hv]. unfold do_hover.
  assert (H : exists h, hover b uri pos d = Ok h).
  { unfold hover. destruct (file_ext uri) as [[|]|] eqn:El; [|eauto|eauto]. destruct (sget uri (ls_tt d)) as [tr|] eqn:Etr; [|eauto].
    destruct (sget uri (ls_docs d)) as [t|] eqn:Et; [|eauto]. cbn zeta.
    destruct (objects_ok b (t_captures T QObjects tr (rope_content t)) (point_of pos) (rope_content t) false) as (o & ->).
    - exact (tree_inside d uri Template t tr QObjects Hc El Et Etr).
    - cbn [bind]. destruct (is_hover o _); [|eauto]. destruct (get_last_id o); eauto. }
  destruct H as (h & ->). cbn [bind]. eauto.
Qed.
Lemma goto_file_ok ident file (vs : list identifier) : linkable url file -> exists r, goto_file url ident file vs = Ok r.
Proof.
  intros (H1 & H2). induction vs as [|v vs (r & IH)]; cbn [goto_file]; [eauto|]. destruct (String.eqb _ _); [|eauto].
  assert (Hr : url (if pt_eqb (id_start v) pt0 && pt_eqb (id_end v) pt0 then (file ++ "-" ++ id_name v)%string else file) <> None)
    by (destruct (_ && _); auto).
  cbn zeta. match goal with |- context [match url ?r with _ => _ end] => destruct (url r) end; [|congruence]. rewrite IH. cbn [bind]. eauto.
Qed.
Lemma goto_others_ok ident uri (vars : smap (list identifier)) : keys_ok vars -> exists r, goto_others url ident uri vars = Ok r.
Proof.
  induction vars as [|(f, vs) vars IH]; intros H; cbn [goto_others]; [eauto|].
  assert (H' : keys_ok vars) by (intros k Hk; apply H; now right). destruct (IH H') as (r & ->).
  destruct (String.eqb f uri); [eauto|]. destruct (goto_file_ok ident f vs) as (x & ->); [apply H; now left|]. cbn [bind]. eauto.
Qed.
Lemma goto_ok F uri pos d : good d -> exists r, goto_definition F url b uri pos d = Ok r.
Proof.
  intros [Hc Hk Hd Hv]. unfold goto_definition. destruct (file_ext uri) as [l|] eqn:El; [|eauto].
  destruct (sget uri (trees_of l d)) as [tr|] eqn:Etr; [|eauto]. cbn zeta. destruct (sget uri (ls_docs d)) as [t|] eqn:Et; [|eauto].
  assert (HI : forall q, Forall (inside (rope_content t)) (concat (t_captures T q tr (rope_content t))))
    by (intros q; exact (tree_inside d uri l t tr q Hc El Et Etr)).
  destruct l.
  - destruct (objects_ok b (t_captures T QObjects tr (rope_content t)) (point_of pos) (rope_content t) false (HI _)) as (o & ->). cbn [bind].
    destruct (goto_local uri _ _ d); [eauto|].
    destruct (imports_ok (t_captures T QImports tr (rope_content t)) (point_of pos) (rope_content t) false (HI _)) as (im & ->). cbn [bind].
    match goal with |- context [match ?x with Some r => Ok (Some r) | None => _ end] => destruct x end; [eauto|].
    match goal with |- context [goto_others url ?c uri ?v] => destruct (goto_others_ok c uri v Hv) as (r & ->) end. cbn [bind]. eauto.
  - destruct (backend_templates_ok (t_captures T (QBackendTemplates (ls_query d)) tr (rope_content t)) (point_of pos) (rope_content t) false (HI _)) as (bt & ->).
    cbn [bind]. destruct (bt_in_template bt _); eauto.
Qed.
Lemma code_action_ok uri pos d : good d -> exists r, code_action b uri pos d = Ok r.
Proof.
  intros [Hc Hk Hd Hv]. unfold code_action. destruct (file_ext uri) as [l|] eqn:El; [|eauto]. cbn zeta.
  destruct (sget uri (trees_of l d)) as [tr|] eqn:Etr; [|eauto]. destruct (sget uri (ls_actions d)) as [acts|]; [|eauto]. destruct l.
  - destruct (sget uri (ls_docs d)) as [t|] eqn:Et; [|eauto]. destruct (find _ acts); [eauto|].
    destruct (objects_ok b (t_captures T QObjects tr (rope_content t)) (point_of pos) (rope_content t) false) as (o & ->).
    + exact (tree_inside d uri Template t tr QObjects Hc El Et Etr).
    + cbn [bind]. destruct (in_expr o _); eauto.
  - destruct (find _ acts); eauto.
Qed.
Lemma process_ok F a d : exists r, process_code_actions F url a d = Ok r.
Proof.
  unfold process_code_actions. destruct a; [eauto|]. destruct (f_canon F _); eauto.
  destruct (url _) eqn:E; [eauto|]. now apply Hurl in E.
Qed.

(** ** One message, then whole executions *)
Implicit Types (s : task_state T).
Definition diags_ok (es : list effect) : Prop := Forall keys_ok (handed es).
Lemma step_good F s m : good (tk_data s) -> ok F s m ->
  exists s' es, step F url b s m = Ok (s', es) /\ good (tk_data s') /\ diags_ok es.
Proof.
  intros Hg Ha. destruct m; cbn [step].
  - do 2 eexists. split; [reflexivity|]. split; [|constructor]. cbn.
    destruct client as [n|]; [|exact Hg]. destruct (String.eqb n _); [|exact Hg]. destruct Hg as [A A0 B C]. constructor; auto.
  - unfold do_initialized. destruct (ok_init _ _ Ha) as (Hd & Hr). set (logs := ELog "Initialized" :: _).
    assert (HL : handed logs = []) by (unfold logs; destruct (cf_user (tk_config s)), (String.eqb (cf_templates (tk_config s)) ""); reflexivity).
    clearbody logs. destruct (negb _).
    { do 2 eexists. split; [reflexivity|]. split; [exact Hg|]. unfold diags_ok, handed in *. rewrite flat_map_app, HL. constructor. }
    destruct (walkdir_good F (tk_config s) Hd Hr) as (r & -> & Hw). cbn [bind]. destruct r as [(m & d)|].
    + do 2 eexists. split; [reflexivity|]. destruct Hw as ([A A0 B C] & Hm). split; [constructor; auto|].
      unfold diags_ok, handed in *. rewrite flat_map_app, HL. exact (Forall_cons _ Hm (Forall_nil _)).
    + do 2 eexists. split; [reflexivity|]. split; [exact Hg|]. unfold diags_ok, handed in *. rewrite flat_map_app, HL. constructor.
  - destruct (ok_open _ _ _ _ Ha) as (Hs & Hl & Hrd). destruct (did_open_good F uri t (tk_data s) Hg Hs Hl Hrd) as (d' & r & -> & Hg' & Hr). cbn [bind].
    do 2 eexists. split; [reflexivity|]. split; [exact Hg'|]. cbn [snd]. destruct r; [exact (Forall_cons _ Hr (Forall_nil _))|exact (Forall_nil _)].
  - destruct (did_change_good (tk_next s) uri cs (tk_data s) Hg (fun t => ok_change _ _ _ _ t Ha)) as (d' & r & -> & Hg'). cbn [bind fst snd].
    destruct r as [te|]; (do 2 eexists; split; [reflexivity|]; split; [exact Hg'|]); [|constructor].
    unfold diags_ok, handed. rewrite flat_map_app. destruct (te_abort te); constructor.
  - destruct (did_save_good F uri (tk_data s) Hg) as (d' & r & -> & Hg' & Hr). cbn [bind].
    do 2 eexists. split; [reflexivity|]. split; [exact Hg'|]. cbn [snd]. destruct r; [exact (Forall_cons _ Hr (Forall_nil _))|exact (Forall_nil _)].
  - destruct (do_completion_ok uri pos ctx (tk_data s) Hg (ok_comp _ _ _ _ _ _ Ha)) as (r & ->). cbn [bind]. do 2 eexists. split; [reflexivity|]. split; [exact Hg|constructor].
  - destruct (hover_ok uri pos (tk_data s) Hg) as (r & ->). cbn [bind]. do 2 eexists. split; [reflexivity|]. split; [exact Hg|constructor].
  - destruct (goto_ok F uri pos (tk_data s) Hg) as (r & ->). cbn [bind]. do 2 eexists. split; [reflexivity|]. split; [exact Hg|]. destruct r; constructor.
  - destruct (code_action_ok uri start (tk_data s) Hg) as (r & ->). cbn [bind]. destruct r as [a|].
    + destruct (process_ok F a (tk_data s)) as (p & ->). cbn [bind]. destruct (snd p); (do 2 eexists; split; [reflexivity|]; split; [exact Hg|constructor]).
    + do 2 eexists. split; [reflexivity|]. split; [exact Hg|constructor].
  - destruct (String.eqb cmd _); (do 2 eexists; split; [reflexivity|]; split; [exact Hg|constructor]).
  - do 2 eexists. split; [reflexivity|]. split; [exact Hg|]. destruct (document_symbols uri (tk_data s)); constructor.
  - do 2 eexists. split; [reflexivity|]. split; [exact Hg|]. destruct (cf_user _); constructor.
  - do 2 eexists. split; [reflexivity|]. split; [|constructor]. destruct Hg as [A A0 B C]. constructor; auto.
Qed.
Lemma session_snoc ms : forall s m F s1 tr, replay url b s ms = Ok (s1, tr) ->
  session url b ok s (ms ++ [(m, F)]) -> session url b ok s ms /\ ok F s1 m.
Proof.
  induction ms as [|(m0, F0) ms IH]; intros s m F s1 tr HR HW; cbn [replay app session] in *.
  - inversion HR; subst. split; [exact I|exact (proj1 HW)].
  - destruct HW as (H1 & H2). destruct (step F0 url b s m0) as [(s2 & es)|] eqn:E; [|discriminate].
    destruct (replay url b s2 ms) as [(s3 & tr')|] eqn:E2; [|discriminate]. inversion HR; subst.
    destruct (IH s2 m F s1 tr' E2 (H2 _ _ eq_refl)) as (A & B). split; [|exact B]. split; [exact H1|].
    intros s' es' E'. inversion E'; subst. exact A.
Qed.
Lemma good_init : good (tk_data (task0 T)).
Proof. constructor; [intros u t X|intros u [] tr X|intros k|intros k]; try discriminate; intros []. Qed.

Record safe (y : sys T) s : Prop := mksafe {
  sf_task : y_task y = TIdle s \/ exists es, y_task y = TBusy s es /\ diags_ok es;
  sf_good : good (tk_data s);
  sf_replay : exists tr, replay url b (task0 T) (y_taken y) = Ok (s, tr);
  sf_queue : Forall keys_ok (y_diagq y);
  sf_diag : match y_diag y with DIdle => True | DPublish rest _ => keys_ok rest | DSend _ => True | DDead => False end }.
Lemma diags_ok_cons e es : diags_ok (e :: es) -> diags_ok es /\ match e with EDiag d => keys_ok d | _ => True end.
Proof. unfold diags_ok, handed. destruct e; cbn; intros H; split; auto; inversion H; auto. Qed.
Lemma send_safe m y y' s : safe y s -> send_lsp m y = Some y' -> safe y' s /\ y_diag y' = y_diag y /\ y_taken y' = y_taken y.
Proof.
  intros [A B C D E] H. unfold send_lsp in H.
  destruct A as [A|(es & A & A')]; rewrite A in H; (destruct (Nat.ltb _ _); [|discriminate]); inversion H; subst; (split; [|split; reflexivity]); constructor; cbn; eauto.
Qed.
Lemma safe_reach l y : exec url b (sys0 T) l = Some y -> session url b ok (task0 T) (y_taken y) -> exists s, safe y s.
Proof.
  revert l y. apply (exec_ind url b (fun l y => session url b ok (task0 T) (y_taken y) -> exists s, safe y s)).
  - intros _. exists (task0 T). constructor; cbn; auto; [apply good_init|eauto].
  - intros l y a y' Hl IH Ha Hw.
    assert (Hw' : session url b ok (task0 T) (y_taken y) /\ (y_taken y' = y_taken y \/ exists m F q s, a = ATake F /\ y_task y = TIdle s /\ y_lspq y = m :: q /\ y_taken y' = y_taken y ++ [(m, F)])).
    { assert (Hsend : forall m (y1 y2 : sys T), send_lsp m y1 = Some y2 -> y_taken y2 = y_taken y1).
      { intros m y1 y2 H. unfold send_lsp in H. destruct (y_task y1); try (destruct (Nat.ltb _ _); [|discriminate]); inversion H; reflexivity. }
      assert (HT : y_taken y' = y_taken y \/ exists m F q s, a = ATake F /\ y_task y = TIdle s /\ y_lspq y = m :: q /\ y_taken y' = y_taken y ++ [(m, F)]).
      { destruct a; cbn [act] in Ha.
        - left. destruct m; try discriminate; eapply Hsend; exact Ha.
        - right. destruct (y_task y) as [s|s es|]; try discriminate. destruct (y_lspq y) as [|m q]; [discriminate|].
          exists m, F, q, s. repeat split. destruct (step F url b s m) as [(s' & es)|]; inversion Ha; reflexivity.
        - left. destruct (y_task y) as [s|s [|e es]|]; try discriminate; [inversion Ha; reflexivity|]. destruct e; cbn [do_effect] in Ha;
            try (inversion Ha; reflexivity).
          + destruct (y_diag y); try (inversion Ha; reflexivity); (destruct (Nat.ltb _ _); [|discriminate]); inversion Ha; reflexivity.
          + destruct (Nat.ltb _ _); [|discriminate]; inversion Ha; reflexivity.
        - left. destruct (y_diag y); try discriminate. destruct (y_diagq y); [discriminate|]. inversion Ha; reflexivity.
        - left. destruct (y_diag y) as [|[|(u, e) rest] acts|acts|]; try discriminate; [inversion Ha; reflexivity|]. destruct (url u); inversion Ha; reflexivity.
        - left. destruct (y_diag y) as [|rest acts|acts|]; try discriminate. destruct (send_lsp (MCodeActions acts) y) eqn:E; [|discriminate]. inversion Ha; cbn. eapply Hsend; exact E.
        - left. destruct (find _ (y_timers y)) as [x|]; [|discriminate]. destruct (tm_chan x); [|inversion Ha; reflexivity].
          apply Hsend in Ha. exact Ha. }
      split; [|exact HT]. destruct HT as [HT|(m & F & q & s & -> & E1 & E2 & HT)]; [rewrite HT in Hw; exact Hw|].
      rewrite HT in Hw. clear -Hw. revert Hw. generalize (task0 T). induction (y_taken y) as [|(m0, F0) ms IH]; intros s0 Hw; [exact I|].
      cbn [app session] in *. destruct Hw as (H1 & H2). split; [exact H1|]. intros s' es E. apply IH. eapply H2; exact E. }
    destruct Hw' as (Hw' & HT). destruct (IH Hw') as (s & [A B (tr & C) D E]).
    destruct a; cbn [act] in Ha.
    + assert (Hs : safe y s) by (constructor; eauto). exists s. destruct m; try discriminate; exact (proj1 (send_safe _ _ _ _ Hs Ha)).
    + destruct A as [A|(es & A & A')]; rewrite A in Ha; [|discriminate]. destruct (y_lspq y) as [|m q] eqn:Eq; [discriminate|].
      destruct HT as [HT|(m' & F' & q' & s' & Ea & E1 & E2 & HT)].
      { exfalso. destruct (step F url b s m) as [(s' & es)|]; inversion Ha; subst y'; cbn in HT;
          apply (f_equal (@length _)) in HT; rewrite app_length in HT; cbn in HT; lia. }
      inversion Ea; subst F'. inversion E2; subst m' q'. rewrite HT in Hw.
      destruct (session_snoc _ _ _ _ _ _ C Hw) as (_ & Had).
      destruct (step_good F s m B Had) as (s1 & es & Es & Hg1 & Hd1). rewrite Es in Ha. inversion Ha; subst y'. exists s1.
      constructor; cbn; auto.
      * right. eexists. split; [reflexivity|]. unfold with_close. destruct (msg_rid m); [|exact Hd1].
        destruct (existsb _ _); [exact Hd1|]. unfold diags_ok, handed in *. rewrite flat_map_app. apply Forall_app. split; [exact Hd1|constructor].
      * exists (tr ++ [(m, es)]). eapply replay_snoc; eauto.
    + exists s. destruct A as [A|(es & A & A')]; rewrite A in Ha; [discriminate|]. destruct es as [|e es].
      { inversion Ha; subst. constructor; cbn; eauto. }
      destruct (diags_ok_cons _ _ A') as (A1 & A2).
      destruct e; cbn [do_effect] in Ha; try (inversion Ha; subst; constructor; cbn; eauto; fail).
      * destruct (y_diag y) eqn:Ed; try destruct E;
          (destruct (Nat.ltb _ _); [|discriminate]); inversion Ha; subst; constructor; cbn; eauto; try (apply Forall_app; split; [exact D|exact (Forall_cons _ A2 (Forall_nil _))]);
          rewrite Ed; exact E.
      * destruct (Nat.ltb _ _); [|discriminate]. inversion Ha; subst. constructor; cbn; eauto.
    + exists s. destruct (y_diag y) eqn:Ed; try discriminate. destruct (y_diagq y) as [|m q]; [discriminate|]. inversion Ha; subst. inversion D; subst.
      constructor; cbn; eauto.
    + exists s. destruct (y_diag y) as [|[|(u, e) rest] acts|acts|] eqn:Ed; try discriminate; [inversion Ha; subst; constructor; cbn; eauto|].
      assert (Hu : linkable url u) by (apply E; now left). destruct Hu as (Hu & _). destruct (url u) eqn:Eu; [|congruence]. inversion Ha; subst.
      constructor; cbn; eauto. intros k Hk. apply E. now right.
    + exists s. destruct (y_diag y) as [|rest acts|acts|] eqn:Ed; try discriminate.
      assert (Hs : safe y s) by (constructor; eauto; rewrite Ed; exact I).
      destruct (send_lsp (MCodeActions acts) y) as [y1|] eqn:Ey; [|discriminate]. inversion Ha; subst.
      destruct (send_safe _ _ _ _ Hs Ey) as ([A1 B1 C1 D1 E1] & _). constructor; cbn; eauto.
    + exists s. destruct (find _ (y_timers y)) as [x|]; [|discriminate].
      assert (Hs : safe (mksys (y_task y) (y_lspq y) (y_diagq y) (y_diag y) (filter (fun x => negb (tm_id x =? tid)) (y_timers y)) (y_enq y)
                      (y_taken y) (y_replies y) (y_published y)) s) by (constructor; cbn; eauto).
      destruct (tm_chan x); [exact (proj1 (send_safe _ _ _ _ Hs Ha))|inversion Ha; subst; exact Hs].
Qed.
Lemma server_survives l y : exec url b (sys0 T) l = Some y -> session url b ok (task0 T) (y_taken y) ->
  alive y /\ y_diag y <> DDead.
Proof.
  intros H Hw. destruct (safe_reach l y H Hw) as (s & [A B C D E]). split.
  - unfold alive. destruct A as [A|(es & A & _)]; rewrite A; discriminate.
  - destruct (y_diag y); discriminate || contradiction.
Qed.
Lemma server_fits l y s : exec url b (sys0 T) l = Some y -> session url b ok (task0 T) (y_taken y) ->
  (y_task y = TIdle s \/ exists es, y_task y = TBusy s es) -> fitting (tk_data s).
Proof.
  intros H Hw Hs. destruct (safe_reach l y H Hw) as (s' & [A B C D E]).
  assert (s' = s); [|subst s'; exact (g_trees _ B)].
  destruct A as [A|(es & A & _)], Hs as [Hs|(es' & Hs)]; rewrite A in Hs; inversion Hs; reflexivity.
Qed.
End Server.

(** ** The two instances *)
Lemma honest_chain T (P : parser_contract T) t cs t' : honest_changes t cs t' -> scalars t -> Forall (fun c => scalars (ch_text c)) cs ->
  exists edits, apply_changes t cs = Ok (t', false, edits) /\ scalars t' /\ edit_chain (fits P) (ready P) t edits t'.
Proof.
  induction 1 as [t|t r x t1 cs t2 H _ IH]; intros Hs Hcs; [exists []; repeat split; auto; constructor|].
  inversion Hcs as [|? ? Hx Hcs']; subst. cbn [ch_text] in Hx. destruct (honest_edit_applied _ _ _ _ H) as (a & old & z & ie & E & Et & Et1 & Hb).
  pose proof (apply_change_scalars _ _ _ _ _ Hs Hx E) as Hs1. destruct (IH Hs1 Hcs') as (edits & E2 & Hs2 & Hc2).
  cbn [apply_changes ch_range ch_text]. rewrite E. cbn [bind fst snd]. rewrite E2. cbn [bind]. rewrite (rope_content_encode t1 Hs1).
  eexists. split; [reflexivity|]. split; [exact Hs2|]. constructor; [|exact Hc2]. intros l tr Hf. rewrite Et in Hf. rewrite Et1.
  exact (pc_edit T P l tr a old x z ie Hf Hb).
Qed.
Lemma easy_chain T fits t cs t' : easy_changes t cs t' -> scalars t -> Forall (fun c => scalars (ch_text c)) cs ->
  exists edits, apply_changes t cs = Ok (t', false, edits) /\ scalars t' /\ edit_chain (T := T) fits (fun _ _ _ => True) t edits t'.
Proof.
  induction 1 as [t|t r x t1 cs t2 H _ IH]; intros Hs Hcs; [exists []; repeat split; auto; constructor|].
  inversion Hcs as [|? ? Hx Hcs']; subst. cbn [ch_text] in Hx. destruct (easy_edit_applied _ _ _ _ H) as (ie & E).
  pose proof (apply_change_scalars _ _ _ _ _ Hs Hx E) as Hs1. destruct (IH Hs1 Hcs') as (edits & E2 & Hs2 & Hc2).
  cbn [apply_changes ch_range ch_text]. rewrite E. cbn [bind fst snd]. rewrite E2. cbn [bind]. rewrite (rope_content_encode t1 Hs1).
  eexists. split; [reflexivity|]. split; [exact Hs2|]. constructor; [auto|exact Hc2].
Qed.
Section Honest.
Context {T : ts} (url : url_parser) (b : build) (P : parser_contract T).
Hypothesis Hp : parse_total T.
Hypothesis Hrow : b = Debug -> names_on_one_row P.
Hypothesis Hurl : urls_ok url.
Lemma honest_open F (s : task_state T) uri t : honest url b F s (MDidOpen uri t) -> scalars t /\ linkable url uri /\
  forall l tr t0, sget uri (ls_docs (tk_data s)) = Some t0 -> fits P l tr (encode t0) -> ready P l tr (encode t).
Proof.
  intros (H1 & H2 & H3). repeat (split; [assumption|]). intros l tr t0 H0 Hf. rewrite (H3 _ H0) in Hf. now apply pc_same.
Qed.
Lemma honest_change F (s : task_state T) uri cs t : honest url b F s (MDidChange uri cs) ->
  sget uri (ls_docs (tk_data s)) = Some t -> scalars t ->
  exists t' edits, apply_changes t cs = Ok (t', false, edits) /\ scalars t' /\ edit_chain (fits P) (ready P) t edits t'.
Proof.
  intros (H1 & H2) Ht Hs. destruct (H2 t Ht) as (t' & H). exists t'. exact (honest_chain T P t cs t' H Hs H1).
Qed.
Lemma honest_survives l y : exec url b (sys0 T) l = Some y -> session url b (honest url b) (task0 T) (y_taken y) ->
  alive y /\ y_diag y <> DDead.
Proof.
  apply (server_survives url b (fits P) (ready P) (honest url b) Hp (pc_fresh T P) (pc_reuse T P) (pc_same T P) (pc_inside T P)
    Hrow Hurl (fun F s H => H) honest_open honest_change (fun F s rid uri pos ctx H => H)).
Qed.
Lemma honest_fits l y s : exec url b (sys0 T) l = Some y -> session url b (honest url b) (task0 T) (y_taken y) ->
  state_of y s -> trees_fit P (tk_data s).
Proof.
  intros H1 H2 H3 uri k t Hk Ht.
  pose proof (server_fits url b (fits P) (ready P) (honest url b) Hp (pc_fresh T P) (pc_reuse T P) (pc_same T P) (pc_inside T P)
    Hrow Hurl (fun F s H => H) honest_open honest_change (fun F s rid uri pos ctx H => H) l y s H1 H2 H3) as HF.
  exact (proj2 (fitting_get _ _ _ _ _ HF Hk Ht)).
Qed.
End Honest.
Lemma lenient_survives T url b l (y : sys T) :
  parse_total T -> trusting_inside T -> (b = Debug -> trusting_rows T) -> urls_ok url ->
  exec url b (sys0 T) l = Some y -> session url b (lenient url b) (task0 T) (y_taken y) -> alive y /\ y_diag y <> DDead.
Proof.
  intros Hp Hi Hr Hu. apply (server_survives url b (fun l tr c => exists old, t_parse T l c old = Some tr) (fun _ _ _ => True) (lenient url b)); auto.
  - eauto.
  - eauto.
  - intros l0 tr c q x (old & H). exact (Hi l0 c old tr q x H).
  - intros Hb l0 tr c q x (old & H). exact (Hr Hb l0 c old tr q x H).
  - intros F s uri t (H1 & H2). auto.
  - intros F s uri cs t (H1 & H2) Ht Hs. destruct (H2 t Ht) as (t' & H). exists t'. exact (easy_chain T _ t cs t' H Hs H1).
Qed.
(** ** Trees are current in every reachable state *)
Lemma step_current T url b F (s s' : task_state T) m es : parse_total T -> ranged_only F m ->
  trees_current (tk_data s) -> step F url b s m = Ok (s', es) -> trees_current (tk_data s').
Proof.
  intros Hp Hm Hc H. destruct m; cbn [step ranged_only] in *.
  - inversion H; subst. cbn. destruct client as [n|]; [|exact Hc]. destruct (String.eqb n _); [|exact Hc]. exact Hc.
  - unfold do_initialized in H. destruct (negb _); [inversion H; subst; exact Hc|].
    destruct (walkdir T F b (tk_config s)) as [[(d & data)|]|] eqn:E; cbn [bind] in H; inversion H; subst; [|exact Hc].
    cbn. exact (walkdir_current F b _ _ _ Hp Hm E).
  - destruct (did_open F b uri t false (tk_data s)) as [(d & r)|] eqn:E; cbn [bind] in H; inversion H; subst. cbn.
    eapply did_open_current; eauto.
  - destruct (did_change (tk_next s) uri cs (tk_data s)) as [(d & r)|] eqn:E; cbn [bind snd fst] in H; [|discriminate].
    assert (Hd : trees_current d) by (eapply did_change_current; eauto). destruct r; inversion H; subst; exact Hd.
  - destruct (did_save F b uri (tk_data s)) as [(d & r)|] eqn:E; cbn [bind] in H; inversion H; subst. cbn.
    eapply did_save_current; eauto.
  - destruct (do_completion _ _ _ _ _); cbn [bind] in H; inversion H; subst; exact Hc.
  - destruct (do_hover _ _ _ _); cbn [bind] in H; inversion H; subst; exact Hc.
  - destruct (goto_definition _ _ _ _ _ _); cbn [bind] in H; inversion H; subst; exact Hc.
  - destruct (code_action _ _ _ _) as [[a|]|]; cbn [bind] in H; [|inversion H; subst; exact Hc|discriminate].
    destruct (process_code_actions _ _ _ _) as [p|]; cbn [bind] in H; [|discriminate]. destruct (snd p); inversion H; subst; exact Hc.
  - destruct (String.eqb cmd _); inversion H; subst; exact Hc.
  - inversion H; subst; exact Hc.
  - inversion H; subst; exact Hc.
  - inversion H; subst; exact Hc.
Qed.
Lemma replay_current T url b ms : parse_total T -> forall (s s' : task_state T) tr, trees_current (tk_data s) ->
  (forall m F, In (m, F) ms -> ranged_only F m) -> replay url b s ms = Ok (s', tr) -> trees_current (tk_data s').
Proof.
  intros Hp. induction ms as [|(m, F) ms IH]; intros s s' tr Hc Hm H; cbn [replay] in H; [inversion H; subst; exact Hc|].
  destruct (step F url b s m) as [(s1 & es)|] eqn:E; [|discriminate].
  destruct (replay url b s1 ms) as [(s2 & tr')|] eqn:E2; [|discriminate]. inversion H; subst.
  apply (IH s1 s' tr'); [|intros m0 F0 H0; exact (Hm m0 F0 (or_intror H0))|exact E2].
  eapply step_current; [exact Hp|exact (Hm m F (or_introl eq_refl))|exact Hc|exact E].
Qed.
Lemma reachable_current T url b l (y : sys T) s : parse_total T -> exec url b (sys0 T) l = Some y ->
  (forall m F, In (m, F) (y_taken y) -> ranged_only F m) -> state_of y s -> trees_current (tk_data s).
Proof.
  intros Hp He Hm Hs. assert (Ha : alive y) by (unfold alive; destruct Hs as [->|(es & ->)]; discriminate).
  destruct (inv_reach url b l y He Ha) as (s' & tr & perf & pend & [I1 I2 _ _ _ _ _]).
  assert (s' = s).
  { destruct I1 as [(I1 & _)|I1], Hs as [Hs|(es & Hs)]; rewrite I1 in Hs; inversion Hs; reflexivity. }
  subst s'. refine (replay_current T url b (y_taken y) Hp (task0 T) s tr _ Hm I2). apply default_current.
Qed.
