(** * PQueries8: dotted names in Python files. *)
From Coq Require Import Permutation.
From Verif Require Import Base RString Utf8 Rope Types Captures MObjects MTemplates MSearchErrors MLspFiles MNode MQueries.
From Verif Require Import SpecFiles SpecBackend SpecNode SpecQueries SpecQueries2 SpecQueries3.
From Verif Require Import PText PUtf8 PFiles PBackend PNode PNode2 PQueries PQueries3 PQueries4 PQueries7.

(** ** Parents and children *)
Definition kids_of (l : list stree) : list stree := flat_map (fun x => map snd (s_children x)) l.
Lemma kids_app a b : kids_of (a ++ b) = kids_of a ++ kids_of b.
Proof. unfold kids_of. now rewrite flat_map_app. Qed.
Lemma preorder_unfold t : preorder t = t :: flat_map (fun c => preorder (snd c)) (s_children t).
Proof. now destruct t. Qed.
Lemma kids_perm t : Permutation (t :: kids_of (preorder t)) (preorder t).
Proof.
  assert (W : forall k t, (length (preorder t) < k)%nat -> Permutation (t :: kids_of (preorder t)) (preorder t)).
  { induction k as [|k IH]; intros u Hk; [lia|]. rewrite preorder_unfold in Hk |- *. cbn [length] in Hk. apply perm_skip.
    unfold kids_of at 1. cbn [flat_map]. fold (kids_of (flat_map (fun c => preorder (snd c)) (s_children u))).
    assert (Hk' : (length (flat_map (fun c => preorder (snd c)) (s_children u)) < k)%nat) by lia. clear Hk.
    induction (s_children u) as [|c r IHr]; [constructor|]. cbn [map flat_map] in *. rewrite app_length in Hk'. rewrite kids_app.
    apply perm_trans with ((snd c :: kids_of (preorder (snd c))) ++ (map snd r ++ kids_of (flat_map (fun c => preorder (snd c)) r))).
    - cbn [app]. apply perm_skip. rewrite !app_assoc. apply Permutation_app_tail. apply Permutation_app_comm.
    - apply Permutation_app; [apply IH; lia|]. apply IHr. lia. }
  apply (W (S (length (preorder t)))). lia.
Qed.
Lemma subl_nodup {A} (a b : list A) : subl a b -> NoDup b -> NoDup a.
Proof.
  induction 1 as [|x a b Hs IH|x a b Hs IH]; intros Hn; [constructor| |]; apply NoDup_cons_iff in Hn; destruct Hn as (Hx & Hn).
  - constructor; [|auto]. intros H. apply Hx. now apply (subl_in _ _ _ Hs).
  - auto.
Qed.
Lemma subl_select {A} (p : A -> bool) l : subl (filter p l) l.
Proof. induction l as [|x l IH]; [constructor|]. cbn [filter]. destruct (p x); constructor; exact IH. Qed.
Lemma subl_two {A} (a b c d : list A) : subl a b -> subl c d -> subl (a ++ c) (b ++ d).
Proof. induction 1; intros H2; cbn [app]; [now apply subl_pre|constructor; auto|constructor; auto]. Qed.

(** ** The query *)
Definition is_name (x : stree) : bool := String.eqb "identifier" (s_kind x).
Definition hung (x : stree) : list stree :=
  if String.eqb "attribute" (s_kind x) then filter is_name (map snd (s_children x)) else [].
Definition as_emb (y : stree) : emb := ([("identifier"%string, s_node y)], s_node y).
Lemma steps_names last ch :
  embed_steps [step "identifier" ["identifier"%string]] last ch = map as_emb (filter is_name (map snd ch)).
Proof.
  assert (H : forall c, on_child "" [QN "identifier" [] ["identifier"%string]] c = if is_name (snd c) then [as_emb (snd c)] else []).
  { intros c. unfold on_child. change (field_ok "" (fst c)) with true. cbv iota. cbn [flat_map]. rewrite app_nil_r, embed_node. unfold is_name.
    destruct (String.eqb "identifier" (s_kind (snd c))); reflexivity. }
  unfold step, one. rewrite steps_unfold. induction ch as [|c r IH]; [reflexivity|]. cbn [pick map filter]. rewrite IH, H.
  destruct (is_name (snd c)); reflexivity.
Qed.
Lemma names_at src x : s_kind x <> "ERROR"%string -> query_at PYTHON_IDENTIFIERS src x = map as_emb (hung x).
Proof.
  intros Hk. unfold query_at, PYTHON_IDENTIFIERS. cbn [flat_map]. unfold pattern_at. cbn [p_alts p_preds rev app flat_map].
  rewrite largest_leaf, embed_leaf. destruct (String.eqb_spec "ERROR" (s_kind x)) as [E|_]; [congruence|]. cbn [filter app]. rewrite !app_nil_r.
  cbn [embed_root]. rewrite embed_node. unfold hung. destruct (String.eqb "attribute" (s_kind x)); [|reflexivity].
  rewrite steps_names, map_map. cbn [map app].
  rewrite (largest_flat 1); [|intros m Hm; apply in_map_iff in Hm; destruct Hm as (y & <- & _); reflexivity].
  rewrite (filter_all (fun m : emb => forallb (pred_holds src (fst m)) [])); [reflexivity|]. apply Forall_forall. reflexivity.
Qed.
Lemma hung_subl l : subl (flat_map hung l) (kids_of l).
Proof.
  induction l as [|x l IH]; [constructor|]. unfold kids_of. cbn [flat_map]. apply subl_two; [|exact IH]. unfold hung.
  destruct (String.eqb "attribute" (s_kind x)); [apply subl_select|constructor].
Qed.
Lemma hung_nodup t : told_apart t -> NoDup (PQueries.ids (flat_map hung (preorder t))).
Proof.
  intros Ht. apply (subl_nodup _ (PQueries.ids (kids_of (preorder t)))); [apply subl_map, hung_subl|].
  assert (H : NoDup (PQueries.ids (t :: kids_of (preorder t)))).
  { eapply Permutation_NoDup; [|exact Ht]. apply Permutation_map. apply Permutation_sym, kids_perm. }
  cbn in H. now apply NoDup_cons_iff in H.
Qed.
(** The node is a name that hangs on an attribute. *)
Definition held (t y : stree) : bool := existsb (fun z => n_id (s_node z) =? n_id (s_node y)) (flat_map hung (preorder t)).
Lemma held_iff t y : told_apart t -> In y (preorder t) ->
  held t y = true <-> exists x f, In x (preorder t) /\ s_kind x = "attribute"%string /\ In (f, y) (s_children x) /\ s_kind y = "identifier"%string.
Proof.
  intros Ht Hy. unfold held. rewrite existsb_exists. split.
  - intros (z & Hz & E). apply N.eqb_eq in E. apply in_flat_map in Hz. destruct Hz as (x & Hx & Hz). unfold hung in Hz.
    destruct (String.eqb_spec "attribute" (s_kind x)) as [Ek|]; [|destruct Hz]. apply filter_In in Hz. destruct Hz as (Hz & Hk).
    apply in_map_iff in Hz. destruct Hz as ((f & z') & Ez & Hz). cbn [snd] in Ez. subst z'.
    assert (z = y). { apply (same_node t); auto. apply preorder_trans with x; [exact Hx|]. eapply child_in, Hz. }
    subst z. exists x, f. apply String.eqb_eq in Hk. auto.
  - intros (x & f & Hx & Hk & Hc & Hi). exists y. split; [|apply N.eqb_refl]. apply in_flat_map. exists x. split; [exact Hx|]. unfold hung. rewrite Hk.
    cbn [String.eqb Ascii.eqb Bool.eqb]. apply filter_In. split; [now apply (in_map snd) in Hc|]. unfold is_name. rewrite Hi. reflexivity.
Qed.
Lemma ends_single y L : NoDup (PQueries.ids L) -> (forall z, In z L -> n_id (s_node z) = n_id (s_node y) -> z = y) ->
  filter (ends_at y) (map as_emb L) = if existsb (fun z => n_id (s_node z) =? n_id (s_node y)) L then [as_emb y] else [].
Proof.
  induction L as [|z L IH]; intros Hn He; [reflexivity|]. cbn [PQueries.ids map] in Hn. apply NoDup_cons_iff in Hn. destruct Hn as (Hz & Hn).
  cbn [map filter existsb]. unfold ends_at at 1. cbn [as_emb snd]. destruct (N.eqb_spec (n_id (s_node z)) (n_id (s_node y))) as [E|E].
  - cbn [orb]. rewrite (He z (or_introl eq_refl) E). f_equal. apply ends_none. apply Forall_map. apply Forall_forall. intros w Hw Ew. cbn [as_emb snd] in Ew.
    apply Hz. rewrite E, <- Ew. apply (in_map (fun x => n_id (s_node x))), Hw.
  - cbn [orb]. apply IH; auto. intros w Hw. apply He. now right.
Qed.
Lemma flat_map_ext_in {A B} (f g : A -> list B) l : (forall a, In a l -> f a = g a) -> flat_map f l = flat_map g l.
Proof. induction l as [|a l IH]; intros H; [reflexivity|]. cbn [flat_map]. rewrite (H a (or_introl eq_refl)), IH; [reflexivity|]. intros b Hb. apply H. now right. Qed.
Lemma names_found src t : told_apart t -> no_error t ->
  concat (matches PYTHON_IDENTIFIERS src t) = map (fun y => ("identifier"%string, s_node y)) (filter (held t) (preorder t)).
Proof.
  intros Ht He. rewrite matches_ordering. unfold ordering.
  assert (E : flat_map (query_at PYTHON_IDENTIFIERS src) (preorder t) = map as_emb (flat_map hung (preorder t))).
  { rewrite (flat_map_ext_in _ (fun x => map as_emb (hung x))).
    - generalize (preorder t). intros l. induction l as [|x l IH]; [reflexivity|]. cbn [flat_map]. now rewrite map_app, IH.
    - intros x Hx. apply names_at. unfold no_error in He. rewrite Forall_forall in He. auto. }
  rewrite E. rewrite (flat_map_ext_in _ (fun y => if held t y then [as_emb y] else [])).
  - generalize (held t). intros h. generalize (preorder t). intros l. induction l as [|y l IH]; [reflexivity|]. cbn [flat_map filter].
    destruct (h y); [|exact IH]. cbn [app map concat]. unfold as_emb at 1. cbn [fst app]. f_equal. exact IH.
  - intros y Hy. apply ends_single; [now apply hung_nodup|]. intros z Hz Ez. apply in_flat_map in Hz. destruct Hz as (x & Hx & Hz).
    apply (same_node t); auto. apply preorder_trans with x; [exact Hx|]. unfold hung in Hz. destruct (String.eqb "attribute" (s_kind x)); [|destruct Hz].
    apply filter_In in Hz. destruct Hz as (Hz & _). apply in_map_iff in Hz. destruct Hz as ((f & z') & <- & Hz). eapply child_in, Hz.
Qed.

(** ** One dotted name *)
Lemma subtree_split tr t : In t (preorder tr) -> exists a z, preorder tr = a ++ preorder t ++ z.
Proof.
  assert (W : forall k tr, (length (preorder tr) < k)%nat -> In t (preorder tr) -> exists a z, preorder tr = a ++ preorder t ++ z).
  { induction k as [|k IH]; intros u Hk H; [lia|]. rewrite preorder_unfold in H. destruct H as [<-|H]; [exists [], []; now rewrite app_nil_r|].
    apply in_flat_map in H. destruct H as (c & Hc & H). apply in_split in Hc. destruct Hc as (a & b & Ec). rewrite preorder_unfold in Hk |- *. rewrite Ec in *.
    rewrite flat_map_app in Hk |- *. cbn [flat_map length] in Hk |- *. rewrite !app_length in Hk. destruct (IH (snd c)) as (a' & z' & E); [lia|exact H|].
    exists (u :: flat_map (fun c => preorder (snd c)) a ++ a'), (z' ++ flat_map (fun c => preorder (snd c)) b). rewrite E. cbn [app]. now rewrite <- !app_assoc. }
  apply (W (S (length (preorder tr)))). lia.
Qed.
Lemma filter_inside tr t (q : stree -> bool) : told_apart tr -> In t (preorder tr) ->
  (forall y, In y (preorder tr) -> q y = true -> In y (preorder t)) -> filter q (preorder tr) = filter q (preorder t).
Proof.
  intros Ht Hi H. destruct (subtree_split tr t Hi) as (a & z & E). unfold told_apart in Ht. rewrite E in *. rewrite !map_app in Ht.
  apply NoDup_app_parts in Ht. destruct Ht as (_ & Ht & D1). apply NoDup_app_parts in Ht. destruct Ht as (_ & _ & D2).
  rewrite !filter_app. rewrite (filter_none q a), (filter_none q z), app_nil_r; [reflexivity| |]; apply Forall_forall.
  - intros y Hy. rewrite <- not_true_iff_false. intros Hq. apply (D2 (n_id (s_node y))).
    + apply (in_map (fun x => n_id (s_node x))). apply H; [apply in_or_app; right; apply in_or_app; auto|exact Hq].
    + now apply (in_map (fun x => n_id (s_node x))).
  - intros y Hy. rewrite <- not_true_iff_false. intros Hq. apply (D1 (n_id (s_node y))).
    + now apply (in_map (fun x => n_id (s_node x))).
    + apply in_or_app. left. apply (in_map (fun x => n_id (s_node x))). apply H; [apply in_or_app; auto|exact Hq].
Qed.
Lemma dotted_names src t ws : dotted_name src t ws ->
  map (fun y => text_of src (s_node y)) (filter is_name (preorder t)) = ws /\
  (exists front z, filter is_name (preorder t) = front ++ [z] /\ n_end (s_node z) = n_end (s_node t)) /\
  (forall y, In y (filter is_name (preorder t)) -> exists x f, In x (preorder t) /\ s_kind x = "attribute"%string /\ In (f, y) (s_children x) /\ n_start (s_node x) = n_start (s_node t)).
Proof.
  induction 1 as [n f o g a Ha|n f t ws g a Ht (IH1 & (fr & z & IH2 & IH3) & IH4) Hs Ha].
  - cbn [preorder flat_map snd app]. cbn [filter is_name s_kind String.eqb Ascii.eqb Bool.eqb map s_node]. split; [reflexivity|]. split.
    + eexists [_], _. split; [reflexivity|]. exact Ha.
    + intros y [<-|[<-|[]]]; eexists _, _; (split; [now left|]); (split; [reflexivity|]); (split; [|reflexivity]); cbn; auto.
  - assert (E : filter is_name (preorder (SN "attribute" n [(f, t); (g, SN "identifier" a [])])) = filter is_name (preorder t) ++ [SN "identifier" a []]).
    { rewrite preorder_unfold. cbn [s_children flat_map snd]. change (filter is_name (?x :: ?l)) with (filter is_name l). rewrite filter_app. reflexivity. }
    rewrite E. split; [rewrite map_app, IH1; reflexivity|]. split; [eexists _, _; split; [reflexivity|]; exact Ha|].
    intros y Hy. apply in_app_or in Hy. destruct Hy as [Hy|[<-|[]]].
    + destruct (IH4 y Hy) as (x & h & Hx & Hk & Hc & Hst). exists x, h. split; [right; apply in_or_app; now left|]. split; [exact Hk|]. split; [exact Hc|]. cbn [s_node]. congruence.
    + eexists _, g. split; [now left|]. split; [reflexivity|]. split; [cbn; auto|reflexivity].
Qed.

(** ** All dotted names of a file *)
Section File.
Variables (src : string) (tr : stree).
Hypotheses (Hr : readable src tr) (Ht : told_apart tr) (He : no_error tr) (Hp : parents tr).
Definition segs : list bcap := map (with_text src) (concat (matches PYTHON_IDENTIFIERS src tr)).
Definition seg (y : stree) : bcap := mkbcap CIdentifier (s_node y) (text_of src (s_node y)).
Lemma segs_eq : segs = map seg (filter (held tr) (preorder tr)).
Proof. unfold segs. rewrite names_found by assumption. rewrite map_map. reflexivity. Qed.
Lemma parent_start x f y : In x (preorder tr) -> In (f, y) (s_children x) -> n_parent (s_node y) = Some (n_start (s_node x)).
Proof.
  intros Hx Hy. unfold parents in Hp. rewrite Forall_forall in Hp. specialize (Hp x Hx). rewrite Forall_forall in Hp. exact (Hp (f, y) Hy).
Qed.
Lemma starts_iff p y q : n_parent (s_node y) = Some q -> starts_at p (seg y) = true <-> q = p.
Proof.
  intros E. unfold starts_at. cbn [seg bc_node]. rewrite E. destruct p as [a b], q as [c d]. cbn [row col]. rewrite andb_true_iff, !N.eqb_eq. split; [intros []; congruence|].
  intros X. inversion X. auto.
Qed.
Lemma only_segs p : only_segments_at p segs.
Proof. intros c Hc _. rewrite segs_eq in Hc. apply in_map_iff in Hc. destruct Hc as (y & <- & _). reflexivity. Qed.
Lemma segments_filter p : segments_at p segs = map seg (filter (fun y => held tr y && starts_at p (seg y)) (preorder tr)).
Proof.
  unfold segments_at. rewrite segs_eq. generalize (preorder tr). intros l. induction l as [|y l IH]; [reflexivity|]. cbn [filter].
  destruct (held tr y); cbn [map filter andb]; [|exact IH]. change (is_segment (seg y)) with true. cbn [andb]. destruct (starts_at p (seg y)); cbn [map]; [now rewrite IH|exact IH].
Qed.
Lemma pure_segments t ws : pure src tr t ws ->
  exists front z, segments_at (n_start (s_node t)) segs = front ++ [z] /\ n_end (bc_node z) = n_end (s_node t) /\
    map bc_text (segments_at (n_start (s_node t)) segs) = ws.
Proof.
  intros (Hi & Hd & Ha). destruct (dotted_names _ _ _ Hd) as (D1 & (front & z & D2 & D3) & D4). rewrite segments_filter.
  assert (E : filter (fun y => held tr y && starts_at (n_start (s_node t)) (seg y)) (preorder tr) = filter is_name (preorder t)).
  { rewrite (filter_inside tr t _ Ht Hi).
    - apply filter_ext_in. intros y Hy. pose proof (preorder_trans t y tr Hi Hy) as Hy'. destruct (is_name y) eqn:En.
      + destruct (D4 y) as (x & f & Hx & Hk & Hc & Hs); [apply filter_In; auto|]. pose proof (preorder_trans t x tr Hi Hx) as Hx'.
        apply andb_true_iff. split.
        * apply held_iff; auto. exists x, f. unfold is_name in En. apply String.eqb_eq in En. auto.
        * apply (starts_iff _ _ _ (parent_start x f y Hx' Hc)). exact Hs.
      + apply andb_false_iff. left. rewrite <- not_true_iff_false. intros Hh. apply held_iff in Hh; auto. destruct Hh as (x & f & _ & _ & _ & Hn).
        unfold is_name in En. rewrite Hn in En. discriminate.
    - intros y Hy Hq. apply andb_true_iff in Hq. destruct Hq as (Hh & Hs). apply held_iff in Hh; auto. destruct Hh as (x & f & Hx & Hk & Hc & _).
      apply (starts_iff _ _ _ (parent_start x f y Hx Hc)) in Hs. apply preorder_trans with x; [now apply Ha|]. eapply child_in, Hc. }
  rewrite E. exists (map seg front), (seg z). rewrite D2, map_app. split; [reflexivity|]. split; [exact D3|].
  rewrite <- D1, D2, !map_app, !map_map. reflexivity.
Qed.
Lemma file_names :
  exists pids, python_identifiers (captured PYTHON_IDENTIFIERS src tr) src 0 = Ok pids /\ NoDup (map py_start pids) /\
    (forall t ws, pure src tr t ws -> In (mkpy 0 (n_start (s_node t)) (n_end (s_node t)) (String.concat "." ws)) pids) /\
    (forall i, In i pids -> exists x y f, In x (preorder tr) /\ s_kind x = "attribute"%string /\ In (f, y) (s_children x) /\
       py_start i = n_start (s_node x) /\ py_end i = n_end (s_node y)).
Proof.
  destruct (python_chains (captured PYTHON_IDENTIFIERS src tr) src 0 segs) as (pids & Hi & Hn & H).
  { unfold segs. rewrite with_text_caps. apply captured_concat. }
  { eapply readable_covers; [exact Hr|]. apply captured_inside. }
  assert (D0 : forall p, down 0 p = p) by (intros [a b]; unfold down; cbn; now rewrite N.add_0_r).
  exists pids. split; [exact Hi|]. split; [exact Hn|]. split.
  - intros t ws Hd. destruct (pure_segments t ws Hd) as (front & z & E & Ez & Ew).
    apply (proj2 (H (n_start (s_node t)) (only_segs _) (mkpy 0 (n_start (s_node t)) (n_end (s_node t)) (String.concat "." ws)))).
    exists z, front. split; [exact E|]. now rewrite !D0, Ez, Ew.
  - intros i Hin. destruct (proj1 (H (py_start i) (only_segs _) i)) as (z & front & E & Ei); [rewrite D0; auto|].
    assert (Hz : In z (segments_at (py_start i) segs)) by (rewrite E; apply in_or_app; right; now left).
    rewrite segments_filter in Hz. apply in_map_iff in Hz. destruct Hz as (y & <- & Hy). apply filter_In in Hy. destruct Hy as (Hy & Hq). apply andb_true_iff in Hq.
    destruct Hq as (Hh & Hs). apply held_iff in Hh; auto. destruct Hh as (x & f & Hx & Hk & Hc & _). apply (starts_iff _ _ _ (parent_start x f y Hx Hc)) in Hs.
    exists x, y, f. split; [exact Hx|]. split; [exact Hk|]. split; [exact Hc|]. split; [now symmetry|]. rewrite Ei. cbn [py_end seg bc_node]. apply D0.
Qed.
End File.

(** ** Links *)
Lemma did_open_parsed {T : ts} F b uri (t : text) ig (s s' : lsp_files T) d tr :
  file_ext uri = Some Backend -> t_parse T (ls_parser s) (encode t) (sget uri (ls_bt s)) = Some tr ->
  did_open F b uri t ig s = Ok (s', d) -> sget uri (ls_bt s') = Some tr.
Proof.
  intros El Ep H. unfold did_open in H. rewrite El in H.
  set (s2 := set_docs (sinsert uri t (ls_docs (delete_variables uri s))) (delete_variables uri s)) in *.
  destruct (add_variables uri Backend (encode t) (add_tree uri Backend (encode t) s2)) as [s3|] eqn:E; cbn [bind] in H; [|discriminate].
  assert (s' = s3).
  { destruct ig; [inversion H; reflexivity|]. destruct (read_tree F b uri s3) as [v|]; [|discriminate]. cbn [bind] in H. destruct v; inversion H; reflexivity. }
  subst s'. apply add_variables_docs in E. destruct E as (E1 & E2 & E3 & E4). destruct (delete_variables_docs uri s) as (D1 & D2 & D3 & D4).
  assert (Es2 : ls_bt s2 = ls_bt s) by (unfold s2; change (ls_bt ?x) with (trees_of Backend x); rewrite set_docs_trees; assumption).
  assert (Ep2 : ls_parser s2 = ls_parser s) by exact D4.
  rewrite E3. unfold add_tree, parse. change (trees_of Backend s2) with (ls_bt s2). rewrite Es2, Ep2, Ep.
  change (ls_bt ?x) with (trees_of Backend x). now rewrite trees_of_set_same, sget_sinsert_same.
Qed.

Lemma place_inj n p q : place n p = place n q -> p = q.
Proof. destruct p as [a b], q as [c d]. unfold place. cbn [row col]. intros H. inversion H. f_equal. lia. Qed.
Lemma pos_at_iff p l : pos_at p l = true <-> js_start l = p.
Proof. unfold pos_at. destruct (js_start l) as [a b], p as [c d]. cbn [line character]. rewrite andb_true_iff, !N.eqb_eq. split; [intros []; congruence|]. intros X. inversion X. auto. Qed.
Lemma filter_times {A} (q : A -> bool) (x : A) sel acts : filter q (times x sel acts) = if q x then times x sel acts else [].
Proof. unfold times. induction (length (filter sel acts)) as [|k IH]; cbn [repeat filter]; [now destruct (q x)|]. rewrite IH. now destruct (q x). Qed.
Lemma links_at n (acts : list naction) p pids i :
  NoDup (map py_start pids) -> In i pids -> py_start i = p ->
  filter (pos_at (place n p)) (flat_map (fun i => times (py_link n i) (fun a => String.eqb (na_name a) (py_field i)) acts) pids) =
  times (py_link n i) (fun a => String.eqb (na_name a) (py_field i)) acts.
Proof.
  intros Hn Hi Es. apply in_split in Hi. destruct Hi as (l1 & l2 & ->). rewrite map_app in Hn. cbn [map] in Hn. apply NoDup_remove in Hn. destruct Hn as (_ & Hn).
  assert (G : forall l, incl l (l1 ++ l2) -> flat_map (fun j => filter (pos_at (place n p)) (times (py_link n j) (fun a => String.eqb (na_name a) (py_field j)) acts)) l = []).
  { intros l. induction l as [|j l IH]; intros Hl; [reflexivity|]. cbn [flat_map]. rewrite IH by (intros x Hx; apply Hl; now right). rewrite app_nil_r, filter_times.
    destruct (pos_at (place n p) (py_link n j)) eqn:E; [|reflexivity]. apply pos_at_iff in E. unfold py_link in E. cbn [js_start] in E. apply place_inj in E.
    elim Hn. rewrite Es, <- E, <- map_app. apply in_map. apply Hl. now left. }
  rewrite filter_flat_map, flat_map_app. cbn [flat_map]. rewrite !G; [|intros x Hx; apply in_or_app; auto|intros x Hx; apply in_or_app; auto].
  rewrite app_nil_r. cbn [app]. rewrite filter_times. replace (pos_at (place n p) (py_link n i)) with true; [reflexivity|]. symmetry. apply pos_at_iff. unfold py_link. cbn [js_start]. now rewrite Es.
Qed.

Section Links.
Variables (parse : plang -> string -> option stree -> option stree) (edit : stree -> input_edit -> stree).
Let T := ts_with parse edit.
Lemma python_doc F url b os (s : node_state T) id f content n k s' links uri tr :
  node_run F url b os (node_new T) = Ok s -> url (home_url f id "py") = Some uri -> file_ext uri = Some Backend ->
  add_one F url b id f content n "py" k s = Ok (s', links) ->
  parse PPython (encode (padded k content)) (sget uri (ls_bt (nd_files s))) = Some tr ->
  scalars (padded k content) -> on_characters (padded k content) tr -> told_apart tr -> no_error tr -> parents tr ->
  Forall (fun x => in_host n (n_start (s_node x)) /\ in_host n (n_end (s_node x))) (preorder tr) ->
  exists pids, NoDup (map py_start pids) /\
    links = flat_map (fun p => times (py_link n p) (fun a => String.eqb (na_name a) (py_field p)) (temporary os)) pids /\
    (forall t ws, pure (encode (padded k content)) tr t ws -> In (mkpy 0 (n_start (s_node t)) (n_end (s_node t)) (String.concat "." ws)) pids) /\
    (forall i, In i pids -> exists x y g, In x (preorder tr) /\ s_kind x = "attribute"%string /\ In (g, y) (s_children x) /\
       py_start i = n_start (s_node x) /\ py_end i = n_end (s_node y)).
Proof.
  intros Hr Hu Hx H Hp Hs Hc Ht He Hpa Hh. destruct (node_python F url b os s Hr) as (_ & Hl).
  destruct (file_names _ tr (characters_readable _ _ Hs Hc) Ht He Hpa) as (pids & Hi & Hn & H1 & H2).
  assert (R : read_python_ids uri (nd_files s') = Ok (Some pids)).
  { assert (H0 := H). unfold add_one in H. rewrite Hu in H. rewrite spaces_repeat in H. change (repeat 32 _ ++ content) with (padded k content) in H.
    destruct (did_open F b uri (padded k content) true (nd_files s)) as [[fl d]|] eqn:Ed; cbn [bind fst] in H; [|discriminate].
    pose proof (did_open_doc _ _ _ _ _ _ _ _ _ Hx Ed) as Hd. assert (Htr : sget uri (ls_bt fl) = Some tr).
    { refine (@did_open_parsed T F b uri (padded k content) true (nd_files s) fl d tr Hx _ Ed). rewrite Hl. exact Hp. }
    assert (Rf : read_python_ids uri fl = Ok (Some pids)).
    { unfold read_python_ids. rewrite Hd, Hx. cbn [trees_of]. rewrite Htr. cbn [T ts_with t_captures query_of]. rewrite rope_content_encode by exact Hs. rewrite Hi. reflexivity. }
    change (String.eqb "py" "jinja") with false in H. change (String.eqb "py" "py") with true in H. cbn iota in H. cbn [nd_files nd_objs] in H. rewrite Rf in H. cbn [bind] in H.
    destruct (sget temp_key (nd_objs s)) as [acts|]; [|inversion H; exact Rf]. destruct (py_links b n acts pids); cbn [bind] in H; [|discriminate]. inversion H. exact Rf. }
  exists pids. split; [exact Hn|]. split; [|auto].
  refine (proj2 (py_links_all F url b os s id f content n k s' links uri pids Backend Hr Hu Hx H R _)).
  apply Forall_forall. intros i Hin. destruct (H2 i Hin) as (x & y & g & Hxi & _ & Hcy & -> & ->). rewrite Forall_forall in Hh. split; [apply Hh; exact Hxi|].
  apply Hh. eapply preorder_trans; [exact Hxi|]. eapply child_in, Hcy.
Qed.
Lemma python_linked F url b os (s : node_state T) id f content n k s' links uri tr t ws :
  node_run F url b os (node_new T) = Ok s -> url (home_url f id "py") = Some uri -> file_ext uri = Some Backend ->
  add_one F url b id f content n "py" k s = Ok (s', links) ->
  parse PPython (encode (padded k content)) (sget uri (ls_bt (nd_files s))) = Some tr ->
  scalars (padded k content) -> on_characters (padded k content) tr -> told_apart tr -> no_error tr -> parents tr ->
  Forall (fun x => in_host n (n_start (s_node x)) /\ in_host n (n_end (s_node x))) (preorder tr) ->
  pure (encode (padded k content)) tr t ws ->
  filter (pos_at (place n (n_start (s_node t)))) links = times (link_to n t ws) (called ws) (temporary os).
Proof.
  intros Hr Hu Hx H Hp Hs Hc Ht He Hpa Hh Hd.
  destruct (python_doc F url b os s id f content n k s' links uri tr Hr Hu Hx H Hp Hs Hc Ht He Hpa Hh) as (pids & Hn & -> & H1 & _).
  rewrite (links_at n (temporary os) (n_start (s_node t)) pids _ Hn (H1 t ws Hd)); reflexivity.
Qed.
Lemma python_only F url b os (s : node_state T) id f content n k s' links uri tr :
  node_run F url b os (node_new T) = Ok s -> url (home_url f id "py") = Some uri -> file_ext uri = Some Backend ->
  add_one F url b id f content n "py" k s = Ok (s', links) ->
  parse PPython (encode (padded k content)) (sget uri (ls_bt (nd_files s))) = Some tr ->
  scalars (padded k content) -> on_characters (padded k content) tr -> told_apart tr -> no_error tr -> parents tr ->
  Forall (fun x => in_host n (n_start (s_node x)) /\ in_host n (n_end (s_node x))) (preorder tr) ->
  (forall x, In x (preorder tr) -> s_kind x = "attribute"%string -> exists t ws, pure (encode (padded k content)) tr t ws /\ n_start (s_node t) = n_start (s_node x)) ->
  forall l, In l links <->
    exists t ws a, pure (encode (padded k content)) tr t ws /\ In a (temporary os) /\ na_name a = String.concat "." ws /\ l = link_to n t ws.
Proof.
  intros Hr Hu Hx H Hp Hs Hc Ht He Hpa Hh Hall l.
  destruct (python_doc F url b os s id f content n k s' links uri tr Hr Hu Hx H Hp Hs Hc Ht He Hpa Hh) as (pids & Hn & -> & H1 & H2). split.
  - intros Hl. apply in_flat_map in Hl. destruct Hl as (i & Hi & Hl). destruct (H2 i Hi) as (x & y & g & Hxi & Hk & _ & Es & _). destruct (Hall x Hxi Hk) as (t & ws & Hd & Et).
    assert (Ei : i = mkpy 0 (n_start (s_node t)) (n_end (s_node t)) (String.concat "." ws)).
    { specialize (H1 t ws Hd). assert (U : forall a c, In a pids -> In c pids -> py_start a = py_start c -> a = c).
      { clear - Hn. induction pids as [|j r IH]; intros a c Ha Hc E; [destruct Ha|]. cbn [map] in Hn. apply NoDup_cons_iff in Hn. destruct Hn as (Hj & Hn).
        destruct Ha as [->|Ha], Hc as [->|Hc]; auto; elim Hj; [rewrite E|rewrite <- E]; now apply in_map. }
      apply U; auto. cbn [py_start]. congruence. }
    subst i. unfold times in Hl. cbn [py_field] in Hl. destruct (filter _ (temporary os)) as [|a r] eqn:Ef; [destruct Hl|].
    assert (Ha : In a (filter (fun a => String.eqb (na_name a) (String.concat "." ws)) (temporary os))) by (rewrite Ef; now left).
    apply filter_In in Ha. destruct Ha as (Ha & En). apply String.eqb_eq in En. apply repeat_spec in Hl. exists t, ws, a. auto.
  - intros (t & ws & a & Hd & Ha & En & ->). apply in_flat_map. eexists. split; [exact (H1 t ws Hd)|]. cbn [py_field]. unfold times.
    assert (Hf : In a (filter (fun a => String.eqb (na_name a) (String.concat "." ws)) (temporary os))) by (apply filter_In; split; [exact Ha|]; now apply String.eqb_eq).
    destruct (filter _ (temporary os)); [destruct Hf|]. now left.
Qed.
End Links.
