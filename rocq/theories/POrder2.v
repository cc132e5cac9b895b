(** * POrder2: answers do not depend on the order in which definitions are
    stored (C94). *)
From Verif Require Import Base RString Utf8 Rope Types Captures MDefinition MObjects MTemplates MSearchErrors MLspFiles MLspTask.
From Verif Require Import SpecText SpecFiles SpecScope SpecObjects SpecLint SpecOrder PText PFiles POrder.

(** ** The derived order is a total order *)
Record order {A} (c : A -> A -> comparison) : Prop := mkorder {
  or_eq : forall a b, c a b = Eq <-> a = b;
  or_opp : forall a b, c b a = CompOpp (c a b);
  or_trans : forall a b d, c a b = Lt -> c b d = Lt -> c a d = Lt }.
Lemma order_N : order N.compare.
Proof.
  constructor.
  - apply N.compare_eq_iff.
  - intros. apply N.compare_antisym.
  - intros a b d. rewrite !N.compare_lt_iff. lia.
Qed.
Definition lex {A B} (c : A -> A -> comparison) (d : B -> B -> comparison) (x y : A * B) : comparison :=
  cmp_then (c (fst x) (fst y)) (d (snd x) (snd y)).
Lemma cmp_then_eq a b : cmp_then a b = Eq <-> a = Eq /\ b = Eq.
Proof. destruct a; cbn; intuition congruence. Qed.
Lemma cmp_then_lt a b : cmp_then a b = Lt <-> a = Lt \/ (a = Eq /\ b = Lt).
Proof. destruct a; cbn; intuition congruence. Qed.
Lemma order_lex {A B} (c : A -> A -> comparison) (d : B -> B -> comparison) : order c -> order d -> order (lex c d).
Proof.
  intros [E1 O1 T1] [E2 O2 T2]. unfold lex. constructor.
  - intros (a1, a2) (b1, b2). cbn [fst snd]. rewrite cmp_then_eq, E1, E2. intuition congruence.
  - intros (a1, a2) (b1, b2). cbn [fst snd]. rewrite (O1 a1 b1), (O2 a2 b2). now destruct (c a1 b1).
  - intros (a1, a2) (b1, b2) (d1, d2). cbn [fst snd]. rewrite !cmp_then_lt.
    intros [H|(H & H')] [K|(K & K')].
    + left. eauto.
    + apply E1 in K. subst. now left.
    + apply E1 in H. subst. now left.
    + apply E1 in H. apply E1 in K. subst. right. split; [now apply E1|eauto].
Qed.
Lemma order_key {A B} (f : A -> B) (c : B -> B -> comparison) (c' : A -> A -> comparison) :
  (forall a b, f a = f b -> a = b) -> (forall a b, c' a b = c (f a) (f b)) -> order c -> order c'.
Proof.
  intros Hf Hc [E O T]. constructor.
  - intros a b. rewrite Hc, E. split; [apply Hf|congruence].
  - intros a b. now rewrite !Hc.
  - intros a b d. rewrite !Hc. apply T.
Qed.
Lemma order_list {A} (c : A -> A -> comparison) : order c -> order (list_compare c).
Proof.
  intros [E O T]. constructor.
  - induction a as [|x a IH]; intros [|y b]; cbn; try (split; congruence).
    rewrite cmp_then_eq, E, IH. split; [intros (-> & ->); reflexivity|intros H; now inversion H].
  - induction a as [|x a IH]; intros [|y b]; cbn; try reflexivity. rewrite (O x y), IH. now destruct (c x y).
  - induction a as [|x a IH]; intros [|y b] [|z d]; cbn; try congruence. rewrite !cmp_then_lt.
    intros [H|(H & H')] [K|(K & K')].
    + left. eauto.
    + apply E in K. subst. now left.
    + apply E in H. subst. now left.
    + apply E in H. apply E in K. subst. right. split; [now apply E|eauto].
Qed.
Lemma N_of_ascii_inj a b : N_of_ascii a = N_of_ascii b -> a = b.
Proof. intros H. rewrite <- (ascii_N_embedding a), <- (ascii_N_embedding b). now rewrite H. Qed.
Lemma order_str : order str_compare.
Proof.
  apply (order_key (fun s => map N_of_ascii (list_ascii_of_string s)) (list_compare N.compare)).
  - induction a as [|x a IH]; intros [|y b] H; cbn in H; try discriminate; [reflexivity|].
    inversion H as [[H1 H2]]. apply N_of_ascii_inj in H1. subst. f_equal. now apply IH.
  - induction a as [|x a IH]; intros [|y b]; cbn; try reflexivity. now rewrite IH.
  - apply order_list, order_N.
Qed.
Lemma order_pt : order pt_compare.
Proof.
  apply (order_key (fun p => (row p, col p)) (lex N.compare N.compare)).
  - intros [a b] [d e] H. inversion H. reflexivity.
  - reflexivity.
  - apply order_lex; apply order_N.
Qed.
Lemma order_field : order field_compare.
Proof.
  apply (order_key (fun f => f) (lex str_compare (lex pt_compare pt_compare))); [auto|reflexivity|].
  apply order_lex; [apply order_str|]. apply order_lex; apply order_pt.
Qed.
Lemma order_type : order (fun a b => N.compare (itype_index a) (itype_index b)).
Proof.
  apply (order_key itype_index N.compare); [|reflexivity|apply order_N].
  intros [] [] H; try reflexivity; discriminate.
Qed.
Lemma order_id : order id_compare.
Proof.
  apply (order_key (fun i => (id_start i, (id_end i, (id_name i, (id_scope i, (id_type i, id_fields i))))))
    (lex pt_compare (lex pt_compare (lex str_compare (lex (lex N.compare pt_compare)
       (lex (fun a b => N.compare (itype_index a) (itype_index b)) (list_compare field_compare))))))).
  - intros [a b d e f g] [a' b' d' e' f' g'] H. inversion H. reflexivity.
  - reflexivity.
  - repeat apply order_lex; auto using order_pt, order_str, order_N, order_type, order_list, order_field.
Qed.
Lemma id_not_gt_trans a b d : id_compare a b <> Gt -> id_compare b d <> Gt -> id_compare a d <> Gt.
Proof.
  destruct order_id as [E O T]. intros H K.
  destruct (id_compare a b) eqn:Eab; [| |congruence].
  - apply E in Eab. now subst.
  - destruct (id_compare b d) eqn:Ebd; [| |congruence].
    + apply E in Ebd. subst. congruence.
    + rewrite (T _ _ _ Eab Ebd). discriminate.
Qed.

(** The greatest element does not depend on the order of the list. *)
Lemma max_from_greatest l : forall m, In (max_from m l) (m :: l) /\ forall x, In x (m :: l) -> id_compare x (max_from m l) <> Gt.
Proof.
  destruct order_id as [E O T].
  induction l as [|y l IH]; intros m.
  - split; [now left|]. intros x [->|[]]. cbn [max_from]. rewrite (proj2 (E x x) eq_refl). discriminate.
  - cbn [max_from]. set (z := match id_compare m y with Gt => m | _ => y end). destruct (IH z) as (A & B).
    assert (Hz : (z = m \/ z = y) /\ id_compare m z <> Gt /\ id_compare y z <> Gt).
    { unfold z. assert (R : forall x, id_compare x x <> Gt) by (intros x; rewrite (proj2 (E x x) eq_refl); discriminate).
      destruct (id_compare m y) eqn:Em; (split; [auto|]); (split; [try apply R; congruence|]); try apply R.
      rewrite O, Em. discriminate. }
    destruct Hz as (Hz & L1 & L2). assert (Bz : id_compare z (max_from z l) <> Gt) by (apply B; now left). split.
    + destruct A as [A|A]; [|right; now right]. rewrite <- A. destruct Hz as [-> | ->]; [now left|right; now left].
    + intros x [->|[->|Hx]]; [| |apply B; now right]; eapply id_not_gt_trans; eauto.
Qed.
Lemma iter_max_greatest l m : iter_max l = Some m <-> In m l /\ forall x, In x l -> id_compare x m <> Gt.
Proof.
  destruct order_id as [E O T]. destruct l as [|y l].
  - split; [discriminate|intros ([] & _)].
  - cbn [iter_max]. destruct (max_from_greatest l y) as (A & B). split.
    + intros H. inversion H; subst. auto.
    + intros (H1 & H2). f_equal. specialize (B m H1). specialize (H2 _ A). rewrite O in H2.
      destruct (id_compare m (max_from y l)) eqn:Em; cbn in *; try congruence. apply E in Em. congruence.
Qed.
Lemma iter_max_perm l l' : Permutation l l' -> iter_max l = iter_max l'.
Proof.
  intros P. destruct (iter_max l) as [m|] eqn:El.
  - symmetry. apply iter_max_greatest. apply iter_max_greatest in El. destruct El as (A & B). split.
    + eapply Permutation_in; eauto.
    + intros x Hx. apply B. eapply Permutation_in; [|exact Hx]. now symmetry.
  - destruct l as [|y l]; [|discriminate]. apply Permutation_nil in P. now subst.
Qed.

(** ** Reading *)
Lemma reordered_get m m' k : reordered m m' ->
  match sget k m, sget k m' with Some a, Some b => Permutation a b | None, None => True | _, _ => False end.
Proof.
  unfold reordered, sget. induction 1 as [|(f, v) (f', v') m m' (H1 & H2) _ IH]; [exact I|]. cbn [fst snd] in *. subst f'.
  cbn [hm_get]. destruct (String.eqb k f); [exact H2|exact IH].
Qed.
Lemma existsb_same {A} (f : A -> bool) l l' : Permutation l l' -> existsb f l = existsb f l'.
Proof. apply existsb_perm. Qed.
Lemma filter_empty_perm {A} (f : A -> bool) l l' : Permutation l l' -> (filter f l = [] <-> filter f l' = []).
Proof.
  intros P. pose proof (filter_perm f _ _ P) as Pf. split; intros H; rewrite H in Pf.
  - now apply Permutation_nil in Pf.
  - symmetry in Pf. now apply Permutation_nil in Pf.
Qed.
Lemma lint_object_reordered vars vars' this this' ig o :
  reordered vars vars' -> Permutation this this' -> lint_object vars this ig o = lint_object vars' this' ig o.
Proof.
  intros R P. unfold lint_object.
  assert (D : defined_somewhere vars o = defined_somewhere vars' o).
  { unfold defined_somewhere. induction R as [|(f, v) (f', v') m m' (H1 & H2) _ IH]; [reflexivity|].
    cbn [existsb snd] in *. now rewrite (existsb_perm _ _ _ H2), IH. }
  rewrite D. pose proof (filter_perm (same_name o) _ _ P) as P1. pose proof (filter_perm (visible_at o) _ _ P1) as P2.
  destruct (o_is_filter o || o_is_test o); [reflexivity|].
  destruct (filter (visible_at o) (filter (same_name o) this)) as [|x xs];
    destruct (filter (visible_at o) (filter (same_name o) this')) as [|y ys];
    try (now apply Permutation_nil in P2); try (symmetry in P2; now apply Permutation_nil in P2); [|reflexivity].
  destruct (filter (same_name o) this) as [|u us]; destruct (filter (same_name o) this') as [|w ws];
    try (now apply Permutation_nil in P1); try (symmetry in P1; now apply Permutation_nil in P1); reflexivity.
Qed.
Lemma goto_file_perm url ident file vs vs' : Permutation vs vs' ->
  same_res (@Permutation _) (goto_file url ident file vs) (goto_file url ident file vs').
Proof.
  assert (Rf : forall x, same_res (@Permutation location) x x) by (intros [a|]; cbn; [reflexivity|exact I]).
  induction 1 as [|x l l' P IH|x y l|l l1 l2 P1 IH1 P2 IH2]; [apply Rf| | |].
  - cbn [goto_file]. destruct (String.eqb _ ident); [|exact IH].
    destruct (url _); [|exact I]. destruct (goto_file url ident file l), (goto_file url ident file l'); cbn in *; try easy.
    now constructor.
  - cbn [goto_file].
    destruct (String.eqb (first_segment (id_name y)) ident), (String.eqb (first_segment (id_name x)) ident); try apply Rf.
    destruct (url (if _ && _ then (_ ++ "-" ++ id_name y)%string else _)), (url (if _ && _ then (_ ++ "-" ++ id_name x)%string else _));
      try exact I; destruct (goto_file url ident file l); cbn; try exact I. constructor.
  - destruct (goto_file url ident file l), (goto_file url ident file l1), (goto_file url ident file l2); cbn in *; try easy.
    etransitivity; eassumption.
Qed.
Lemma goto_others_reordered url ident uri m m' : reordered m m' ->
  same_res (@Permutation _) (goto_others url ident uri m) (goto_others url ident uri m').
Proof.
  induction 1 as [|(f, v) (f', v') m m' (H1 & H2) _ IH]; [cbn; reflexivity|]. cbn [fst snd] in *. subst f'.
  cbn [goto_others]. destruct (String.eqb f uri); [exact IH|].
  pose proof (goto_file_perm url ident f _ _ H2) as G.
  destruct (goto_file url ident f v), (goto_file url ident f v'); cbn in G; try easy. cbn [bind].
  destruct (goto_others url ident uri m), (goto_others url ident uri m'); cbn in *; try easy. now apply Permutation_app.
Qed.
Lemma data_other_reordered uri h m m' : reordered m m' -> data_other uri h m = data_other uri h m'.
Proof.
  induction 1 as [|(f, v) (f', v') m m' (H1 & H2) _ IH]; [reflexivity|]. cbn [fst snd] in *. subst f'. cbn [data_other].
  destruct (String.eqb f uri); [exact IH|].
  pose proof (filter_perm (fun v => String.eqb (first_segment (id_name v)) (id_name h)) _ _ H2) as P.
  destruct (filter _ v) as [|x xs], (filter _ v') as [|y ys]; [exact IH| | |reflexivity].
  - now apply Permutation_nil in P.
  - symmetry in P. now apply Permutation_nil in P.
Qed.

Section Handlers.
Context {T : ts}.
Implicit Types s : lsp_files T.
Lemma hover_reordered b uri pos s m : reordered (ls_vars s) m -> do_hover b uri pos (set_vars m s) = do_hover b uri pos s.
Proof.
  intros R. unfold do_hover. change (hover b uri pos (set_vars m s)) with (hover b uri pos s).
  destruct (hover b uri pos s) as [[(i, ct)|]|]; [|reflexivity|reflexivity]. cbn [bind]. do 2 f_equal.
  assert (E : data_type uri i (set_vars m s) = data_type uri i s).
  { unfold data_type. cbn [set_vars ls_vars]. pose proof (reordered_get _ _ uri R) as G.
    destruct (sget uri (ls_vars s)), (sget uri m); try easy.
    rewrite (iter_max_perm _ _ (filter_perm (data_visible i) _ _ G)).
    destruct (iter_max _); [reflexivity|]. symmetry. now apply data_other_reordered. }
  destruct ct; try reflexivity; now rewrite E.
Qed.
Lemma goto_reordered F url b uri pos s m : reordered (ls_vars s) m ->
  same_res goto_alike (goto_definition F url b uri pos s) (goto_definition F url b uri pos (set_vars m s)).
Proof.
  intros R. unfold goto_definition.
  assert (Rf : forall x : option goto_response, goto_alike x x) by (intros [[l|l]|]; cbn; reflexivity).
  destruct (file_ext uri) as [l|]; [|apply Rf].
  replace (trees_of l (set_vars m s)) with (trees_of l s) by (destruct l; reflexivity). cbn [set_vars ls_docs].
  destruct (sget uri (trees_of l s)) as [tr|]; [|apply Rf]. destruct (sget uri (ls_docs s)) as [t|]; [|apply Rf].
  destruct l.
  - destruct (objects_query _ _ _ _ _) as [objs|]; [|exact I]. cbn [bind].
    assert (El : forall i, goto_local uri (point_of pos) i (set_vars m s) = goto_local uri (point_of pos) i s).
    { intros [n|]; [|reflexivity]. unfold goto_local. cbn [set_vars ls_vars]. pose proof (reordered_get _ _ uri R) as G.
      destruct (sget uri (ls_vars s)), (sget uri m); try easy.
      now rewrite (iter_max_perm _ _ (filter_perm (goto_visible (point_of pos) n) _ _ G)). }
    unfold set_vars in El. rewrite El. destruct (goto_local _ _ _ s); [apply Rf|].
    destruct (templates_query _ _ _ _) as [imps|]; [|exact I]. cbn [bind].
    assert (Et : forall n, goto_template F url n (set_vars m s) = goto_template F url n s) by reflexivity.
    unfold set_vars in Et. cbn [set_vars ls_vars].
    destruct (in_template imps) as [im|]; [destruct (import_get im (point_of pos)) as [i|]; [rewrite Et; destruct (goto_template F url (id_name i) s); [apply Rf|]|]|];
      match goal with |- context [goto_others url ?cur uri (ls_vars s)] =>
        pose proof (goto_others_reordered url cur uri _ _ R) as G;
        destruct (goto_others url cur uri (ls_vars s)), (goto_others url cur uri m); cbn in *; easy end.
  - destruct (backend_templates_query _ _ _ _) as [bt|]; [|exact I]. cbn [bind].
    destruct (bt_in_template bt (point_of pos)); apply Rf.
Qed.
Lemma errors_reordered F b tr src vars vars' file dir l ig : reordered vars vars' ->
  same_res (lint_alike l) (search_errors T F b tr src vars file dir l ig) (search_errors T F b tr src vars' file dir l ig).
Proof.
  intros R. unfold search_errors. pose proof (reordered_get _ _ file R) as G. destruct l.
  - destruct (objects_query _ _ _ _ _) as [objs|]; [|exact I]. cbn [bind].
    destruct (sget file vars) as [v|], (sget file vars') as [v'|]; try easy.
    destruct (templates_query _ _ _ _) as [imps|]; [|exact I]. cbn [bind same_res lint_alike]. do 2 f_equal.
    apply flat_map_ext. intros o. now apply lint_object_reordered.
  - destruct (sget file vars) as [v|], (sget file vars') as [v'|]; try easy. cbn. unfold lint_backend. now apply Permutation_flat_map.
Qed.
Lemma symbols_reordered uri s m : reordered (ls_vars s) m ->
  match document_symbols uri s, document_symbols uri (set_vars m s) with
  | Some a, Some b => Permutation a b | None, None => True | _, _ => False end.
Proof.
  intros R. unfold document_symbols. cbn [set_vars ls_vars]. pose proof (reordered_get _ _ uri R) as G.
  destruct (sget uri (ls_vars s)), (sget uri m); try easy. now apply Permutation_map.
Qed.
End Handlers.
