(** * PNode2: more about the Node binding. *)
From Verif Require Import Base RString Utf8 Rope Types Captures.
From Verif Require Import MDefinition MObjects MTemplates MSearchErrors MLspFiles MLspTask MNode.
From Verif Require Import SpecNode SpecFiles PText PFiles PNode.

Section Node.
Context {T : ts}.

(** ** What hover says *)
Lemma hover_filter url b id f n pos (s : node_state T) uri i :
  url (home_url f id "jinja") = Some uri -> hover b uri pos (nd_files s) = Ok (Some (i, CtFilter)) ->
  in_host n (id_start i) -> in_host n (id_end i) ->
  (In (id_name i) filter_names ->
     node_hover url b id f n (lower n pos) s = Ok (Some (HvFilter (id_name i), mkrange (place n (id_start i)) (place n (id_end i))))) /\
  (~ In (id_name i) filter_names -> node_hover url b id f n (lower n pos) s = Ok None).
Proof.
  intros Hu Hh H1 H2. unfold node_hover. rewrite unshift_lower, Hu. cbn [bind]. rewrite Hh. cbn [bind].
  unfold shift_range. cbn [rstart rend]. rewrite (shift_place b n _ H1), (shift_place b n _ H2). cbn [bind].
  destruct (str_mem (id_name i) filter_names) eqn:E; split; intros H; try reflexivity.
  - exfalso. apply H. unfold str_mem in E. apply existsb_exists in E. destruct E as (x & Hx & E). apply String.eqb_eq in E. now subst.
  - exfalso. assert (str_mem (id_name i) filter_names = true); [|congruence]. apply existsb_exists. exists (id_name i). split; [exact H|apply String.eqb_refl].
Qed.
Lemma find_first {A} (f : A -> bool) l a x z : l = a ++ x :: z -> Forall (fun y => f y = false) a -> f x = true -> find f l = Some x.
Proof. intros -> H Hx. induction H as [|y a Hy _ IH]; cbn; [now rewrite Hx|now rewrite Hy]. Qed.
Lemma find_not {A} (f : A -> bool) l : Forall (fun y => f y = false) l -> find f l = None.
Proof. induction 1 as [|y a Hy _ IH]; cbn; [reflexivity|now rewrite Hy]. Qed.
Lemma prefix_iff (c : string) : forall a, String.prefix c a = true <-> exists r, a = (c ++ r)%string.
Proof.
  induction c as [|y c IH]; intros a; [split; [now exists a|intros _; now destruct a]|]. destruct a as [|x a]; cbn [String.prefix append].
  - split; [discriminate|intros (r & H); discriminate].
  - destruct (Ascii.ascii_dec y x) as [->|Hn]; [rewrite IH; split; intros (r & H); exists r; congruence|].
    split; [discriminate|intros (r & H); congruence].
Qed.
Lemma not_prefix (a c : string) : ~ (exists z, a = (c ++ z)%string) -> starts_with a c = false.
Proof. intros H. destruct (starts_with a c) eqn:E; [|reflexivity]. now apply prefix_iff in E. Qed.
Lemma is_prefix (a c z : string) : a = (c ++ z)%string -> starts_with a c = true.
Proof. intros H. apply prefix_iff. now exists z. Qed.
Lemma hover_name url b id f n pos (s : node_state T) uri i ct :
  url (home_url f id "jinja") = Some uri -> hover b uri pos (nd_files s) = Ok (Some (i, ct)) -> ct <> CtFilter ->
  in_host n (id_start i) -> in_host n (id_end i) ->
  let range := mkrange (place n (id_start i)) (place n (id_end i)) in
  let hints := match sget "temp"%string (nd_actions s) with Some l => l | None => [] end in
  match data_type uri i (nd_files s) with
  | None => node_hover url b id f n (lower n pos) s = Ok None
  | Some t =>
      (forall a h z, hints = a ++ h :: z -> Forall (fun x => ~ exists r, na_name x = (id_name i ++ r)%string) a ->
         (exists r, na_name h = (id_name i ++ r)%string) ->
         node_hover url b id f n (lower n pos) s = Ok (Some (HvAction (na_desc h), range))) /\
      (Forall (fun x => ~ exists r, na_name x = (id_name i ++ r)%string) hints ->
         node_hover url b id f n (lower n pos) s = Ok (Some (HvDefault (completion_detail t) (id_name i), range)))
  end.
Proof.
  intros Hu Hh Hc H1 H2 range hints. unfold node_hover. rewrite unshift_lower, Hu. cbn [bind]. rewrite Hh. cbn [bind].
  unfold shift_range. cbn [rstart rend]. rewrite (shift_place b n _ H1), (shift_place b n _ H2). cbn [bind].
  destruct (data_type uri i (nd_files s)) as [t|]; [|destruct ct; [now elim Hc|reflexivity..]].
  change temp_key with "temp"%string. fold hints. split.
  - intros a h z E Ha (r & Hr). rewrite (find_first _ hints a h z E); [destruct ct; [now elim Hc|reflexivity..]| |now apply is_prefix with r].
    eapply Forall_impl; [|exact Ha]. intros x Hx. now apply not_prefix.
  - intros Ha. rewrite find_not; [destruct ct; [now elim Hc|reflexivity..]|]. eapply Forall_impl; [|exact Ha]. intros x Hx. now apply not_prefix.
Qed.

(** ** Backend code is Python *)
Lemma add_tree_lang uri l src (d : lsp_files T) : ls_query (add_tree uri l src d) = ls_query d /\ ls_parser (add_tree uri l src d) = ls_parser d.
Proof. unfold add_tree. destruct (parse d l src _); destruct l; auto. Qed.
Lemma add_variables_lang uri l src (d d' : lsp_files T) : add_variables uri l src d = Ok d' -> ls_query d' = ls_query d /\ ls_parser d' = ls_parser d.
Proof.
  unfold add_variables. destruct (sget uri (trees_of l d)); [|intros H; inversion H; auto]. destruct l.
  - destruct (snippets_query _ _ _) as [sn|]; cbn [bind]; [|discriminate]. destruct (sn_error sn); [intros H; inversion H; auto|].
    destruct (definition_query _ _ _ _ _); cbn [bind]; [|discriminate]. intros H; inversion H; auto.
  - destruct (backend_definition_query _ _ _ _); cbn [bind]; [|discriminate].
    destruct (backend_templates_query _ _ _ _); cbn [bind]; [|discriminate]. intros H; inversion H; auto.
Qed.
Lemma did_open_lang F b uri t ig (d d' : lsp_files T) r : did_open F b uri t ig d = Ok (d', r) -> ls_query d' = ls_query d /\ ls_parser d' = ls_parser d.
Proof.
  unfold did_open. destruct (file_ext uri) as [l|]; [|intros H; inversion H; auto].
  assert (H0 : ls_query (delete_variables uri d) = ls_query d /\ ls_parser (delete_variables uri d) = ls_parser d) by (unfold delete_variables; destruct (sget uri (ls_vars d)); split; reflexivity).
  destruct H0 as (Q0 & P0). revert Q0 P0. generalize (delete_variables uri d). intros d1 Q0 P0.
  destruct (add_variables uri l (encode t) _) as [d2|] eqn:E; cbn [bind]; [|discriminate]. apply add_variables_lang in E.
  destruct (add_tree_lang uri l (encode t) (set_docs (sinsert uri t (ls_docs d1)) d1)) as (A & B). rewrite A, B in E. cbn in E. destruct E as (E1 & E2).
  destruct ig; [intros H; inversion H; subst; split; congruence|].
  destruct (read_tree F b uri d2) as [[v|]|]; cbn [bind]; intros H; inversion H; subst; split; congruence.
Qed.
Lemma node_do_lang F url b o (s s' : node_state T) : node_do F url b o s = Ok s' ->
  ls_query (nd_files s') = ls_query (nd_files s) /\ ls_parser (nd_files s') = ls_parser (nd_files s).
Proof.
  destruct o as [u [a|]|[a|] h|h|f|id f c l e k]; cbn [node_do]; intros H; try (inversion H; subst; split; reflexivity).
  - inversion H; subst. unfold delete_all. cbn [nd_files]. unfold delete_documents_with_id. destruct (delete_fold (filter (fun u => contains u f) (map fst (ls_docs (nd_files s)))) (nd_files s)) as (_ & _ & _ & _ & P & Q). split; [exact Q|exact P].
  - destruct (add_one F url b id f c l e k s) as [[s2 ls]|] eqn:E; cbn [bind fst] in H; [|discriminate]. inversion H; subst.
    unfold add_one in E. destruct (url _) as [uri|]; [|discriminate].
    destruct (did_open F b uri _ true (nd_files s)) as [[fl d]|] eqn:Ed; cbn [bind fst] in E; [|discriminate]. apply did_open_lang in Ed.
    assert (nd_files s' = fl) as ->; [|exact Ed].
    destruct (String.eqb e "jinja").
    { destruct (read_objects b uri _) as [os|]; cbn [bind] in E; [|discriminate].
      destruct os as [os|]; [|inversion E; subst; auto]. cbn [nd_objs] in E.
      destruct (sget temp_key (nd_objs s)) as [acts|]; [|inversion E; subst; auto].
      destruct (obj_links b l acts os); cbn [bind] in E; [|discriminate]. inversion E; subst; auto. }
    destruct (String.eqb e "py").
    { destruct (read_python_ids uri _) as [os|]; cbn [bind] in E; [|discriminate].
      destruct os as [os|]; [|inversion E; subst; auto]. cbn [nd_objs] in E.
      destruct (sget temp_key (nd_objs s)) as [acts|]; [|inversion E; subst; auto].
      destruct (py_links b l acts os); cbn [bind] in E; [|discriminate]. inversion E; subst; auto. }
    inversion E; subst; auto.
Qed.
Lemma node_python F url b os (s : node_state T) : node_run F url b os (node_new T) = Ok s ->
  ls_query (nd_files s) = PPython /\ ls_parser (nd_files s) = PPython.
Proof.
  assert (G : forall os (s0 s : node_state T), node_run F url b os s0 = Ok s -> ls_query (nd_files s) = ls_query (nd_files s0) /\ ls_parser (nd_files s) = ls_parser (nd_files s0)).
  { intros l. induction l as [|o l IH]; intros s0 s1 H; cbn [node_run] in H; [inversion H; auto|].
    destruct (node_do F url b o s0) as [s2|] eqn:E; cbn [bind] in H; [|discriminate]. apply node_do_lang in E. apply IH in H. destruct E, H. split; congruence. }
  intros H. apply G in H. exact H.
Qed.
End Node.
