(** * POrder: results do not depend on hash-map order (C27). *)
From Verif Require Import Base RString Utf8 Rope Types Captures MDefinition MObjects MTemplates MSearchErrors MLspFiles MLspTask.
From Verif Require Import SpecText SpecFiles SpecScope SpecObjects SpecLint SpecOrder PText PFiles.

(** ** Maps *)
Lemma sget_In {V} k (v : V) m : sget k m = Some v -> In (k, v) m.
Proof.
  unfold sget. induction m as [|(k', v') m IH]; cbn [hm_get]; [discriminate|].
  destruct (String.eqb k k') eqn:E; [|intros H; right; now apply IH].
  apply String.eqb_eq in E. intros H. inversion H; subst. now left.
Qed.
Lemma In_sget {V} k (v : V) m : NoDup (map fst m) -> In (k, v) m -> sget k m = Some v.
Proof.
  unfold sget. induction m as [|(k', v') m IH]; cbn [hm_get map fst]; [intros _ []|].
  intros HN [E|H]; inversion HN as [|? ? N1 N2]; subst.
  - inversion E; subst. now rewrite String.eqb_refl.
  - destruct (String.eqb k k') eqn:E; [|now apply IH]. apply String.eqb_eq in E. subst.
    exfalso. apply N1. apply (in_map fst) in H. exact H.
Qed.
Lemma sget_None {V} k (m : smap V) : sget k m = None <-> ~ In k (map fst m).
Proof.
  unfold sget. induction m as [|(k', v') m IH]; cbn [hm_get map fst In]; [tauto|].
  destruct (String.eqb k k') eqn:E.
  - apply String.eqb_eq in E. subst. split; [discriminate|]. intros H. exfalso. now apply H; left.
  - apply String.eqb_neq in E. rewrite IH. intuition congruence.
Qed.
Lemma sget_Some_In {V} k (m : smap V) : In k (map fst m) <-> exists v, sget k m = Some v.
Proof.
  destruct (sget k m) as [v|] eqn:E.
  - split; [eauto|]. intros _. apply sget_In in E. apply (in_map fst) in E. exact E.
  - apply sget_None in E. split; [tauto|]. intros (v & H). discriminate.
Qed.
Lemma same_nodup {V} (m m' : smap V) : same_map m m' -> NoDup (map fst m').
Proof. intros (N & P). eapply Permutation_NoDup; [|exact N]. now apply Permutation_map. Qed.
Lemma same_get {V} k (m m' : smap V) : same_map m m' -> sget k m = sget k m'.
Proof.
  intros S. pose proof (same_nodup _ _ S) as N'. destruct S as (N & P).
  destruct (sget k m) as [v|] eqn:E.
  - symmetry. apply In_sget; [exact N'|]. eapply Permutation_in; [exact P|]. now apply sget_In.
  - symmetry. apply sget_None. apply sget_None in E. intros H. apply E.
    eapply Permutation_in; [|exact H]. symmetry. now apply Permutation_map.
Qed.
Lemma same_of_get {V} (m m' : smap V) :
  NoDup (map fst m) -> NoDup (map fst m') -> (forall k, sget k m = sget k m') -> same_map m m'.
Proof.
  intros N N' H. split; [exact N|]. apply NoDup_Permutation.
  - now apply NoDup_map_inv in N.
  - now apply NoDup_map_inv in N'.
  - intros (k, v). split; intros Hi.
    + apply In_sget in Hi; [|exact N]. rewrite H in Hi. now apply sget_In.
    + apply In_sget in Hi; [|exact N']. rewrite <- H in Hi. now apply sget_In.
Qed.
Lemma sinsert_keys {V} k (v : V) m x : In x (map fst (sinsert k v m)) <-> x = k \/ In x (map fst m).
Proof.
  rewrite !sget_Some_In. destruct (String.eqb x k) eqn:E.
  - apply String.eqb_eq in E. subst. rewrite sget_sinsert_same. split; [auto|eauto].
  - apply String.eqb_neq in E. rewrite (sget_sinsert_other x k) by exact E. intuition.
Qed.
Lemma sinsert_nodup {V} k (v : V) m : NoDup (map fst m) -> NoDup (map fst (sinsert k v m)).
Proof.
  induction m as [|(k', v') m IH]; intros N.
  - cbn. constructor; [intros []|constructor].
  - inversion N as [|? ? N1 N2]; subst. unfold sinsert in *. cbn [hm_insert]. destruct (String.eqb k k') eqn:E.
    + apply String.eqb_eq in E. subst. cbn. now constructor.
    + cbn [map fst]. constructor; [|now apply IH]. intros H.
      apply (sinsert_keys k v m) in H. apply String.eqb_neq in E. intuition congruence.
Qed.
Lemma same_sinsert {V} k (v : V) m m' : same_map m m' -> same_map (sinsert k v m) (sinsert k v m').
Proof.
  intros S. apply same_of_get.
  - apply sinsert_nodup. apply S.
  - apply sinsert_nodup. now apply same_nodup in S.
  - intros x. destruct (String.eqb x k) eqn:E.
    + apply String.eqb_eq in E. subst. now rewrite !sget_sinsert_same.
    + apply String.eqb_neq in E. rewrite !(sget_sinsert_other x k) by exact E. now apply same_get.
Qed.
Lemma same_map_refl {V} (m : smap V) : NoDup (map fst m) -> same_map m m.
Proof. intros N. split; [exact N|reflexivity]. Qed.

(** Inserting all entries of a map. *)
Lemma fold_insert_get {V} (m : smap V) : forall acts k,
  NoDup (map fst m) ->
  sget k (fold_left (fun a kv => sinsert (fst kv) (snd kv) a) m acts) =
    match sget k m with Some v => Some v | None => sget k acts end.
Proof.
  induction m as [|(k', v') m IH]; intros acts k N; [reflexivity|].
  inversion N as [|? ? N1 N2]; subst. cbn [fold_left fst snd]. rewrite IH by exact N2.
  unfold sget at 3. cbn [hm_get]. fold (sget k m). destruct (String.eqb k k') eqn:E.
  - apply String.eqb_eq in E. subst k'. apply sget_None in N1. cbn [fst] in N1. rewrite N1.
    now rewrite sget_sinsert_same.
  - apply String.eqb_neq in E. destruct (sget k m); [reflexivity|]. now apply sget_sinsert_other.
Qed.
Lemma fold_insert_nodup {V} (m : smap V) : forall acts,
  NoDup (map fst acts) -> NoDup (map fst (fold_left (fun a kv => sinsert (fst kv) (snd kv) a) m acts)).
Proof.
  induction m as [|kv m IH]; intros acts N; [exact N|]. cbn [fold_left]. apply IH. now apply sinsert_nodup.
Qed.
Lemma same_fold_insert {V} (m m' acts acts' : smap V) :
  same_map m m' -> same_map acts acts' ->
  same_map (fold_left (fun a kv => sinsert (fst kv) (snd kv) a) m acts)
           (fold_left (fun a kv => sinsert (fst kv) (snd kv) a) m' acts').
Proof.
  intros S Sa. apply same_of_get.
  - apply fold_insert_nodup. apply Sa.
  - apply fold_insert_nodup. now apply same_nodup in Sa.
  - intros k. rewrite !fold_insert_get; [|now apply same_nodup in S|apply S].
    now rewrite (same_get k m m' S), (same_get k acts acts' Sa).
Qed.

Section Order.
Context {T : ts}.
Implicit Types s : lsp_files T.

Lemma same_trees l s s' : same_state s s' -> same_map (trees_of l s) (trees_of l s').
Proof. intros S. destruct l; apply S. Qed.
Ltac sg S k :=
  rewrite ?(same_get k _ _ (sm_tt _ _ S)), ?(same_get k _ _ (sm_bt _ _ S)), ?(same_get k _ _ (sm_docs _ _ S)),
    ?(same_get k _ _ (sm_vars _ _ S)), ?(same_get k _ _ (sm_actions _ _ S)),
    ?(same_get k _ _ (same_trees Template _ _ S)), ?(same_get k _ _ (same_trees Backend _ _ S)).

(** ** Reading *)
Lemma existsb_perm {A} (f : A -> bool) l l' : Permutation l l' -> existsb f l = existsb f l'.
Proof.
  intros P. destruct (existsb f l) eqn:E; symmetry.
  - apply existsb_exists in E. destruct E as (x & Hx & Hf). apply existsb_exists. exists x.
    split; [|exact Hf]. eapply Permutation_in; eauto.
  - apply not_true_is_false. intros H. apply existsb_exists in H. destruct H as (x & Hx & Hf).
    assert (existsb f l = true); [|congruence]. apply existsb_exists. exists x. split; [|exact Hf].
    eapply Permutation_in; [|exact Hx]. now symmetry.
Qed.
Lemma lint_object_same vars vars' this ig o :
  same_map vars vars' -> lint_object vars this ig o = lint_object vars' this ig o.
Proof.
  intros (_ & P). unfold lint_object, defined_somewhere. now rewrite (existsb_perm _ _ _ P).
Qed.
Lemma search_errors_same F b tr src vars vars' file dir l ig :
  same_map vars vars' ->
  search_errors T F b tr src vars file dir l ig = search_errors T F b tr src vars' file dir l ig.
Proof.
  intros S. unfold search_errors. rewrite (same_get file _ _ S). destruct l; [|reflexivity].
  destruct (objects_query b _ pt0 src true) as [objs|]; [|reflexivity]. cbn [bind].
  destruct (sget file vars'); [|reflexivity].
  rewrite (flat_map_ext (lint_object vars l ig) (lint_object vars' l ig)); [reflexivity|].
  intros o. now apply lint_object_same.
Qed.
Lemma read_tree_same F b name s s' : same_state s s' -> read_tree F b name s = read_tree F b name s'.
Proof.
  intros S. unfold read_tree. sg S name. destruct (sget name (ls_docs s')); [|reflexivity].
  destruct (file_ext name) as [l|]; [|reflexivity].
  rewrite (same_get name _ _ (same_trees l _ _ S)). destruct (sget name (trees_of l s')); [|reflexivity].
  rewrite (sm_config _ _ S), (sm_ignore _ _ S). apply search_errors_same. apply S.
Qed.
Lemma completion_same b uri pos ctx s s' : same_state s s' -> completion b uri pos ctx s = completion b uri pos ctx s'.
Proof.
  intros S. unfold completion. destruct (negb _); [reflexivity|]. destruct (file_ext uri) as [l|]; [|reflexivity].
  rewrite (same_get uri _ _ (same_trees l _ _ S)), (same_get uri _ _ (sm_docs _ _ S)), (sm_query _ _ S). reflexivity.
Qed.
Lemma hover_same b uri pos s s' : same_state s s' -> hover b uri pos s = hover b uri pos s'.
Proof. intros S. unfold hover. sg S uri. reflexivity. Qed.
Lemma data_other_spec uri h vars :
  data_other uri h vars =
    if existsb (fun kv => negb (String.eqb (fst kv) uri) &&
                          existsb (fun v => String.eqb (first_segment (id_name v)) (id_name h)) (snd kv)) vars
    then Some BackendVariable else None.
Proof.
  induction vars as [|(f, vs) vars IH]; [reflexivity|]. cbn [data_other existsb fst snd].
  destruct (String.eqb f uri); cbn [negb andb orb]; [exact IH|].
  assert (E : existsb (fun v => String.eqb (first_segment (id_name v)) (id_name h)) vs =
              match filter (fun v => String.eqb (first_segment (id_name v)) (id_name h)) vs with [] => false | _ => true end).
  { clear. induction vs as [|v vs IH]; [reflexivity|]. cbn [existsb filter].
    destruct (String.eqb _ _); [reflexivity|exact IH]. }
  rewrite E. destruct (filter _ vs); cbn [orb]; [exact IH|reflexivity].
Qed.
Lemma data_type_same uri h s s' : same_state s s' -> data_type uri h s = data_type uri h s'.
Proof.
  intros S. unfold data_type. sg S uri. destruct (sget uri (ls_vars s')); [|reflexivity].
  destruct (iter_max _); [reflexivity|]. rewrite !data_other_spec.
  destruct (sm_vars _ _ S) as (_ & P). now rewrite (existsb_perm _ _ _ P).
Qed.
Lemma code_action_same b uri pos s s' : same_state s s' -> code_action b uri pos s = code_action b uri pos s'.
Proof.
  intros S. unfold code_action. destruct (file_ext uri) as [l|]; [|reflexivity].
  rewrite (same_get uri _ _ (same_trees l _ _ S)). sg S uri. reflexivity.
Qed.
Lemma process_same F url a s s' : same_state s s' -> process_code_actions F url a s = process_code_actions F url a s'.
Proof. intros S. unfold process_code_actions. now rewrite (sm_config _ _ S). Qed.
Lemma document_symbols_same uri s s' : same_state s s' -> document_symbols uri s = document_symbols uri s'.
Proof. intros S. unfold document_symbols. sg S uri. reflexivity. Qed.
Lemma get_variable_same p id f s s' : same_state s s' -> get_variable p id f s = get_variable p id f s'.
Proof. intros S. unfold get_variable. sg S id. sg S f. reflexivity. Qed.
Lemma read_objects_same b uri s s' : same_state s s' -> read_objects b uri s = read_objects b uri s'.
Proof.
  intros S. unfold read_objects. sg S uri. destruct (sget uri (ls_docs s')); [|reflexivity].
  destruct (file_ext uri) as [l|]; [|reflexivity]. now rewrite (same_get uri _ _ (same_trees l _ _ S)).
Qed.

Definition same_opt {A} (x y : option (list A)) : Prop :=
  match x, y with Some a, Some b => Permutation a b | None, None => True | _, _ => False end.
Lemma read_variables_same uri pos st only s s' :
  same_state s s' -> same_opt (read_variables uri pos st only s) (read_variables uri pos st only s').
Proof.
  intros S. unfold read_variables. sg S uri. destruct (sget uri (ls_vars s')); [|exact I].
  destruct (match st with Some x => x | None => (EmptyString, range0) end). rewrite (sm_vscode _ _ S).
  cbn [same_opt]. apply Permutation_app_head. unfold backend_items. apply Permutation_flat_map. apply S.
Qed.
Lemma template_items_spec v dir r sp us :
  template_items v dir r sp us =
    if forallb (fun u => is_some (template_label dir u)) us
    then Some (flat_map (fun u => match template_label dir u with Some l => [template_item v r sp l] | None => [] end) us)
    else None.
Proof.
  induction us as [|u us IH]; [reflexivity|]. cbn [template_items forallb flat_map].
  destruct (template_label dir u); cbn [is_some andb]; [|reflexivity]. rewrite IH.
  destruct (forallb _ us); reflexivity.
Qed.
Lemma filter_perm {A} (f : A -> bool) l l' : Permutation l l' -> Permutation (filter f l) (filter f l').
Proof.
  induction 1 as [|x l l' P IH|x y l|l l1 l2 P1 IH1 P2 IH2].
  - constructor.
  - cbn. destruct (f x); [now constructor|exact IH].
  - cbn. destruct (f x), (f y); try constructor; reflexivity.
  - etransitivity; eassumption.
Qed.
Lemma forallb_perm {A} (f : A -> bool) l l' : Permutation l l' -> forallb f l = forallb f l'.
Proof.
  induction 1 as [|x l l' P IH|x y l|l l1 l2 P1 IH1 P2 IH2]; cbn; try congruence.
  destruct (f x), (f y); reflexivity.
Qed.
Lemma read_templates_same p r sp s s' :
  same_state s s' -> same_opt (read_templates p r sp s) (read_templates p r sp s').
Proof.
  intros S. unfold read_templates. rewrite !template_items_spec, (sm_vscode _ _ S), (sm_config _ _ S).
  destruct (sm_tt _ _ S) as (_ & P).
  pose proof (filter_perm (fun u => contains u (if String.eqb p "" then "file:///"%string else p)) _ _ (Permutation_map fst P)) as Pf.
  rewrite (forallb_perm _ _ _ Pf). destruct (forallb _ _); [|exact I]. cbn [same_opt]. now apply Permutation_flat_map.
Qed.

(** Goto. *)
Lemma goto_file_spec url ident file vs :
  (exists l, goto_file url ident file vs = Ok l) \/ goto_file url ident file vs = Panic.
Proof. destruct (goto_file url ident file vs); eauto. Qed.
Lemma goto_others_perm url ident uri m m' :
  Permutation m m' -> same_res (@Permutation _) (goto_others url ident uri m) (goto_others url ident uri m').
Proof.
  assert (Rf : forall x, same_res (@Permutation location) x x) by (intros [a|]; cbn; [reflexivity|exact I]).
  induction 1 as [|(f, vs) l l' P IH|(f, vs) (f', vs') l|l l1 l2 P1 IH1 P2 IH2]; [apply Rf| | |].
  - cbn [goto_others]. destruct (String.eqb f uri); [exact IH|].
    destruct (goto_file url ident f vs) as [a|]; [|exact I]. cbn [bind].
    destruct (goto_others url ident uri l), (goto_others url ident uri l'); cbn in *; try easy.
    now apply Permutation_app_head.
  - cbn [goto_others]. destruct (String.eqb f uri), (String.eqb f' uri); try apply Rf.
    destruct (goto_file url ident f vs) as [a|], (goto_file url ident f' vs') as [a'|]; cbn [bind];
      destruct (goto_others url ident uri l) as [k|]; cbn; try exact I.
    rewrite !app_assoc. apply Permutation_app_tail. apply Permutation_app_comm.
  - destruct (goto_others url ident uri l), (goto_others url ident uri l1), (goto_others url ident uri l2); cbn in *; try easy.
    etransitivity; eassumption.
Qed.
Definition same_goto (x y : option goto_response) : Prop :=
  match x, y with
  | Some (GArray a), Some (GArray b) => Permutation a b
  | _, _ => x = y
  end.
Lemma same_goto_refl x : same_goto x x.
Proof. destruct x as [[l|l]|]; cbn; reflexivity. Qed.
Lemma same_res_refl {A} (R : A -> A -> Prop) (HR : forall x, R x x) x : same_res R x x.
Proof. destruct x; cbn; auto. Qed.
Lemma goto_same F url b uri pos s s' :
  same_state s s' -> same_res same_goto (goto_definition F url b uri pos s) (goto_definition F url b uri pos s').
Proof.
  intros S. unfold goto_definition. destruct (file_ext uri) as [l|]; [|reflexivity].
  rewrite (same_get uri _ _ (same_trees l _ _ S)), (same_get uri _ _ (sm_docs _ _ S)), (sm_query _ _ S).
  destruct (sget uri (trees_of l s')) as [tr|]; [|reflexivity].
  destruct (sget uri (ls_docs s')) as [t|]; [|reflexivity].
  assert (El : forall tp i, goto_local uri tp i s = goto_local uri tp i s').
  { intros tp i. unfold goto_local. sg S uri. reflexivity. }
  assert (Et : forall n, goto_template F url n s = goto_template F url n s').
  { intros n. unfold goto_template. now rewrite (sm_config _ _ S). }
  destruct l.
  - destruct (objects_query b _ (point_of pos) (rope_content t) false) as [objs|]; [|exact I]. cbn [bind].
    rewrite El. destruct (goto_local uri (point_of pos) (is_ident objs (point_of pos)) s') as [g|];
      [apply same_goto_refl|].
    destruct (templates_query _ (point_of pos) (rope_content t) false) as [imps|]; [|exact I]. cbn [bind].
    assert (E : forall x, match in_template imps with
                | None => None
                | Some im => match import_get im x with None => None | Some i => goto_template F url (id_name i) s end
                end = match in_template imps with
                | None => None
                | Some im => match import_get im x with None => None | Some i => goto_template F url (id_name i) s' end
                end).
    { intros x. destruct (in_template imps); [|reflexivity]. destruct (import_get _ _); [apply Et|reflexivity]. }
    rewrite E. clear E.
    match goal with |- context [match in_template imps with None => None | Some im => @?f im end] =>
      destruct (match in_template imps with None => None | Some im => f im end); [apply same_goto_refl|] end.
    set (cur := match is_ident objs (point_of pos) with Some n => n | None => EmptyString end).
    pose proof (goto_others_perm url cur uri _ _ (proj2 (sm_vars _ _ S))) as G.
    destruct (goto_others url cur uri (ls_vars s)), (goto_others url cur uri (ls_vars s')); cbn in *; easy.
  - destruct (backend_templates_query _ (point_of pos) (rope_content t) false) as [bt|]; [|exact I]. cbn [bind].
    destruct (bt_in_template bt (point_of pos)); [|reflexivity]. rewrite Et. apply same_goto_refl.
Qed.

(** ** Writing *)
Lemma same_state_set_trees l m m' s s' :
  same_state s s' -> same_map m m' -> same_state (set_trees l m s) (set_trees l m' s').
Proof. intros [] M. destruct l; constructor; assumption. Qed.
Lemma same_state_set_docs m m' s s' : same_state s s' -> same_map m m' -> same_state (set_docs m s) (set_docs m' s').
Proof. intros [] M. constructor; assumption. Qed.
Lemma same_state_set_vars m m' s s' : same_state s s' -> same_map m m' -> same_state (set_vars m s) (set_vars m' s').
Proof. intros [] M. constructor; assumption. Qed.
Lemma same_state_set_actions m m' s s' : same_state s s' -> same_map m m' -> same_state (set_actions m s) (set_actions m' s').
Proof. intros [] M. constructor; assumption. Qed.
Lemma same_state_set_task t s s' : same_state s s' -> same_state (set_task t s) (set_task t s').
Proof. intros []. constructor; (assumption || reflexivity). Qed.
Lemma same_state_set_vscode t s s' : same_state s s' -> same_state (set_vscode t s) (set_vscode t s').
Proof. intros []. constructor; (assumption || reflexivity). Qed.

Lemma add_tree_same uri l c s s' : same_state s s' -> same_state (add_tree uri l c s) (add_tree uri l c s').
Proof.
  intros S. unfold add_tree, parse. rewrite (same_get uri _ _ (same_trees l _ _ S)), (sm_parser _ _ S).
  destruct (t_parse T _ c _); [|exact S]. apply same_state_set_trees; [exact S|].
  apply same_sinsert. now apply same_trees.
Qed.
Lemma add_variables_same uri l c s s' :
  same_state s s' -> same_res same_state (add_variables uri l c s) (add_variables uri l c s').
Proof.
  intros S. unfold add_variables. rewrite (same_get uri _ _ (same_trees l _ _ S)), (sm_query _ _ S).
  destruct (sget uri (trees_of l s')) as [tr|]; [|exact S].
  assert (St : forall vs, same_state (set_actions (sinsert uri [] (ls_actions s)) (set_vars (sinsert uri vs (ls_vars s)) s))
                 (set_actions (sinsert uri [] (ls_actions s')) (set_vars (sinsert uri vs (ls_vars s')) s'))).
  { intros vs. apply same_state_set_actions; [apply same_state_set_vars; [exact S|]|]; apply same_sinsert; apply S. }
  destruct l.
  - destruct (snippets_query _ pt0 true) as [sn|]; [|exact I]. cbn [bind]. destruct (sn_error sn); [exact S|].
    destruct (definition_query _ _ pt0 c true) as [d|]; [|exact I]. cbn [bind]. apply St.
  - destruct (backend_definition_query _ pt0 c true) as [d|]; [|exact I]. cbn [bind].
    destruct (backend_templates_query _ pt0 c true) as [d'|]; [|exact I]. cbn [bind]. apply St.
Qed.
Lemma delete_variables_same uri s s' : same_state s s' -> same_state (delete_variables uri s) (delete_variables uri s').
Proof.
  intros S. unfold delete_variables. sg S uri. destruct (sget uri (ls_vars s')); [|exact S].
  apply same_state_set_vars; [exact S|]. apply same_sinsert. apply S.
Qed.
Definition same_out (x y : lsp_files T * option diag_msg) : Prop :=
  same_state (fst x) (fst y) /\ snd x = snd y.
Lemma did_open_same F b uri t ig s s' :
  same_state s s' -> same_res same_out (did_open F b uri t ig s) (did_open F b uri t ig s').
Proof.
  intros S. unfold did_open. destruct (file_ext uri) as [l|]; [|now split]. cbv zeta.
  assert (S2 : same_state (set_docs (sinsert uri t (ls_docs (delete_variables uri s))) (delete_variables uri s))
                 (set_docs (sinsert uri t (ls_docs (delete_variables uri s'))) (delete_variables uri s'))).
  { apply delete_variables_same with (uri := uri) in S. apply same_state_set_docs; [exact S|].
    apply same_sinsert. apply S. }
  apply add_tree_same with (uri := uri) (l := l) (c := encode t) in S2.
  apply add_variables_same with (uri := uri) (l := l) (c := encode t) in S2.
  destruct (add_variables uri l (encode t) _) as [a|], (add_variables uri l (encode t) _) as [a'|] in S2 |- *;
    cbn in S2; try easy. cbn [bind].
  destruct ig; [now split|]. rewrite (read_tree_same F b uri a a' S2).
  destruct (read_tree F b uri a') as [[v|]|]; cbn; try easy; now split.
Qed.
Lemma did_save_same F b uri s s' :
  same_state s s' -> same_res same_out (did_save F b uri s) (did_save F b uri s').
Proof.
  intros S. unfold did_save. destruct (file_ext uri) as [l|]; [|now split]. sg S uri.
  destruct (sget uri (ls_docs s')) as [t|]; [|now split].
  apply delete_variables_same with (uri := uri) in S.
  apply add_variables_same with (uri := uri) (l := l) (c := rope_content t) in S.
  destruct (add_variables uri l (rope_content t) (delete_variables uri s)) as [a|],
    (add_variables uri l (rope_content t) (delete_variables uri s')) as [a'|]; cbn in S; try easy. cbn [bind].
  rewrite (read_tree_same F b uri a a' S). destruct (read_tree F b uri a') as [v|]; cbn; try easy; now split.
Qed.
Lemma input_edit_same uri c ie l s s' : same_state s s' -> same_state (input_edit_tree uri c ie l s) (input_edit_tree uri c ie l s').
Proof.
  intros S. unfold input_edit_tree. destruct l as [l|]; [|exact S].
  rewrite (same_get uri _ _ (same_trees l _ _ S)). destruct (sget uri (trees_of l s')) as [old|]; [|exact S].
  assert (S1 : same_state (set_trees l (sinsert uri (t_edit T old ie) (trees_of l s)) s)
                          (set_trees l (sinsert uri (t_edit T old ie) (trees_of l s')) s')).
  { apply same_state_set_trees; [exact S|]. apply same_sinsert. now apply same_trees. }
  unfold parse. rewrite (sm_parser _ _ S1). destruct (t_parse T _ c _); [|exact S1].
  apply same_state_set_trees; [exact S1|]. apply same_sinsert. now apply same_trees.
Qed.
Lemma apply_edits_same uri l es : forall s s', same_state s s' -> same_state (apply_edits uri l es s) (apply_edits uri l es s').
Proof.
  unfold apply_edits. induction es as [|e es IH]; intros s s' S; [exact S|]. cbn [fold_left]. apply IH.
  now apply input_edit_same.
Qed.
Lemma did_change_same tid uri cs s s' :
  same_state s s' ->
  same_res (fun x y => same_state (fst x) (fst y) /\ snd x = snd y) (did_change tid uri cs s) (did_change tid uri cs s').
Proof.
  intros S. unfold did_change. sg S uri. destruct (sget uri (ls_docs s')) as [t|]; [|now split].
  destruct (apply_changes t cs) as [((t2, early), edits)|]; [|exact I]. cbn [bind].
  assert (S1 : same_state (set_docs (sinsert uri t2 (ls_docs s)) s) (set_docs (sinsert uri t2 (ls_docs s')) s')).
  { apply same_state_set_docs; [exact S|]. apply same_sinsert. apply S. }
  destruct early; [now split|]. apply apply_edits_same with (uri := uri) (l := file_ext uri) (es := edits) in S1.
  cbn. split; [now apply same_state_set_task|]. cbn. f_equal. f_equal. apply S1.
Qed.
Lemma add_code_actions_same m m' s s' : same_map m m' -> same_state s s' -> same_state (add_code_actions m s) (add_code_actions m' s').
Proof.
  intros M S. unfold add_code_actions. apply same_state_set_actions; [exact S|]. apply same_fold_insert; [exact M|apply S].
Qed.

(** ** One message *)
Definition same_step (x y : task_state T * list effect) : Prop :=
  same_task (fst x) (fst y) /\ Forall2 same_effect (snd x) (snd y).
Lemma same_map_single {V} k (v : V) : same_map [(k, v)] [(k, v)].
Proof. apply same_map_refl. cbn. constructor; [intros []|constructor]. Qed.
Lemma do_completion_same b uri pos ctx s s' :
  same_state s s' ->
  same_res same_opt (do_completion b uri pos ctx s) (do_completion b uri pos ctx s').
Proof.
  intros S. unfold do_completion. rewrite (completion_same b uri pos ctx s s' S).
  assert (Rm : forall (x y : option (list citem)), same_opt x y ->
    same_opt (match x with Some l => Some (map RItem l) | None => None end)
             (match y with Some l => Some (map RItem l) | None => None end)).
  { intros [x|] [y|] H; cbn in *; try easy. now apply Permutation_map. }
  destruct (completion b uri pos ctx s') as [[(ct, bb)|]|]; cbn; try easy.
  destruct ct; cbn; try reflexivity; try exact I.
  - apply Rm. now apply read_variables_same.
  - apply Rm. now apply read_templates_same.
  - rewrite (sm_vscode _ _ S). reflexivity.
  - apply Rm. now apply read_variables_same.
Qed.
Lemma do_hover_same b uri pos s s' : same_state s s' -> do_hover b uri pos s = do_hover b uri pos s'.
Proof.
  intros S. unfold do_hover. rewrite (hover_same b uri pos s s' S).
  destruct (hover b uri pos s') as [[(i, ct)|]|]; cbn; try reflexivity.
  destruct ct; try reflexivity; now rewrite (data_type_same uri i s s' S).
Qed.
Lemma same_effect_refl e : (forall d, e = EDiag d -> NoDup (map fst d)) -> same_effect e e.
Proof.
  destruct e; cbn; auto.
  - intros H. apply same_map_refl. now apply H.
  - intros _. split; [reflexivity|]. destruct r as [| | |[l|l]| | |]; cbn; reflexivity.
Qed.
Lemma same_effects_refl es : Forall (fun e => forall d, e = EDiag d -> NoDup (map fst d)) es -> Forall2 same_effect es es.
Proof. induction 1 as [|e es H _ IH]; constructor; [now apply same_effect_refl|exact IH]. Qed.

(** ** Indexing *)
Definition same_o {A} (R : A -> A -> Prop) (x y : option A) : Prop :=
  match x, y with Some a, Some b => R a b | None, None => True | _, _ => False end.
Lemma read_file_same F p l s s' : same_state s s' -> same_res same_state (read_file F p l s) (read_file F p l s').
Proof.
  intros S. unfold read_file. destruct (f_canon F p) as [n| |]; [|exact S|exact S].
  destruct (f_read F n) as [t|]; [|exact S]. cbv zeta. apply add_variables_same. apply add_tree_same.
  apply same_state_set_docs; [exact S|]. apply same_sinsert. apply S.
Qed.
Lemma walk_entries_same F es : forall s s', same_state s s' ->
  same_res (same_o same_state) (walk_entries F es s) (walk_entries F es s').
Proof.
  induction es as [|[|p|p] es IH]; intros s s' S; cbn [walk_entries]; [exact S|exact I| |now apply IH].
  destruct (file_ext p) as [l|]; [|now apply IH].
  pose proof (read_file_same F p l s s' S) as R.
  destruct (read_file F p l s) as [a|], (read_file F p l s') as [a'|]; cbn in R; try easy. cbn [bind]. now apply IH.
Qed.
Lemma walk_dirs_same F ds : forall s s', same_state s s' ->
  same_res (same_o same_state) (walk_dirs F ds s) (walk_dirs F ds s').
Proof.
  induction ds as [|d ds IH]; intros s s' S; cbn [walk_dirs]; [exact S|].
  pose proof (walk_entries_same F (f_walk F d) s s' S) as R.
  destruct (walk_entries F (f_walk F d) s) as [[a|]|], (walk_entries F (f_walk F d) s') as [[a'|]|]; cbn in R; try easy.
  cbn [bind]. now apply IH.
Qed.
Lemma walk_init_same c : same_state (walk_init T c) (walk_init T c).
Proof.
  unfold walk_init, update_backend. destruct (String.eqb (cf_lang c) "python");
    constructor; cbn; try reflexivity; apply same_map_refl; constructor.
Qed.

Lemma read_trees_in_spec F b s names : forall d,
  (forall n, In n names -> read_tree F b n s <> Panic) -> NoDup names -> NoDup (map fst d) ->
  exists d', read_trees_in F b names s d = Ok d' /\ NoDup (map fst d') /\
    forall k, sget k d' = if str_mem k names
                          then match read_tree F b k s with Ok (Some e) => Some e | _ => sget k d end
                          else sget k d.
Proof.
  induction names as [|n names IH]; intros d H N Nd.
  - exists d. split; [reflexivity|]. split; [exact Nd|]. reflexivity.
  - inversion N as [|? ? N1 N2]; subst. cbn [read_trees_in].
    destruct (read_tree F b n s) as [e|] eqn:En; [|exfalso; apply (H n); [now left|exact En]]. cbn [bind].
    destruct (IH (match e with Some e => sinsert n e d | None => d end)) as (d' & E & Nd' & G).
    + intros x Hx. apply H. now right.
    + exact N2.
    + destruct e; [now apply sinsert_nodup|exact Nd].
    + exists d'. split; [exact E|]. split; [exact Nd'|]. intros k. rewrite G.
      unfold str_mem. cbn [existsb]. fold (str_mem k names).
      destruct (String.eqb k n) eqn:Ek.
      * apply String.eqb_eq in Ek. subst k. cbn [orb].
        assert (Hm : str_mem n names = false).
        { apply not_true_is_false. intros Hm. apply N1. unfold str_mem in Hm. apply existsb_exists in Hm.
          destruct Hm as (x & Hx & Ex). apply String.eqb_eq in Ex. now subst. }
        rewrite Hm, En. destruct e as [e|]; [apply sget_sinsert_same|reflexivity].
      * cbn [orb]. apply String.eqb_neq in Ek. destruct e as [e|]; [|reflexivity].
        now rewrite (sget_sinsert_other k n) by exact Ek.
Qed.
Lemma read_trees_in_panic F b s names : forall d,
  (exists n, In n names /\ read_tree F b n s = Panic) -> read_trees_in F b names s d = Panic.
Proof.
  induction names as [|n names IH]; intros d (x & Hx & E); [destruct Hx|]. cbn [read_trees_in].
  destruct Hx as [->|Hx]; [now rewrite E|]. destruct (read_tree F b n s); [|reflexivity]. cbn [bind]. apply IH. eauto.
Qed.
Lemma panic_dec F b s names :
  (forall n, In n names -> read_tree F b n s <> Panic) \/ (exists n, In n names /\ read_tree F b n s = Panic).
Proof.
  induction names as [|n names IH]; [left; intros n []|].
  destruct (read_tree F b n s) eqn:E; [|right; exists n; split; [now left|exact E]].
  destruct IH as [IH|(x & Hx & Ex)]; [|right; exists x; split; [now right|exact Ex]].
  left. intros x [->|Hx]; [congruence|now apply IH].
Qed.
Lemma str_mem_perm k l l' : Permutation l l' -> str_mem k l = str_mem k l'.
Proof. intros P. unfold str_mem. now apply existsb_perm. Qed.
Lemma read_trees_same F b s s' : same_state s s' -> same_res same_map (read_trees F b s) (read_trees F b s').
Proof.
  intros S. unfold read_trees. pose proof (Permutation_map fst (proj2 (sm_tt _ _ S))) as P.
  destruct (panic_dec F b s (map fst (ls_tt s))) as [H|(n & Hn & En)].
  - destruct (read_trees_in_spec F b s (map fst (ls_tt s)) [] H (proj1 (sm_tt _ _ S)) (NoDup_nil _)) as (d & E & N & G).
    assert (H' : forall n, In n (map fst (ls_tt s')) -> read_tree F b n s' <> Panic).
    { intros n Hn. rewrite <- (read_tree_same F b n s s' S). apply H. eapply Permutation_in; [|exact Hn]. now symmetry. }
    destruct (read_trees_in_spec F b s' (map fst (ls_tt s')) [] H' (same_nodup _ _ (sm_tt _ _ S)) (NoDup_nil _)) as (d' & E' & N' & G').
    rewrite E, E'. cbn. apply same_of_get; [exact N|exact N'|].
    intros k. rewrite G, G', (str_mem_perm k _ _ P), (read_tree_same F b k s s' S). reflexivity.
  - rewrite (read_trees_in_panic F b s _ [] (ex_intro _ n (conj Hn En))).
    rewrite (read_trees_in_panic F b s' _ []); [exact I|]. exists n. split.
    + eapply Permutation_in; eassumption.
    + now rewrite <- (read_tree_same F b n s s' S).
Qed.
Lemma walkdir_same F b c :
  same_res (same_o (fun x y => same_map (fst x) (fst y) /\ same_state (snd x) (snd y)))
    (walkdir T F b c) (walkdir T F b c).
Proof.
  unfold walkdir. pose proof (walk_dirs_same F (cf_templates c :: cf_backend c) _ _ (walk_init_same c)) as R.
  destruct (walk_dirs F (cf_templates c :: cf_backend c) (walk_init T c)) as [[a|]|]; cbn in R; try easy. cbn [bind].
  pose proof (read_trees_same F b a a R) as Q. destruct (read_trees F b a) as [d|]; cbn in *; easy.
Qed.
Lemma do_initialized_same F b (s s' : task_state T) :
  same_task s s' -> same_res same_step (do_initialized F b s) (do_initialized F b s').
Proof.
  intros St. pose proof St as (Ec & S & En). unfold do_initialized. rewrite Ec.
  assert (L : forall x, Forall2 same_effect
     ((ELog "Initialized" :: (if cf_user (tk_config s') then [] else [ELog "Config doesn't exist."]) ++
        (if String.eqb (cf_templates (tk_config s')) "" then [ELog "Template directory not found"] else [])) ++ [ELog x])
     ((ELog "Initialized" :: (if cf_user (tk_config s') then [] else [ELog "Config doesn't exist."]) ++
        (if String.eqb (cf_templates (tk_config s')) "" then [ELog "Template directory not found"] else [])) ++ [ELog x])).
  { intros x. apply same_effects_refl. apply Forall_forall. intros e He d ->. exfalso.
    apply in_app_or in He. destruct He as [He|[He|[]]]; [|discriminate].
    destruct He as [He|He]; [discriminate|]. apply in_app_or in He.
    destruct (cf_user _), (String.eqb _ _); cbn in He; intuition discriminate. }
  destruct (negb _); [split; [exact St|apply L]|].
  pose proof (walkdir_same F b (tk_config s')) as W.
  destruct (walkdir T F b (tk_config s')) as [[(d, data)|]|]; cbn in W; [| |exact I]; cbn [bind].
  - destruct W as (M & W). split.
    + split; [reflexivity|]. split; [|exact En]. cbn [fst tk_data]. rewrite (sm_vscode _ _ S). destruct W. constructor; cbn; assumption || reflexivity.
    + cbn [snd]. specialize (L EmptyString). apply Forall2_app_inv_l in L. destruct L as (x & y & Lx & Ly & _).
      apply Forall2_app; [|constructor; [exact M|constructor]].
      apply same_effects_refl. apply Forall_forall. intros e He d' ->. exfalso.
      destruct He as [He|He]; [discriminate|]. apply in_app_or in He.
      destruct (cf_user _), (String.eqb _ _); cbn in He; intuition discriminate.
  - split; [exact St|apply L].
Qed.

Lemma did_open_msg F b uri t s s' d : did_open F b uri t false s = Ok (s', Some d) -> exists v, d = [(uri, v)].
Proof.
  unfold did_open. destruct (file_ext uri); [|discriminate]. cbv zeta. destruct (add_variables _ _ _ _); [|discriminate].
  cbn [bind]. destruct (read_tree _ _ _ _) as [[v|]|]; cbn; try discriminate. intros H. inversion H. eauto.
Qed.
Lemma did_save_msg F b uri s s' d : did_save F b uri s = Ok (s', Some d) -> exists v, d = [(uri, v)].
Proof.
  unfold did_save. destruct (file_ext uri); [|discriminate]. destruct (sget uri (ls_docs s)); [|discriminate].
  destruct (add_variables _ _ _ _); [|discriminate].
  cbn [bind]. destruct (read_tree _ _ _ _) as [v|]; cbn; try discriminate. intros H. inversion H. eauto.
Qed.
Lemma same_reply_refl r : same_reply r r.
Proof. destruct r as [| | |[l|l]| | |]; cbn; reflexivity. Qed.
Lemma step_same F url b (s s' : task_state T) m m' :
  same_task s s' -> same_msg m m' -> same_res same_step (step F url b s m) (step F url b s' m').
Proof.
  intros St Hm. pose proof St as (Ec & S & En).
  assert (Hd : forall r a a', same_reply a a' -> Forall2 same_effect [EReply r a] [EReply r a']).
  { intros r a a' H. constructor; [now split|constructor]. }
  assert (Hw : forall d d' : lsp_files T, same_state d d' -> same_task (with_data d s) (with_data d' s')).
  { intros d d' H. split; [exact Ec|]. split; [exact H|exact En]. }
  assert (Ht : forall d d' : lsp_files T, same_state d d' -> same_task (with_timer d s) (with_timer d' s')).
  { intros d d' H. split; [exact Ec|]. split; [exact H|]. cbn. now rewrite En. }
  destruct m, m'; cbn in Hm; try discriminate Hm; try (injection Hm; intros; subst); unfold step; cbv zeta.
  - cbn. split; [|apply Hd; reflexivity]. rewrite Ec. split; [reflexivity|]. split; [|exact En]. cbn.
    destruct client0 as [n|]; [|exact S]. destruct (String.eqb n "Visual Studio Code"); [|exact S]. now apply same_state_set_vscode.
  - now apply do_initialized_same.
  - pose proof (did_open_same F b uri0 t0 false _ _ S) as D.
    destruct (did_open F b uri0 t0 false (tk_data s)) as [(a, da)|] eqn:Ea, (did_open F b uri0 t0 false (tk_data s')) as [(a', da')|];
      cbn in D; try easy. destruct D as (D1 & D2). cbn in D1, D2. subst da'. cbn. split; [now apply Hw|].
    destruct da as [d|]; [|constructor]. apply did_open_msg in Ea. destruct Ea as (v & ->).
    constructor; [apply same_map_single|constructor].
  - rewrite En. pose proof (did_change_same (tk_next s') uri0 cs0 _ _ S) as D.
    destruct (did_change (tk_next s') uri0 cs0 (tk_data s)) as [(a, da)|], (did_change (tk_next s') uri0 cs0 (tk_data s')) as [(a', da')|];
      cbn in D; try easy. destruct D as (D1 & D2). cbn in D1, D2. subst da'. cbn [bind fst snd]. rewrite (sm_chan _ _ S).
    destruct da as [te|]; cbn; [|split; [now apply Hw|constructor]].
    split; [now apply Ht|]. cbn. apply Forall2_app; [|constructor; [reflexivity|constructor]].
    destruct (te_abort te); [constructor; [reflexivity|constructor]|constructor].
  - pose proof (did_save_same F b uri0 _ _ S) as D.
    destruct (did_save F b uri0 (tk_data s)) as [(a, da)|] eqn:Ea, (did_save F b uri0 (tk_data s')) as [(a', da')|];
      cbn in D; try easy. destruct D as (D1 & D2). cbn in D1, D2. subst da'. cbn. split; [now apply Hw|].
    destruct da as [d|]; [|constructor]. apply did_save_msg in Ea. destruct Ea as (v & ->).
    constructor; [apply same_map_single|constructor].
  - pose proof (do_completion_same b uri0 pos0 ctx0 _ _ S) as D.
    destruct (do_completion b uri0 pos0 ctx0 (tk_data s)) as [[a|]|], (do_completion b uri0 pos0 ctx0 (tk_data s')) as [[a'|]|];
      cbn in D; try easy; cbn; (split; [exact St|]); apply Hd; [exact D|reflexivity].
  - rewrite (do_hover_same b uri0 pos0 _ _ S). destruct (do_hover b uri0 pos0 (tk_data s')) as [h|]; [|exact I].
    cbn. split; [exact St|]. apply Hd. apply same_reply_refl.
  - pose proof (goto_same F url b uri0 pos0 _ _ S) as D.
    destruct (goto_definition F url b uri0 pos0 (tk_data s)) as [[g|]|], (goto_definition F url b uri0 pos0 (tk_data s')) as [[g'|]|];
      cbn in D; try easy; try (destruct g; discriminate D); cbn; (split; [exact St|]); [|constructor].
    apply Hd. destruct g, g'; cbn in *; try discriminate D; [congruence|exact D].
  - rewrite (code_action_same b uri0 start0 _ _ S). destruct (code_action b uri0 start0 (tk_data s')) as [[a|]|]; cbn [bind]; [| |exact I].
    2:{ split; [exact St|constructor]. }
    rewrite (process_same F url a _ _ S). destruct (process_code_actions F url a (tk_data s')) as [p|]; [|exact I]. cbn [bind].
    rewrite En, (sm_chan _ _ S). destruct (snd p).
    + split; [now apply Ht|]. cbn. constructor; [reflexivity|]. apply Hd. reflexivity.
    + split; [exact St|]. apply Hd. reflexivity.
  - destruct (String.eqb cmd0 "reset_variables"); (split; [exact St|]); repeat constructor.
  - rewrite (document_symbols_same uri0 _ _ S). split; [exact St|]. cbn [snd].
    destruct (document_symbols uri0 (tk_data s')); [|constructor]. apply Hd. reflexivity.
  - rewrite Ec. split; [split; [reflexivity|split; [exact S|exact En]]|]. cbn [snd].
    destruct (cf_user _); repeat constructor.
  - split; [|constructor]. apply Hw. now apply add_code_actions_same.
Qed.
End Order.
