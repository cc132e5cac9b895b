(** * PQueries6: from the syntax tree of a template to its diagnostics. *)
From Verif Require Import Base RString Utf8 Rope Types Captures MTemplates MLspFiles MSearchErrors MQueries.
From Verif Require Import SpecFiles SpecScope SpecScope2 SpecObjects SpecObjects2 SpecLint SpecQueries PText PLint2 PQueries PQueries2.

Lemma spoken_names src l ns : spoken src l ns -> forall n, In ("identifier"%string, n) ns -> ~ number (text_of src n).
Proof.
  induction 1 as [|t r ns Hs _ IH|t r ns _ _ IH]; intros n Hn; [destruct Hn| |auto]. destruct Hn as [E|Hn]; [|auto].
  destruct Hs as [m ch|m ch|m ch E'|m ch E']; cbn in E; inversion E; subst; auto.
Qed.
Lemma reported_in this any us es : reported this any us es -> forall k i, In (k, i) es -> exists u, In u us /\ i = use_id u.
Proof.
  induction 1 as [|u us es _ _ IH|u us es d _ _ IH]; intros k i H; [destruct H| |].
  - destruct (IH _ _ H) as (v & Hv & ->). exists v. split; [now right|reflexivity].
  - destruct H as [E|H]; [inversion E; subst; exists u; split; [now left|reflexivity]|]. destruct (IH _ _ H) as (v & Hv & ->). exists v. split; [now right|reflexivity].
Qed.
Lemma chain_names src t tp ps sts : depicts src t tp ps sts -> forall u, In u (chains ps) -> ~ number (snd (fst u)).
Proof.
  intros Hd (h & fs) Hu. unfold chains in Hu. apply in_flat_map in Hu. destruct Hu as (p & Hp & Hu). destruct p as [|h' fs'|? ?|? ? ?|?|?]; try (destruct Hu; fail).
  destruct Hu as [E|[]]. inversion E; subst. cbn [fst].
  destruct (dp_pieces _ _ _ _ _ Hd) as (Hok & _). rewrite Forall_forall in Hok. destruct (Hok _ Hp) as (Hr & _). rewrite <- (reads_text _ _ Hr).
  apply (spoken_names _ _ _ (dp_spoken _ _ _ _ _ Hd)). apply in_flat_map. exists (PChain h fs). split; [exact Hp|now left].
Qed.

Section Tree.
Variables (parse : plang -> string -> option stree -> option stree) (edit : stree -> input_edit -> stree).
Notation T := (ts_with parse edit).
Lemma tree_open_any F b uri t tr tp ps sts (s : lsp_files T) :
  file_ext uri = Some Template -> scalars t -> ls_ignore s = false ->
  parse PJinja (encode t) (sget uri (ls_tt s)) = Some tr ->
  depicts (encode t) tr tp ps sts -> plain_ends tp ->
  exists s' e1,
    did_open F b uri t false s = Ok (s', Some [(uri, e1 ++ missing_reports F (cf_templates (ls_config s)) sts)]) /\
    reported (tallied (n_end (s_node tr)) tp) (indexed (ls_vars s')) (chains ps) e1 /\
    (forall f vs, f <> uri -> In (f, vs) (ls_vars s') <-> In (f, vs) (ls_vars s)) /\
    option_map (map decl_of_id) (sget uri (ls_vars s')) = Some (tallied (n_end (s_node tr)) tp).
Proof. intros Hx Hs Hi Hp Hd Hst. exact (open_any T F b uri t tr tp ps sts s Hx Hs Hi Hp (depicts_parsed _ _ _ _ _ _ _ Hd) Hst). Qed.
Lemma tree_save_any F b uri t tr tp ps sts (s : lsp_files T) :
  file_ext uri = Some Template -> scalars t -> ls_ignore s = false ->
  sget uri (ls_docs s) = Some t -> sget uri (ls_tt s) = Some tr ->
  depicts (encode t) tr tp ps sts -> plain_ends tp ->
  exists s' e1,
    did_save F b uri s = Ok (s', Some [(uri, e1 ++ missing_reports F (cf_templates (ls_config s)) sts)]) /\
    reported (tallied (n_end (s_node tr)) tp) (indexed (ls_vars s')) (chains ps) e1 /\
    (forall f vs, f <> uri -> In (f, vs) (ls_vars s') <-> In (f, vs) (ls_vars s)) /\
    option_map (map decl_of_id) (sget uri (ls_vars s')) = Some (tallied (n_end (s_node tr)) tp).
Proof. intros Hx Hs Hi Hp Ht Hd Hst. exact (save_any T F b uri t tr tp ps sts s Hx Hs Hi Hp Ht (depicts_parsed _ _ _ _ _ _ _ Hd) Hst). Qed.
Lemma tree_open F b uri t tr tp ps sts (s : lsp_files T) :
  file_ext uri = Some Template -> scalars t -> ls_ignore s = false ->
  parse PJinja (encode t) (sget uri (ls_tt s)) = Some tr ->
  depicts (encode t) tr tp ps sts -> straight tp -> plain_headers tp ->
  exists s' e1,
    did_open F b uri t false s = Ok (s', Some [(uri, e1 ++ missing_reports F (cf_templates (ls_config s)) sts)]) /\
    reported (introduced (n_end (s_node tr)) tp) (indexed (ls_vars s')) (chains ps) e1 /\
    (forall f vs, f <> uri -> In (f, vs) (ls_vars s') <-> In (f, vs) (ls_vars s)) /\
    option_map (map decl_of_id) (sget uri (ls_vars s')) = Some (introduced (n_end (s_node tr)) tp).
Proof. intros Hx Hs Hi Hp Hd Hst Hh. exact (open_exact T F b uri t tr tp ps sts s Hx Hs Hi Hp (depicts_parsed _ _ _ _ _ _ _ Hd) Hst Hh). Qed.
Lemma tree_save F b uri t tr tp ps sts (s : lsp_files T) :
  file_ext uri = Some Template -> scalars t -> ls_ignore s = false ->
  sget uri (ls_docs s) = Some t -> sget uri (ls_tt s) = Some tr ->
  depicts (encode t) tr tp ps sts -> straight tp -> plain_headers tp ->
  exists s' e1,
    did_save F b uri s = Ok (s', Some [(uri, e1 ++ missing_reports F (cf_templates (ls_config s)) sts)]) /\
    reported (introduced (n_end (s_node tr)) tp) (indexed (ls_vars s')) (chains ps) e1 /\
    (forall f vs, f <> uri -> In (f, vs) (ls_vars s') <-> In (f, vs) (ls_vars s)) /\
    option_map (map decl_of_id) (sget uri (ls_vars s')) = Some (introduced (n_end (s_node tr)) tp).
Proof. intros Hx Hs Hi Hp Ht Hd Hst Hh. exact (save_exact T F b uri t tr tp ps sts s Hx Hs Hi Hp Ht (depicts_parsed _ _ _ _ _ _ _ Hd) Hst Hh). Qed.
Lemma tree_no_false_alarm F b uri t tr tp ps sts (s : lsp_files T) :
  file_ext uri = Some Template -> scalars t ->
  parse PJinja (encode t) (sget uri (ls_tt s)) = Some tr ->
  depicts (encode t) tr tp ps sts -> plain_headers tp -> branching tp -> nested (n_end (s_node tr)) tp ->
  exists s' e, did_open F b uri t false s = Ok (s', Some [(uri, e)]) /\
    forall u k, In u (chains ps) ->
      (exists d, In d (introduced (n_end (s_node tr)) tp) /\ means (snd (fst u)) d /\
         pt_le (dc_start d) (n_end (fst (fst u))) /\ pt_lt (n_start (fst (fst u))) (dc_until d)) ->
      ~ In (k, use_id u) e.
Proof. intros Hx Hs Hp Hd Hh Hb Hn. exact (open_no_false_alarm T F b uri t tr tp ps sts s Hx Hs Hp (depicts_parsed _ _ _ _ _ _ _ Hd) Hh Hb Hn). Qed.
Lemma tree_numbers F b uri t tr tp ps sts (s : lsp_files T) :
  file_ext uri = Some Template -> scalars t -> ls_ignore s = false ->
  parse PJinja (encode t) (sget uri (ls_tt s)) = Some tr ->
  depicts (encode t) tr tp ps sts -> plain_ends tp ->
  exists s' e, did_open F b uri t false s = Ok (s', Some [(uri, e)]) /\
    forall k i, In (k, i) e -> k <> TemplateNotFound -> ~ number (id_name i).
Proof.
  intros Hx Hs Hi Hp Hd Hst. destruct (tree_open_any F b uri t tr tp ps sts s Hx Hs Hi Hp Hd Hst) as (s' & e1 & H & Hr & _). eexists _, _. split; [exact H|].
  intros k i Hin Hk. apply in_app_or in Hin. destruct Hin as [Hin|Hin].
  - destruct (reported_in _ _ _ _ Hr _ _ Hin) as (u & Hu & ->). exact (chain_names _ _ _ _ _ Hd u Hu).
  - exfalso. unfold missing_reports in Hin. apply in_map_iff in Hin. destruct Hin as (r & E & _). inversion E. congruence.
Qed.
(** References: every missing one is reported, and nothing else is reported as
    missing. *)
Lemma tree_references F b uri t tr tp ps sts (s : lsp_files T) :
  file_ext uri = Some Template -> scalars t -> ls_ignore s = false ->
  parse PJinja (encode t) (sget uri (ls_tt s)) = Some tr ->
  depicts (encode t) tr tp ps sts -> plain_ends tp ->
  exists s' e, did_open F b uri t false s = Ok (s', Some [(uri, e)]) /\
    forall i, In (TemplateNotFound, i) e <->
      exists st r, In st sts /\ In r (refs st) /\ i = ref_id r /\
        (snd r = EmptyString \/ f_canon F (lookup_path (cf_templates (ls_config s)) (snd r)) = CanonNotFound).
Proof.
  intros Hx Hs Hi Hp Hd Hst. destruct (tree_open_any F b uri t tr tp ps sts s Hx Hs Hi Hp Hd Hst) as (s' & e1 & H & Hr & _). eexists _, _. split; [exact H|].
  intros i. rewrite in_app_iff. unfold missing_reports. rewrite in_map_iff. split.
  - intros [Hin|(r & E & Hr')].
    + exfalso. clear - Hr Hin. induction Hr as [|u us es _ _ IH|u us es d Hv _ IH]; [destruct Hin|auto|]. destruct Hin as [E|Hin]; [|auto]. inversion E; subst. inversion Hv.
    + inversion E; subst. apply filter_In in Hr'. destruct Hr' as (Hin & Hm). apply in_flat_map in Hin. destruct Hin as (st & Hst' & Hin). exists st, r. split; [exact Hst'|]. split; [exact Hin|]. split; [reflexivity|].
      unfold missing, not_found in Hm. apply orb_true_iff in Hm. destruct Hm as [Hm|Hm]; [left; now apply String.eqb_eq|right]. destruct (f_canon F _); congruence.
  - intros (st & r & Hst' & Hin & -> & Hm). right. exists r. split; [reflexivity|]. apply filter_In. split; [apply in_flat_map; now exists st|].
    unfold missing, not_found. apply orb_true_iff. destruct Hm as [Hm|Hm]; rewrite Hm; auto.
Qed.
End Tree.
