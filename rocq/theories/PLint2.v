(** * PLint2: linting as part of the document events, and hash-map order. *)
From Verif Require Import Base RString Utf8 Rope Types Captures MDefinition MObjects MTemplates MSearchErrors MLspFiles.
From Verif Require Import SpecText SpecFiles SpecScope SpecScope2 SpecObjects SpecLint PText PUtf8 PFiles PScope PScope2 PScope3 PObjects PLint.

(** ** From a stored text and tree to diagnostics *)
Lemma sinsert_other_in {V} k (v : V) m f x : f <> k -> In (f, x) (sinsert k v m) <-> In (f, x) m.
Proof.
  intros Hf. unfold sinsert. induction m as [|(k', v') m IH]; cbn [hm_insert].
  - cbn. split; [intros [H|[]]; inversion H; congruence|intros []].
  - destruct (String.eqb k k') eqn:E.
    + apply String.eqb_eq in E. subst k'. cbn. split; intros [H|H]; auto; inversion H; congruence.
    + cbn. rewrite IH. reflexivity.
Qed.
Lemma delete_variables_other {T} uri (s : lsp_files T) f vs :
  f <> uri -> In (f, vs) (ls_vars (delete_variables uri s)) <-> In (f, vs) (ls_vars s).
Proof.
  intros Hf. unfold delete_variables. destruct (sget uri (ls_vars s)); [|reflexivity]. lsimp. now apply sinsert_other_in.
Qed.
Lemma delete_variables_frame {T} uri (s : lsp_files T) :
  exists m, delete_variables uri s = set_vars m s.
Proof.
  unfold delete_variables. destruct (sget uri (ls_vars s)); [eexists; reflexivity|].
  exists (ls_vars s). destruct s; reflexivity.
Qed.

(** Without branches the extents are those of the blocks. *)
Lemma straight_top t : straight t -> top_sets t.
Proof. induction t; cbn; tauto. Qed.
Lemma tallied_introduced root t : straight t -> plain_headers t -> tallied root t = introduced root t.
Proof. intros H1 H2. apply extents_top; [now apply straight_top|exact H2]. Qed.
Lemma straight_ends t : straight t -> plain_ends t.
Proof. intros H. now apply top_sets_ends, straight_top. Qed.

Section Relint.
Context (T : ts) (F : fs) (b : build).

(** What the second half of [did_open]/[did_save] computes. *)
Lemma relint_any uri t tr tp ps sts (s : lsp_files T) :
  file_ext uri = Some Template -> scalars t ->
  sget uri (ls_tt s) = Some tr -> sget uri (ls_docs s) = Some t ->
  parsed T tr (encode t) tp ps sts -> plain_ends tp ->
  exists s' e1,
    add_variables uri Template (encode t) s = Ok s' /\
    read_tree F b uri s' = Ok (Some (e1 ++ missing_reports F (cf_templates (ls_config s)) sts)) /\
    (ls_ignore s = false -> reported (tallied (t_root_end T tr) tp) (indexed (ls_vars s')) (chains ps) e1) /\
    (ls_ignore s = true -> e1 = []) /\
    (forall f vs, f <> uri -> In (f, vs) (ls_vars s') <-> In (f, vs) (ls_vars s)) /\
    option_map (map decl_of_id) (sget uri (ls_vars s')) = Some (tallied (t_root_end T tr) tp).
Proof.
  intros He Hsc Ht Hd [Pt Pn Pd Pp Po Ps Pi Pc] Hs.
  destruct (exact_extents (encode t) tp (t_captures T QDefinitions tr (encode t)) (t_root_end T tr) pt0 Pt Hs Pn Pd)
    as (d & Q & Ed).
  change (extents (t_root_end T tr) 0 (SpecScope2.marks tp)) with (tallied (t_root_end T tr) tp) in Ed.
  pose proof (add_variables_template T uri (encode t) tr s d Ht Pc Q) as A.
  set (s' := set_actions _ _) in A.
  destruct (missing_exact T F b tr (encode t) (ls_vars s') uri (cf_templates (ls_config s)) (ls_ignore s)
              (def_identifiers d) ps sts Pp Po Ps Pi (sget_sinsert_same _ _ _)) as (e1 & E & K & R & I).
  exists s', e1. split; [exact A|]. split; [|split; [|split; [|split]]].
  - unfold read_tree. unfold s' at 1 2 3. lsimp. rewrite Hd, He. cbn [trees_of]. lsimp. rewrite Ht.
    rewrite rope_content_encode by exact Hsc. exact E.
  - intros Hi. rewrite <- Ed. now apply R.
  - exact I.
  - intros f vs Hf. unfold s'. lsimp. now apply sinsert_other_in.
  - unfold s'. lsimp. rewrite sget_sinsert_same. cbn. now rewrite Ed.
Qed.

(** The same with branches: a use seen from a real declaration is not
    reported. *)
Lemma reported_no_false_alarm this anywhere us es u k :
  reported this anywhere us es -> verdict this anywhere (snd (fst u)) (n_start (fst (fst u))) (n_end (fst (fst u))) None ->
  ~ In (k, use_id u) es.
Proof.
  intros H Hv. induction H as [|u' us es Hf HR IH|u' us es d Hf HR IH]; [now intros []| exact IH|].
  intros [E|Hin]; [|now apply IH]. unfold use_id in E. injection E as _ E2 E3 E4 _.
  unfold tok in *. rewrite E2, E3, E4 in Hf. pose proof (verdict_unique _ _ _ _ _ _ _ Hv Hf). discriminate.
Qed.
Lemma covers_seen real found this name s e :
  Forall2 covers real found -> this = found -> (exists d, In d real /\ means name d /\ pt_le (dc_start d) e /\ pt_lt s (dc_until d)) ->
  forall anywhere, verdict this anywhere name s e None.
Proof.
  intros HF -> (d & Hd & Hm & H1 & H2) anywhere.
  assert (exists d', In d' found /\ covers d d') as (d' & Hd' & C1 & C2 & C3 & C4 & C5).
  { clear - HF Hd. induction HF as [|x y l l' H _ IH]; [destruct Hd|].
    destruct Hd as [->|Hd]; [exists y; split; [now left|exact H]|].
    destruct (IH Hd) as (z & ? & ?). exists z. split; [now right|assumption]. }
  apply (VFine _ _ _ _ _ d' Hd').
  - unfold means in *. rewrite C1, C2. exact Hm.
  - split; [now rewrite C3|]. right. clear - H2 C5. pts.
Qed.
Lemma relint_covering uri t tr tp ps sts (s : lsp_files T) :
  file_ext uri = Some Template -> scalars t ->
  sget uri (ls_tt s) = Some tr -> sget uri (ls_docs s) = Some t ->
  parsed T tr (encode t) tp ps sts -> plain_headers tp -> branching tp -> nested (t_root_end T tr) tp ->
  exists s' e,
    add_variables uri Template (encode t) s = Ok s' /\ read_tree F b uri s' = Ok (Some e) /\
    forall u k, In u (chains ps) ->
      (exists d, In d (introduced (t_root_end T tr) tp) /\ means (snd (fst u)) d /\
         pt_le (dc_start d) (n_end (fst (fst u))) /\ pt_lt (n_start (fst (fst u))) (dc_until d)) ->
      ~ In (k, use_id u) e.
Proof.
  intros He Hsc Ht Hd [Pt Pn Pd Pp Po Ps Pi Pc] Ph Hs Hn.
  destruct (covering_recorded (encode t) tp (t_captures T QDefinitions tr (encode t)) (t_root_end T tr) pt0 Pt Hs Pn Hn Pd)
    as (d & Q & Ed).
  rewrite recorded_introduced in Ed by exact Ph.
  pose proof (add_variables_template T uri (encode t) tr s d Ht Pc Q) as A.
  set (s' := set_actions _ _) in A.
  destruct (missing_exact T F b tr (encode t) (ls_vars s') uri (cf_templates (ls_config s)) (ls_ignore s)
              (def_identifiers d) ps sts Pp Po Ps Pi (sget_sinsert_same _ _ _)) as (e1 & E & K & R & I).
  exists s', (e1 ++ missing_reports F (cf_templates (ls_config s)) sts). split; [exact A|]. split.
  - unfold read_tree. unfold s' at 1 2 3. lsimp. rewrite Hd, He. cbn [trees_of]. lsimp. rewrite Ht.
    rewrite rope_content_encode by exact Hsc. exact E.
  - intros u k Hu Hx Hin. apply in_app_or in Hin. destruct Hin as [Hin|Hin].
    + destruct (ls_ignore s); [rewrite (I eq_refl) in Hin; destruct Hin|].
      eapply reported_no_false_alarm; [exact (R eq_refl)| |exact Hin].
      eapply covers_seen; [exact Ed|reflexivity|exact Hx].
    + unfold missing_reports in Hin. apply in_map_iff in Hin. destruct Hin as (r & Er & _).
      unfold ref_id, use_id in Er. discriminate Er.
Qed.

Lemma did_open_relint uri t tr (s : lsp_files T) :
  file_ext uri = Some Template -> t_parse T PJinja (encode t) (sget uri (ls_tt s)) = Some tr ->
  exists s2, sget uri (ls_tt s2) = Some tr /\ sget uri (ls_docs s2) = Some t /\
    ls_config s2 = ls_config s /\ ls_ignore s2 = ls_ignore s /\
    ls_vars s2 = ls_vars (delete_variables uri s) /\
    did_open F b uri t false s =
      (s3 <- add_variables uri Template (encode t) s2;;
       v <- read_tree F b uri s3;;
       match v with None => Ok (s3, None) | Some v => Ok (s3, Some [(uri, v)]) end).
Proof.
  intros He Hp. unfold did_open. rewrite He. cbv zeta.
  destruct (delete_variables_frame uri s) as (m & ->).
  set (s2 := set_docs (@sinsert text uri t (ls_docs (set_vars m s))) (set_vars m s)).
  exists (set_trees Template (sinsert uri tr (ls_tt s)) s2).
  assert (E : add_tree uri Template (encode t) s2 = set_trees Template (sinsert uri tr (ls_tt s)) s2).
  { unfold add_tree, parse. cbn [trees_of]. unfold s2. lsimp. cbn. rewrite Hp. reflexivity. }
  rewrite E. unfold s2. lsimp. rewrite !sget_sinsert_same. auto 10.
Qed.
Lemma did_save_relint uri t (s : lsp_files T) :
  file_ext uri = Some Template -> scalars t -> sget uri (ls_docs s) = Some t ->
  did_save F b uri s =
    (s1 <- add_variables uri Template (encode t) (delete_variables uri s);;
     v <- read_tree F b uri s1;;
     Ok (s1, Some [(uri, match v with Some v => v | None => [] end)])).
Proof.
  intros He Hsc Hd. unfold did_save. rewrite He, Hd, rope_content_encode by exact Hsc. reflexivity.
Qed.

(** The diagnostics sent on opening and on saving. *)
Lemma open_any uri t tr tp ps sts (s : lsp_files T) :
  file_ext uri = Some Template -> scalars t -> ls_ignore s = false ->
  t_parse T PJinja (encode t) (sget uri (ls_tt s)) = Some tr ->
  parsed T tr (encode t) tp ps sts -> plain_ends tp ->
  exists s' e1,
    did_open F b uri t false s =
      Ok (s', Some [(uri, e1 ++ missing_reports F (cf_templates (ls_config s)) sts)]) /\
    reported (tallied (t_root_end T tr) tp) (indexed (ls_vars s')) (chains ps) e1 /\
    (forall f vs, f <> uri -> In (f, vs) (ls_vars s') <-> In (f, vs) (ls_vars s)) /\
    option_map (map decl_of_id) (sget uri (ls_vars s')) = Some (tallied (t_root_end T tr) tp).
Proof.
  intros He Hsc Hi Hp Hpd Hs.
  destruct (did_open_relint uri t tr s He Hp) as (s2 & Ht & Hd & Hc & Hi2 & Hv & E).
  destruct (relint_any uri t tr tp ps sts s2 He Hsc Ht Hd Hpd Hs) as (s' & e1 & A & R & V & _ & O & D).
  exists s', e1. rewrite E, A. cbn [bind]. rewrite R. cbn [bind]. rewrite Hc. split; [reflexivity|].
  split; [apply V; congruence|]. split; [|exact D].
  intros f vs Hf. rewrite (O f vs Hf), Hv. now apply delete_variables_other.
Qed.
Lemma save_any uri t tr tp ps sts (s : lsp_files T) :
  file_ext uri = Some Template -> scalars t -> ls_ignore s = false ->
  sget uri (ls_docs s) = Some t -> sget uri (ls_tt s) = Some tr ->
  parsed T tr (encode t) tp ps sts -> plain_ends tp ->
  exists s' e1,
    did_save F b uri s =
      Ok (s', Some [(uri, e1 ++ missing_reports F (cf_templates (ls_config s)) sts)]) /\
    reported (tallied (t_root_end T tr) tp) (indexed (ls_vars s')) (chains ps) e1 /\
    (forall f vs, f <> uri -> In (f, vs) (ls_vars s') <-> In (f, vs) (ls_vars s)) /\
    option_map (map decl_of_id) (sget uri (ls_vars s')) = Some (tallied (t_root_end T tr) tp).
Proof.
  intros He Hsc Hi Hd Ht Hpd Hs. rewrite (did_save_relint uri t s He Hsc Hd).
  pose proof (delete_variables_other uri s) as Ov. destruct (delete_variables_frame uri s) as (m & Em). rewrite Em in *.
  destruct (relint_any uri t tr tp ps sts (set_vars m s) He Hsc Ht Hd Hpd Hs) as (s' & e1 & A & R & V & _ & O & D).
  exists s', e1. rewrite A. cbn [bind]. rewrite R. cbn [bind]. split; [reflexivity|].
  split; [apply V; exact Hi|]. split; [|exact D].
  intros f vs Hf. rewrite (O f vs Hf). now apply Ov.
Qed.
Lemma open_exact uri t tr tp ps sts (s : lsp_files T) :
  file_ext uri = Some Template -> scalars t -> ls_ignore s = false ->
  t_parse T PJinja (encode t) (sget uri (ls_tt s)) = Some tr ->
  parsed T tr (encode t) tp ps sts -> straight tp -> plain_headers tp ->
  exists s' e1,
    did_open F b uri t false s =
      Ok (s', Some [(uri, e1 ++ missing_reports F (cf_templates (ls_config s)) sts)]) /\
    reported (introduced (t_root_end T tr) tp) (indexed (ls_vars s')) (chains ps) e1 /\
    (forall f vs, f <> uri -> In (f, vs) (ls_vars s') <-> In (f, vs) (ls_vars s)) /\
    option_map (map decl_of_id) (sget uri (ls_vars s')) = Some (introduced (t_root_end T tr) tp).
Proof.
  intros He Hsc Hi Hp Hpd Hs Hh. rewrite <- (tallied_introduced _ _ Hs Hh). eapply open_any; eauto. now apply straight_ends.
Qed.
Lemma save_exact uri t tr tp ps sts (s : lsp_files T) :
  file_ext uri = Some Template -> scalars t -> ls_ignore s = false ->
  sget uri (ls_docs s) = Some t -> sget uri (ls_tt s) = Some tr ->
  parsed T tr (encode t) tp ps sts -> straight tp -> plain_headers tp ->
  exists s' e1,
    did_save F b uri s =
      Ok (s', Some [(uri, e1 ++ missing_reports F (cf_templates (ls_config s)) sts)]) /\
    reported (introduced (t_root_end T tr) tp) (indexed (ls_vars s')) (chains ps) e1 /\
    (forall f vs, f <> uri -> In (f, vs) (ls_vars s') <-> In (f, vs) (ls_vars s)) /\
    option_map (map decl_of_id) (sget uri (ls_vars s')) = Some (introduced (t_root_end T tr) tp).
Proof.
  intros He Hsc Hi Hd Ht Hpd Hs Hh. rewrite <- (tallied_introduced _ _ Hs Hh). eapply save_any; eauto. now apply straight_ends.
Qed.
Lemma open_no_false_alarm uri t tr tp ps sts (s : lsp_files T) :
  file_ext uri = Some Template -> scalars t ->
  t_parse T PJinja (encode t) (sget uri (ls_tt s)) = Some tr ->
  parsed T tr (encode t) tp ps sts -> plain_headers tp -> branching tp -> nested (t_root_end T tr) tp ->
  exists s' e, did_open F b uri t false s = Ok (s', Some [(uri, e)]) /\
    forall u k, In u (chains ps) ->
      (exists d, In d (introduced (t_root_end T tr) tp) /\ means (snd (fst u)) d /\
         pt_le (dc_start d) (n_end (fst (fst u))) /\ pt_lt (n_start (fst (fst u))) (dc_until d)) ->
      ~ In (k, use_id u) e.
Proof.
  intros He Hsc Hp Hpd Hh Hs Hn.
  destruct (did_open_relint uri t tr s He Hp) as (s2 & Ht & Hd & Hc & Hi2 & Hv & E).
  destruct (relint_covering uri t tr tp ps sts s2 He Hsc Ht Hd Hpd Hh Hs Hn) as (s' & e & A & R & V).
  exists s', e. rewrite E, A. cbn [bind]. rewrite R. split; [reflexivity|exact V].
Qed.

(** ** Syntax errors (C29) *)
Lemma snip_run_error cs : forall s, Exists (fun c => c_name c = CErrorBlock) cs ->
  exists s', run snip_check s cs = Ok s' /\ sn_error s' = true.
Proof.
  induction cs as [|c cs IH]; intros s HE; [inversion HE|]. cbn [run]. unfold snip_check at 1.
  destruct (c_name c) eqn:Ec; try (inversion HE as [? ? H|? ? H]; [congruence|]; apply IH; exact H).
  eexists. split; reflexivity.
Qed.
Lemma add_variables_error uri src tr (s : lsp_files T) :
  sget uri (ls_tt s) = Some tr ->
  Exists (fun c => c_name c = CErrorBlock) (concat (t_captures T QSnippets tr src)) ->
  add_variables uri Template src s = Ok s.
Proof.
  intros Ht HE. unfold add_variables. cbn [trees_of]. rewrite Ht.
  assert (Hq : exists sn, snippets_query (t_captures T QSnippets tr src) pt0 true = Ok sn /\ sn_error sn = true).
  { unfold snippets_query. rewrite flat_captures_all. now apply snip_run_error. }
  destruct Hq as (sn & -> & Hn). cbn [bind]. now rewrite Hn.
Qed.
Lemma reported_all this anywhere us es :
  reported this anywhere us es -> (forall n d, In d this -> ~ means n d) ->
  map snd es = map use_id us.
Proof.
  intros H Hn. induction H as [|u us es Hf _ IH|u us es d Hf _ IH]; [reflexivity| |cbn; now rewrite IH].
  inversion Hf as [d Hd Hm| | |]; subst. now apply Hn in Hm.
Qed.
Lemma save_with_error uri t tr ps tail (s : lsp_files T) :
  file_ext uri = Some Template -> scalars t -> ls_ignore s = false ->
  sget uri (ls_docs s) = Some t -> sget uri (ls_tt s) = Some tr -> is_some (sget uri (ls_vars s)) = true ->
  Exists (fun c => c_name c = CErrorBlock) (concat (t_captures T QSnippets tr (encode t))) ->
  pieces_ok (encode t) ps -> concat (t_captures T QObjects tr (encode t)) = cap_pieces ps ++ tail -> stops tail ->
  Forall (fun c => utf8_text (c_node c) (encode t) <> Panic) (concat (t_captures T QImports tr (encode t))) ->
  exists s' e1 e2, did_save F b uri s = Ok (s', Some [(uri, e1 ++ e2)]) /\
    sget uri (ls_vars s') = Some [] /\ map snd e1 = map use_id (chains ps) /\
    Forall (fun d => fst d = TemplateNotFound) e2.
Proof.
  intros He Hsc Hi Hd Ht Hv HE Hps Ho Hst Him. rewrite (did_save_relint uri t s He Hsc Hd).
  unfold delete_variables. destruct (sget uri (ls_vars s)) as [vs|] eqn:Ev; [|discriminate Hv].
  set (s1 := set_vars _ s). rewrite (add_variables_error uri (encode t) tr s1 Ht HE). cbn [bind].
  destruct (diagnostics_exact T F b tr (encode t) (ls_vars s1) uri (cf_templates (ls_config s)) [] ps tail Hps Ho Hst Him
              (sget_sinsert_same _ _ _)) as (e1 & e2 & E & R & K).
  exists s1, e1, e2.
  assert (Er : read_tree F b uri s1 = Ok (Some (e1 ++ e2))).
  { rewrite <- E. unfold read_tree, s1. lsimp. rewrite Hd, He. cbn [trees_of]. lsimp. rewrite Ht, Hi.
    now rewrite rope_content_encode by exact Hsc. }
  rewrite Er. cbn [bind]. split; [reflexivity|].
  split; [apply sget_sinsert_same|]. split; [|exact K].
  eapply reported_all; [exact R|]. intros n d [].
Qed.
End Relint.

(** ** No definitions without a defining keyword (C30) *)
Lemma no_definition_captures src cs : forall s,
  Forall (fun c => c_name c <> CDefinition) cs -> d_defs s = [] -> d_add s = false ->
  exists s', run (def_check src) s cs = Ok s' /\ d_defs s' = [].
Proof.
  induction cs as [|c cs IH]; intros s HF Hd Ha; [eexists; split; [reflexivity|exact Hd]|].
  inversion HF as [|? ? Hc HF']; subst. cbn [run]. unfold def_check at 1. rewrite Hd, Ha.
  destruct (c_name c); try congruence; cbn [negb last_opt];
    repeat match goal with
           | |- context [if ?x then _ else _] => destruct x
           | |- context [match d_stack s with _ => _ end] => destruct (d_stack s)
           end;
    first [apply IH; auto; fail | eexists; split; [reflexivity|assumption]].
Qed.
Lemma imports_define_nothing src ms root_end tp all :
  Forall (fun c => c_name c <> CDefinition) (concat ms) ->
  exists d, definition_query ms root_end tp src all = Ok d /\ def_identifiers d = [].
Proof.
  intros H. unfold definition_query.
  destruct (no_definition_captures src (flat_captures all tp ms) jdefs0) as (s & R & E); [|reflexivity|reflexivity|].
  - apply Forall_forall. intros c Hc. apply flat_captures_In in Hc. rewrite Forall_forall in H. now apply H.
  - rewrite R. cbn [bind]. eexists. split; [reflexivity|]. unfold def_identifiers, fix_end. cbn [d_defs]. now rewrite E.
Qed.

(** ** Built-in names (C65) *)
Lemma reported_in this anywhere us es d i : reported this anywhere us es -> In (d, i) es ->
  exists u, In u us /\ i = use_id u.
Proof.
  intros H. induction H as [|u us es Hf _ IH|u us es k Hf _ IH]; [intros []| |].
  - intros Hi. destruct (IH Hi) as (x & ? & ?). exists x. split; [now right|assumption].
  - intros [E|Hi]; [inversion E; exists u; split; [now left|reflexivity]|].
    destruct (IH Hi) as (x & ? & ?). exists x. split; [now right|assumption].
Qed.
Lemma builtins_never_reported T F b tr src vars file dir this ps tail e d i :
  pieces_ok src ps -> concat (t_captures T QObjects tr src) = cap_pieces ps ++ tail -> stops tail ->
  Forall (fun c => utf8_text (c_node c) src <> Panic) (concat (t_captures T QImports tr src)) ->
  sget file vars = Some this ->
  search_errors T F b tr src vars file dir Template false = Ok (Some e) -> In (d, i) e -> d <> TemplateNotFound ->
  ~ built_in (id_name i).
Proof.
  intros Hps Ho Hs Hi Hf E Hin Hd.
  destruct (diagnostics_exact T F b tr src vars file dir this ps tail Hps Ho Hs Hi Hf) as (e1 & e2 & E' & R & K).
  rewrite E in E'. inversion E'; subst e. apply in_app_or in Hin. destruct Hin as [Hin|Hin].
  - destruct (reported_in _ _ _ _ _ _ R Hin) as (u & Hu & ->). cbn [use_id id_name].
    unfold chains in Hu. apply in_flat_map in Hu. destruct Hu as (p & Hp & Hu). destruct p; try easy.
    destruct Hu as [<-|[]]. destruct Hps as (HF & _). rewrite Forall_forall in HF. apply (HF _ Hp).
  - rewrite Forall_forall in K. specialize (K _ Hin). contradiction.
Qed.
