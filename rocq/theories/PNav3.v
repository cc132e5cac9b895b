(** * PNav3: hover, completion items, symbols and code actions. *)
From Verif Require Import Base RString Utf8 Rope Types Captures MDefinition MObjects MTemplates MSearchErrors MLspFiles MLspTask.
From Verif Require Import SpecText SpecFiles SpecScope SpecObjects SpecLint SpecNav PText PUtf8 PFiles PScope PScope2 PObjects PLint PLint2 PLint3 POrder PNav PNav2.

Lemma completion_detail_text k : completion_detail k = kind_text k.
Proof. destruct k; reflexivity. Qed.
Lemma completion_kind_lsp k : completion_kind k = lsp_kind k.
Proof. destruct k; reflexivity. Qed.
Lemma symbol_kind_lsp k : symbol_kind k = lsp_kind k.
Proof. destruct k; reflexivity. Qed.

(** ** Hover *)
Section Hover.
Context {T : ts}.
Implicit Types st : lsp_files T.

Lemma data_other_iff uri h vars :
  (data_other uri h vars = Some BackendVariable /\ exists fv, In fv (other_vars uri vars) /\ heads (id_name h) (id_name (snd fv)) = true) \/
  (data_other uri h vars = None /\ forall fv, In fv (other_vars uri vars) -> heads (id_name h) (id_name (snd fv)) = false).
Proof.
  rewrite data_other_spec. destruct (existsb _ vars) eqn:E; [left|right]; (split; [reflexivity|]).
  - apply existsb_exists in E. destruct E as ((f, vs) & Hin & H). cbn [fst snd] in H. apply andb_true_iff in H. destruct H as (H1 & H2).
    apply existsb_exists in H2. destruct H2 as (v & Hv & H2). exists (f, v). cbn [snd]. rewrite heads_first. split; [|exact H2].
    unfold other_vars. apply in_flat_map. exists (f, vs). split; [apply filter_In; auto|]. cbn. now apply in_map.
  - intros (f, v) Hin. unfold other_vars in Hin. apply in_flat_map in Hin. destruct Hin as ((f', vs) & Hin & Hv).
    apply filter_In in Hin. destruct Hin as (Hin & Hf). cbn [fst snd] in *. apply in_map_iff in Hv. destruct Hv as (w & Hw & Hv).
    inversion Hw; subst. rewrite heads_first. destruct (String.eqb (first_segment (id_name v)) (id_name h)) eqn:Ev; [|reflexivity].
    assert (existsb (fun kv => negb (String.eqb (fst kv) uri) && existsb (fun v => String.eqb (first_segment (id_name v)) (id_name h)) (snd kv)) vars = true).
    { apply existsb_exists. exists (f, vs). split; [exact Hin|]. cbn [fst snd]. rewrite Hf. cbn [andb]. apply existsb_exists. eauto. }
    congruence.
Qed.

Definition hover_answer st uri ds (name : string) (s : point) (r : option doc) : Prop :=
  (exists d, latest (hover_sees s name) ds d /\ r = Some (DocKind (kind_text (dc_kind d)))) \/
  ((forall d, In d ds -> ~ hover_sees s name d) /\
   (exists fv, In fv (other_vars uri (ls_vars st)) /\ heads name (id_name (snd fv)) = true) /\
   r = Some (DocKind "Backend variable")) \/
  ((forall d, In d ds -> ~ hover_sees s name d) /\
   (forall fv, In fv (other_vars uri (ls_vars st)) -> heads name (id_name (snd fv)) = false) /\ r = None).

Lemma data_type_answer st uri ds h : knows st uri ds ->
  hover_answer st uri ds (id_name h) (id_start h)
    (match data_type uri h st with Some t => Some (DocKind (completion_detail t)) | None => None end).
Proof.
  intros Hk. destruct (knows_vars _ _ _ Hk) as (vs & E & ->). unfold data_type. rewrite E.
  destruct (filter_latest (data_visible h) (hover_sees (id_start h) (id_name h)) vs (data_visible_sees h))
    as [(-> & Hn)|(m & -> & Hm)].
  - right. destruct (data_other_iff uri h (ls_vars st)) as [(-> & H)|(-> & H)]; [left|right]; auto.
  - left. exists (decl_of_id m). split; [exact Hm|]. cbn. now rewrite completion_detail_text.
Qed.

Lemma hover_exact b st uri pos tr t pre h fs1 fs2 post ds :
  let src := rope_content t in
  let tp := point_of pos in
  let ps := pre ++ PChain h (fs1 ++ fs2) :: post in
  holds st uri tr t -> knows st uri ds ->
  pieces_ok src ps -> concat (t_captures T QObjects tr src) = cap_pieces ps ->
  on_tok tp (segment h fs1) -> Forall (behind tp) (cap_pieces post) -> all_small (cap_pieces ps) ->
  exists r, do_hover b uri pos st = Ok r /\ hover_answer st uri ds (snd h) (n_start (fst h)) r.
Proof.
  intros src tp ps (H1 & H2 & H3) Hk Hps E Hon Hb Hsm.
  destruct (hover_chain b st uri pos tr t pre h fs1 fs2 post H1 H2 H3 Hps E Hon Hb Hsm) as (i & Eh & N1 & N2 & _).
  unfold do_hover. rewrite Eh. cbn [bind]. eexists. split; [reflexivity|]. rewrite <- N1, <- N2. now apply data_type_answer.
Qed.
(** Filters and tests. *)
Lemma hover_documented b st uri pos tr t pre p name o post :
  let src := rope_content t in
  let tp := point_of pos in
  let ps := pre ++ p :: post in
  holds st uri tr t ->
  pieces_ok src ps -> concat (t_captures T QObjects tr src) = cap_pieces ps ->
  named p name -> uses p = [o] -> on_tok tp name -> Forall (behind tp) (cap_pieces post) ->
  do_hover b uri pos st = Ok (match p with
    | PFilter _ _ => if str_mem (snd name) filter_names then Some (DocFilter (snd name)) else None
    | _ => if str_mem (snd name) test_names then Some (DocTest (snd name)) else None
    end).
Proof.
  intros src tp ps (H1 & H2 & H3) Hps E Hn Hu Hon Hb.
  destruct (hover_named b st uri pos tr t pre p name o post H1 H2 H3 Hps E Hn Hu Hon Hb) as (i & Eh & N1 & _).
  unfold do_hover. rewrite Eh. cbn [bind]. destruct p; cbn [named] in Hn; try (destruct Hn; fail); subst; cbn in Hu; inversion Hu; subst;
    cbn [o_is_filter o_is_test]; now rewrite N1.
Qed.
End Hover.

(** ** Completion of variables *)
Lemma wanted_nil n : wanted "" n.
Proof. now exists n. Qed.
Lemma local_item_some vscode typed r v i : local_item vscode typed r v = Some i ->
  presents (decl_of_id v) i /\ wanted typed (id_name v) /\
  (typed <> EmptyString -> vscode = false -> ci_edit i = Some (CInsertReplace (id_name v) r r) /\ ci_additional i = None) /\
  (typed <> EmptyString -> vscode = true ->
     ci_edit i = Some (CEdit (mkte (mkrange (rstart r) (rstart r)) EmptyString)) /\ ci_additional i = Some [mkte r typed]) /\
  (typed = EmptyString -> ci_edit i = None /\ ci_additional i = None).
Proof.
  unfold local_item. destruct (String.eqb typed "") eqn:E.
  - apply String.eqb_eq in E. subst. intros H; inversion H; subst. split.
    + repeat split.
    + split; [apply wanted_nil|]. split; [congruence|split; [congruence|auto]].
  - destruct (starts_with (id_name v) typed) eqn:Es; [|discriminate]. intros H; inversion H; subst. split; [|split; [|split; [|split]]].
    + destruct vscode; repeat split.
    + apply prefix_iff. exact Es.
    + intros _ ->. auto.
    + intros _ ->. auto.
    + intros ->. discriminate.
Qed.
Lemma local_item_wanted vscode typed r v : wanted typed (id_name v) -> exists i, local_item vscode typed r v = Some i.
Proof.
  intros H. unfold local_item. destruct (String.eqb typed ""); [eauto|].
  unfold starts_with. rewrite (proj2 (prefix_iff typed (id_name v)) H). eauto.
Qed.
Lemma str_mem_In x l : str_mem x l = true <-> In x l.
Proof.
  unfold str_mem. rewrite existsb_exists. split.
  - intros (y & Hy & E). apply String.eqb_eq in E. now subst.
  - intros H. exists x. split; [exact H|apply String.eqb_refl].
Qed.
Lemma local_items_spec vscode typed r vs : forall names,
  let items := local_items vscode typed r names vs in
  NoDup (map ci_label items) /\
  (forall i, In i items -> exists v, In v vs /\ ~ In (id_name v) names /\ local_item vscode typed r v = Some i) /\
  (forall v, In v vs -> ~ In (id_name v) names -> wanted typed (id_name v) -> In (id_name v) (map ci_label items)).
Proof.
  induction vs as [|v vs IH]; intros names; cbn [local_items]; cbv zeta.
  - repeat split; [constructor|intros i []|intros v []].
  - destruct (str_mem (id_name v) names) eqn:Em.
    + destruct (IH names) as (A & B & C). split; [exact A|]. split.
      * intros i Hi. destruct (B i Hi) as (w & W). exists w. split; [now right|tauto].
      * intros w [<-|Hw] Hn; [apply str_mem_In in Em; contradiction|]. now apply C.
    + destruct (IH (id_name v :: names)) as (A & B & C).
      assert (Hv : ~ In (id_name v) names) by (intros H; apply str_mem_In in H; congruence).
      destruct (local_item vscode typed r v) as [i|] eqn:Ei.
      * destruct (local_item_some _ _ _ _ _ Ei) as ((L & _) & _). split; [|split].
        -- cbn [map]. constructor; [|exact A]. rewrite L. cbn. intros H. apply in_map_iff in H. destruct H as (j & Hj & Hin).
           destruct (B j Hin) as (w & _ & Hn & Ej). destruct (local_item_some _ _ _ _ _ Ej) as ((L' & _) & _).
           apply Hn. left. cbn in *. congruence.
        -- intros j [<-|Hj]; [exists v; split; [now left|split; [exact Hv|exact Ei]]|]. destruct (B j Hj) as (w & W1 & W2 & W3). exists w. split; [now right|].
           split; [intros H; apply W2; now right|exact W3].
        -- intros w [<-|Hw] Hn Hwd; cbn [map]; [left; rewrite L; reflexivity|].
           destruct (string_dec (id_name w) (id_name v)) as [->|Hne]; [left; rewrite L; reflexivity|].
           right. apply C; auto. intros [H|H]; [congruence|contradiction].
      * split; [exact A|]. split.
        -- intros j Hj. destruct (B j Hj) as (w & W1 & W2 & W3). exists w. split; [now right|].
           split; [intros H; apply W2; now right|exact W3].
        -- intros w [<-|Hw] Hn Hwd.
           ++ destruct (local_item_wanted vscode typed r v Hwd) as (j & Hj). congruence.
           ++ destruct (string_dec (id_name w) (id_name v)) as [Hne|Hne].
              ** rewrite Hne in Hwd. destruct (local_item_wanted vscode typed r v Hwd) as (j & Hj). congruence.
              ** apply C; auto. intros [H|H]; [congruence|contradiction].
Qed.

Lemma backend_items_spec vars : Forall2 plain_for (filter is_backend (all_vars vars)) (backend_items None vars).
Proof.
  induction vars as [|(f, vs) vars IH]; [constructor|]. unfold all_vars, backend_items in *. cbn [flat_map fst snd].
  rewrite filter_app. apply Forall2_app; [|exact IH]. clear. induction vs as [|v vs IH]; [constructor|].
  cbn [map filter]. unfold is_backend at 1. cbn [snd]. destruct (itype_eqb (id_type v) BackendVariable); [|exact IH].
  constructor; [|exact IH]. repeat split.
Qed.

Section Completion.
Context {T : ts}.
Implicit Types st : lsp_files T.


Lemma read_variables_spec st uri pos ds starting : knows st uri ds ->
  exists items, read_variables uri pos starting None st = Some items /\
    variables_offered st uri ds (point_of pos) (match starting with Some (p, _) => p | None => EmptyString end)
      (match starting with Some (_, r) => r | None => range0 end) items.
Proof.
  intros Hk. destruct (knows_vars _ _ _ Hk) as (vs & E & ->). unfold read_variables. rewrite E.
  assert (G : forall typed r, variables_offered st uri (map decl_of_id vs) (point_of pos) typed r
    (local_items (ls_vscode st) typed r [] (filter (completion_visible (point_of pos)) vs) ++ backend_items None (ls_vars st))).
  { intros typed r. destruct (local_items_spec (ls_vscode st) typed r (filter (completion_visible (point_of pos)) vs) []) as (A & B & C).
    cbv zeta in *. do 2 eexists. split; [reflexivity|]. split; [exact A|].
    assert (Hv : forall v, In v (filter (completion_visible (point_of pos)) vs) <-> In v vs /\ offered_at (point_of pos) (decl_of_id v)).
    { intros v. rewrite filter_In, completion_visible_sees. reflexivity. }
    split; [|split; [|split; [|split; [|split; [|apply backend_items_spec]]]]].
    - intros n. split.
      + intros H. apply in_map_iff in H. destruct H as (i & <- & Hi). destruct (B i Hi) as (v & Hin & _ & Ei).
        destruct (local_item_some _ _ _ _ _ Ei) as ((L & _) & W & _). apply Hv in Hin. destruct Hin as (Hin & Ho).
        exists (decl_of_id v). split; [now apply in_map|]. rewrite L. split; [reflexivity|]. split; [exact Ho|exact W].
      + intros (d & Hd & <- & Ho & W). apply in_map_iff in Hd. destruct Hd as (v & <- & Hin). apply C; auto. apply Hv. auto.
    - apply Forall_forall. intros i Hi. destruct (B i Hi) as (v & Hin & _ & Ei). apply Hv in Hin. destruct Hin as (Hin & Ho).
      exists (decl_of_id v). split; [now apply in_map|]. split; [exact Ho|]. apply (local_item_some _ _ _ _ _ Ei).
    - intros Ht Hvs. apply Forall_forall. intros i Hi. destruct (B i Hi) as (v & Hin & _ & Ei).
      destruct (local_item_some _ _ _ _ _ Ei) as ((L & _) & _ & He & _). rewrite L. exact (He Ht Hvs).
    - intros Ht Hvs. apply Forall_forall. intros i Hi. destruct (B i Hi) as (v & Hin & _ & Ei).
      destruct (local_item_some _ _ _ _ _ Ei) as (_ & _ & _ & He & _). exact (He Ht Hvs).
    - intros Ht. apply Forall_forall. intros i Hi. destruct (B i Hi) as (v & Hin & _ & Ei).
      destruct (local_item_some _ _ _ _ _ Ei) as (_ & _ & _ & _ & He). exact (He Ht). }
  destruct starting as [(p, r)|]; eexists; (split; [reflexivity|]); apply G.
Qed.

Lemma do_completion_variables b st uri pos ctx ds ct a : knows st uri ds ->
  completion b uri pos ctx st = Ok (Some (ct, a)) ->
  forall typed r, (ct = CtIdentifier /\ typed = EmptyString) \/ ct = CtIncompleteIdentifier typed r ->
  exists items, do_completion b uri pos ctx st = Ok (Some (map RItem items)) /\
    variables_offered st uri ds (point_of pos) typed r items.
Proof.
  intros Hk Ec typed r H. unfold do_completion. rewrite Ec. cbn [bind].
  destruct H as [(-> & ->)| ->].
  - destruct (read_variables_spec st uri pos ds None Hk) as (items & -> & V). exists items. split; [reflexivity|].
    destruct V as (l & bk & V1 & V2 & V3 & V4 & _ & _ & V6). exists l, bk. repeat (split; [assumption|]). split; [congruence|]. split; [congruence|exact V6].
  - destruct (read_variables_spec st uri pos ds (Some (typed, r)) Hk) as (items & -> & V). eauto.
Qed.

(** ** Completion of templates *)
Lemma contains_iff s p : contains s p = true <-> occurs p s.
Proof.
  split.
  - induction s as [|a s IH]; cbn [contains]; intros H; apply orb_true_iff in H; destruct H as [H|H].
    + apply prefix_iff in H. destruct H as (z & ->). now exists EmptyString, z.
    + discriminate.
    + apply prefix_iff in H. destruct H as (z & Hz). exists EmptyString, z. exact Hz.
    + destruct (IH H) as (x & z & ->). now exists (String a x), z.
  - intros (a & z & ->). induction a as [|c a IH].
    + cbn [append]. destruct (p ++ z)%string eqn:E; cbn [contains]; apply orb_true_iff; left; apply prefix_iff; exists z; congruence.
    + cbn [append contains]. rewrite IH. apply orb_true_r.
Qed.
Lemma split_str_skip pat : forall d rest, split_str_aux pat (d ++ rest) (String.length d) = split_str_aux pat rest 0.
Proof. induction d as [|a d IH]; intros rest; [destruct rest; reflexivity|]. cbn [append String.length split_str_aux]. apply IH. Qed.
Lemma split_str_none pat s : pat <> EmptyString -> (forall a z, s <> (a ++ pat ++ z)%string) -> split_str_aux pat s 0 = [s].
Proof.
  intros Hp. induction s as [|c s IH]; intros H; [reflexivity|]. cbn [split_str_aux].
  destruct (String.prefix pat (String c s)) eqn:E.
  - apply prefix_iff in E. destruct E as (z & Hz). exfalso. exact (H EmptyString z Hz).
  - rewrite IH; [reflexivity|]. intros a z Hs. apply (H (String c a) z). cbn. now rewrite Hs.
Qed.
Lemma split_str_once pat rest : pat <> EmptyString -> forall pre,
  (forall a z, (pre ++ pat ++ rest)%string = (a ++ pat ++ z)%string -> a = pre) ->
  split_str_aux pat (pre ++ pat ++ rest) 0 = [pre; rest].
Proof.
  intros Hp. induction pre as [|c pre IH]; intros H.
  - cbn [append]. destruct pat as [|c pat]; [congruence|]. cbn [append]. cbn [split_str_aux].
    change (String c (pat ++ rest)) with (String c pat ++ rest)%string.
    rewrite prefix_app. replace (String.length (String c pat) - 1)%nat with (String.length pat) by (cbn; lia).
    rewrite split_str_skip, split_str_none; auto. intros a z E. cbn [append] in H.
    specialize (H ((String c pat) ++ a)%string z). rewrite append_assoc in H. cbn [append] in H. rewrite E in H. specialize (H eq_refl).
    discriminate.
  - cbn [append]. cbn [split_str_aux].
    destruct (String.prefix pat (String c (pre ++ pat ++ rest))) eqn:E.
    + apply prefix_iff in E. destruct E as (z & Hz). specialize (H EmptyString z Hz). discriminate.
    + rewrite IH; [reflexivity|]. intros a z Ha. specialize (H (String c a) z). cbn in H. rewrite Ha in H. specialize (H eq_refl). congruence.
Qed.
Lemma label_below dir uri label : lies_below (strip_dots dir) uri label -> template_label dir uri = Some label.
Proof.
  intros (Hd & pre & E & H). unfold template_label, split_str. destruct (strip_dots dir) as [|c d] eqn:Es; [congruence|]. rewrite <- Es in *.
  subst uri. rewrite split_str_once; auto.
Qed.
Lemma label_missing dir uri : strip_dots dir <> EmptyString -> ~ occurs (strip_dots dir) uri -> template_label dir uri = None.
Proof.
  intros Hd H. unfold template_label, split_str. destruct (strip_dots dir) as [|c d] eqn:Es; [congruence|]. rewrite <- Es in *.
  rewrite split_str_none; auto. intros a z ->. apply H. now exists a, z.
Qed.

Lemma read_templates_exact st p r sp :
  let d := strip_dots (cf_templates (ls_config st)) in
  let prefix := if String.eqb p "" then "file:///"%string else p in
  (forall uri, In uri (map fst (ls_tt st)) -> occurs prefix uri -> exists label, lies_below d uri label) ->
  exists us items, read_templates p r sp st = Some items /\
    (forall u, In u us <-> In u (map fst (ls_tt st)) /\ occurs prefix u) /\
    (NoDup (map fst (ls_tt st)) -> NoDup us) /\ Forall2 (template_for d (ls_vscode st) r) us items.
Proof.
  intros d prefix H. unfold read_templates. fold prefix.
  set (us := filter (fun u => contains u prefix) (map fst (ls_tt st))). exists us.
  assert (Hus : forall u, In u us <-> In u (map fst (ls_tt st)) /\ occurs prefix u).
  { intros u. unfold us. rewrite filter_In, contains_iff. reflexivity. }
  assert (G : forall l, (forall u, In u l -> exists label, lies_below d u label) ->
    exists items, template_items (ls_vscode st) (cf_templates (ls_config st)) r sp l = Some items /\ Forall2 (template_for d (ls_vscode st) r) l items).
  { induction l as [|u l IH]; intros Hl; [exists []; split; [reflexivity|constructor]|].
    destruct IH as (items & E & F2); [intros; apply Hl; now right|]. destruct (Hl u (or_introl eq_refl)) as (label & Hb).
    cbn [template_items]. rewrite (label_below _ _ _ Hb), E. eexists. split; [reflexivity|]. constructor; [|exact F2].
    unfold template_item. destruct (ls_vscode st); repeat split; cbn; auto; try congruence; apply Hb. }
  destruct (G us) as (items & E & F2). { intros u Hu. apply Hus in Hu. destruct Hu. now apply H. }
  exists items. split; [exact E|]. split; [exact Hus|]. split; [|exact F2]. intros Hn. unfold us. now apply NoDup_filter.
Qed.
Lemma read_templates_nothing st p r sp u :
  let d := strip_dots (cf_templates (ls_config st)) in
  let prefix := if String.eqb p "" then "file:///"%string else p in
  d <> EmptyString -> In u (map fst (ls_tt st)) -> occurs prefix u -> ~ occurs d u ->
  read_templates p r sp st = None.
Proof.
  intros d prefix Hd Hu Ho Hn. unfold read_templates. fold prefix. rewrite template_items_spec.
  destruct (forallb _ _) eqn:E; [|reflexivity]. rewrite forallb_forall in E.
  specialize (E u). rewrite (label_missing _ _ Hd Hn) in E. cbn in E. discriminate E.
  apply filter_In. split; [exact Hu|]. now apply contains_iff.
Qed.

(** ** Symbols *)
Lemma symbols_exact F url b (s : task_state T) rid uri ds : knows (tk_data s) uri ds -> Forall small_decl ds ->
  step F url b s (MDocumentSymbol rid uri) =
  Ok (s, [EReply rid (RSymbols (map (fun d => mksym (dc_name d) (lsp_kind (dc_kind d))
                                              (lsp_range (dc_start d) (dc_end d)) (lsp_range (dc_start d) (dc_end d))) ds))]).
Proof.
  intros Hk Hs. destruct (knows_vars _ _ _ Hk) as (vs & E & ->). cbn [step]. unfold document_symbols. rewrite E. do 5 f_equal.
  rewrite map_map. clear E Hk. induction vs as [|v vs IH]; [reflexivity|]. cbn [map] in *. inversion Hs as [|? ? (S1 & S2) H2]; subst.
  cbn [map]. f_equal; [|auto]. cbn in *. now rewrite symbol_kind_lsp, !to_range_lsp.
Qed.

(** ** Code actions *)
Lemma in_id_on tp i : in_id tp i = true <-> on_id tp i.
Proof.
  unfold in_id, on_id. rewrite andb_true_iff. split; intros (A & B); split; auto using pt_leb_le, pt_le_leb.
Qed.
Lemma find_on tp acts :
  (find (in_id tp) acts = None /\ forall i, In i acts -> ~ on_id tp i) \/
  (exists i, find (in_id tp) acts = Some i /\ In i acts /\ on_id tp i).
Proof.
  destruct (find (in_id tp) acts) as [i|] eqn:E.
  - right. apply find_some in E. destruct E as (A & B). apply in_id_on in B. eauto.
  - left. split; [reflexivity|]. intros i Hi Ho. apply in_id_on in Ho. rewrite (find_none _ _ E i Hi) in Ho. discriminate.
Qed.
Lemma create_action b st uri pos l tr acts t :
  file_ext uri = Some l -> sget uri (trees_of l st) = Some tr -> sget uri (ls_docs st) = Some t ->
  sget uri (ls_actions st) = Some acts ->
  (exists i, In i acts /\ on_id (point_of pos) i) ->
  exists i, In i acts /\ on_id (point_of pos) i /\ code_action b uri pos st = Ok (Some (CaCreate (id_name i))).
Proof.
  intros H1 H2 H3 H4 (j & Hj & Oj). destruct (find_on (point_of pos) acts) as [(_ & H)|(i & E & Hi & Oi)]; [exfalso; eapply H; eauto|].
  exists i. split; [exact Hi|]. split; [exact Oi|]. unfold code_action. rewrite H1, H2, H4. destruct l; [rewrite H3|]; now rewrite E.
Qed.
Lemma no_create_action b st uri pos acts : sget uri (ls_actions st) = Some acts ->
  (forall i, In i acts -> ~ on_id (point_of pos) i) -> forall n, code_action b uri pos st <> Ok (Some (CaCreate n)).
Proof.
  intros H4 Hn n E. unfold code_action in E. destruct (file_ext uri) as [l|]; [|discriminate].
  destruct (sget uri (trees_of l st)); [|discriminate]. rewrite H4 in E.
  destruct (find_on (point_of pos) acts) as [(Ef & _)|(i & _ & Hi & Oi)]; [|exact (Hn i Hi Oi)]. rewrite Ef in E. destruct l.
  - destruct (sget uri (ls_docs st)); [|discriminate].
    destruct (objects_query _ _ _ _ _) as [o|]; [|discriminate]. cbn [bind] in E. destruct (in_expr o _); discriminate.
  - discriminate.
Qed.
(** In the white space after complete pieces. *)
Lemma reset_in_gap b st uri pos tr t acts ps cs2 p :
  let src := rope_content t in
  let tp := point_of pos in
  holds st uri tr t -> sget uri (ls_actions st) = Some acts -> (forall i, In i acts -> ~ on_id tp i) ->
  ends_before src ps p -> pt_lt p tp -> concat (t_captures T QObjects tr src) = cap_pieces ps ++ cs2 -> before_all tp cs2 ->
  (inside ps tp -> code_action b uri pos st = Ok (Some CaReset)) /\
  (outside ps tp -> code_action b uri pos st = Ok None).
Proof.
  intros src tp (H1 & H2 & H3) H4 Hn He Hp E Hc.
  destruct (ends_before_run src ps p He) as (s & R & Eo & S1 & S2 & S3 & X & F1 & F2 & P0).
  destruct (query_gap b _ tp src _ _ s p E R) as (Q & Hi); auto.
  { eapply Forall_impl; [|exact F1]. intros c H. pts. }
  unfold code_action. rewrite H1. cbn [trees_of]. rewrite H2, H4, H3. fold src. fold tp.
  destruct (find_on tp acts) as [(Ef & _)|(i & _ & Hi' & Oi)]; [|exfalso; exact (Hn i Hi' Oi)]. rewrite Ef, Q. cbn [bind]. split.
  - intros Hin.
    assert (Hst : pt_lt (fst (os_ident s)) tp).
    { assert (G : forall cs s0 s', Forall (fun c => pt_le (n_start (c_node c)) p) cs -> pt_le (fst (os_ident s0)) p ->
                 runc src s0 cs = Some s' -> pt_le (fst (os_ident s')) p).
      { clear. induction cs as [|c cs IH]; intros s0 s' HF H0 HR; cbn [runc] in HR.
        - now inversion HR; subst.
        - inversion HF as [|? ? Hc1 HF1]; subst. destruct (obj_check src s0 c) as [[s1 [a|]]|] eqn:Ec; try discriminate.
          apply (IH s1); auto. clear - Hc1 H0 Ec. unfold obj_check in Ec. destruct (c_name c) eqn:Ek; try (inversion Ec; subst; auto; fail).
          + unfold build_object, new_object in Ec.
            destruct (utf8_text (c_node c) src) as [[v|]|]; [| |discriminate]; cbn [bind] in Ec; [|inversion Ec; subst; auto].
            destruct (_ && _); [destruct (os_objects s0)|]; try destruct (str_mem v valid_identifiers);
              cbn in Ec; inversion Ec; subst; auto.
          + destruct (utf8_text (c_node c) src) as [[v|]|]; [| |discriminate]; cbn [bind] in Ec; inversion Ec; subst.
            destruct (starts_with v "|"); auto. }
      specialize (G _ jobjects0 s F1 ltac:(cbn; pts) R). pts. }
    now rewrite (inside_expr src ps p tp s He (pt_lt_le _ _ Hp) Hin X Hst).
  - intros Hout. now rewrite (outside_expr ps tp s Hout X).
Qed.
(** Behind the first character of a name. *)
Lemma reset_on_name b st uri pos tr t acts pre n p2 h fs post :
  let src := rope_content t in
  let tp := point_of pos in
  let ps := (pre ++ PExpr n :: p2) ++ PChain h fs :: post in
  holds st uri tr t -> sget uri (ls_actions st) = Some acts -> (forall i, In i acts -> ~ on_id tp i) ->
  pieces_ok src ps -> concat (t_captures T QObjects tr src) = cap_pieces ps ->
  Forall (fun p => match p with PExpr _ => False | _ => True end) p2 ->
  pt_lt (n_start (fst h)) tp -> pt_le tp (n_end (fst h)) -> Forall (behind tp) (cap_pieces post) ->
  pt_lt tp (n_end n) ->
  code_action b uri pos st = Ok (Some CaReset).
Proof.
  intros src tp ps (H1 & H2 & H3) H4 Hn Hps E Hp2 Hlt Hle Hb Hin.
  destruct (select_chain b _ tp src (pre ++ PExpr n :: p2) h [] fs post Hps E (conj (pt_lt_le _ _ Hlt) Hle) Hb)
    as (s & o & ex & Q & Eo & N1 & N2 & N3 & N4 & N5 & N6 & N7 & N8 & N9).
  assert (Ei : os_ident s = loc h) by (destruct N9 as [N9|N9]; exact N9).
  unfold code_action. rewrite H1. cbn [trees_of]. rewrite H2, H4, H3. fold src. fold tp.
  destruct (find_on tp acts) as [(Ef & _)|(i & _ & Hi' & Oi)]; [|exfalso; exact (Hn i Hi' Oi)]. rewrite Ef, Q. cbn [bind].
  assert (in_expr s tp = true) as ->; [|reflexivity].
  rewrite (expr_after_in pre n p2 Hp2) in N8. unfold in_expr. rewrite N8, Ei. unfold expr_info, loc. cbn [fst snd].
  destruct Hps as (_ & p0 & Hp0 & Ho). unfold ps in Ho. rewrite flat_map_app in Ho. apply ordered_app in Ho. destruct Ho as (O1 & O2).
  assert (Hm : In (MExpr n) (flat_map marks (pre ++ PExpr n :: p2))) by (rewrite flat_map_app; apply in_or_app; right; cbn; auto).
  pose proof (ordered_expr _ _ _ O1 Hm) as X2. cbn [flat_map marks app ordered] in O2. destruct O2 as (O2 & _).
  rewrite (pt_le_leb (n_start n) tp) by pts.
  replace (pt_ltb tp (n_end n)) with true by pts.
  now replace (pt_ltb (n_start (fst h)) tp) with true by pts.
Qed.
(** The file to create. *)
Lemma create_file F (url : url_parser) st name p u :
  f_canon F (cf_templates (ls_config st)) = CanonOk p -> url ("file:///" ++ lookup_path p name)%string = Some u ->
  process_code_actions F url (CaCreate name) st = Ok ([CaCreateFile u], true).
Proof. intros H1 H2. cbn [process_code_actions]. rewrite H1, lookup_path_push, H2. reflexivity. Qed.
(** What is remembered. *)
Lemma add_actions_get m st uri : NoDup (map fst m) ->
  sget uri (ls_actions (add_code_actions m st)) =
    match sget uri m with Some l => Some l | None => sget uri (ls_actions st) end.
Proof. intros Hn. unfold add_code_actions. cbn. now apply fold_insert_get. Qed.
End Completion.

(** ** One notion of visibility *)
Lemma hover_then_fine ds any name s e d : In d ds -> wf_decl d -> hover_sees s name d ->
  pt_lt s (dc_until d) -> pt_le s e -> verdict ds any name s e None.
Proof.
  intros Hd Hw (A & B & C & D) Hlt Hse. apply (VFine _ _ _ _ _ d); [exact Hd|split; auto|]. unfold wf_decl in Hw. split; [pts|now right].
Qed.
Lemma completion_then_fine ds any name s e tp d : In d ds -> wf_decl d -> offered_at tp d -> dc_name d = name ->
  pt_le s tp -> pt_le tp e -> pt_lt s (dc_until d) -> verdict ds any name s e None.
Proof.
  intros Hd Hw (A & B & C & D) Hn H1 H2 H3. apply (VFine _ _ _ _ _ d); [exact Hd|split; auto|]. unfold wf_decl in Hw. split; [pts|now right].
Qed.

Lemma elsewhere_is_elsewhere this vars name s e file ids :
  sget file vars = Some ids -> NoDup (map fst vars) -> this = map decl_of_id ids ->
  (forall d, In d this -> dc_name d <> name) ->
  verdict this (indexed vars) name s e (Some DefinedSomewhere) ->
  exists fv, In fv (other_vars file vars) /\ id_name (snd fv) = name.
Proof.
  intros Hg Hn -> Hd V. inversion V as [| | |? (f & vs & v & Hin & Hv & Ev)]; subst.
  exists (f, v). split; [|reflexivity]. unfold other_vars. apply in_flat_map. exists (f, vs).
  split; [apply filter_In; split; [exact Hin|]|cbn; now apply in_map].
  cbn [fst]. apply negb_true_iff, String.eqb_neq. intros ->.
  rewrite (In_sget _ _ _ Hn Hin) in Hg. inversion Hg; subst.
  apply (Hd (decl_of_id v)); [now apply in_map|reflexivity].
Qed.
