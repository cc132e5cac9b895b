(** * PNav5: goto on an attribute (C68), names of other files (C73). *)
From Verif Require Import Base RString Utf8 Rope Types Captures MDefinition MObjects MTemplates MSearchErrors MLspFiles.
From Verif Require Import SpecScope SpecObjects SpecObjects2 SpecLint SpecNav PText PFiles PScope PObjects PObjects3 PLint PLint2 PLint3 PNav PNav2 PNav3 PNav4.

Section Goto.
Context {T : ts}.

Lemma ident_on_segment b ms tp src pre h fs1 fs2 post :
  let ps := pre ++ PChain h (fs1 ++ fs2) :: post in
  pieces_ok src ps -> concat ms = cap_pieces ps ->
  fs1 <> [] -> on_tok tp (segment h fs1) -> Forall (behind tp) (cap_pieces post) ->
  pt_lt pt0 tp /\
  exists s, objects_query b ms tp src false = Ok s /\
    is_ident s tp = if name_ahead tp false (flat_map cap_access fs2 ++ cap_pieces post) then None else Some (snd h).
Proof.
  intros ps Hps E Hne Hon Hb.
  destruct (select_segment b ms tp src pre h fs1 fs2 post Hps E Hon Hb) as (s & o & Q & Eo & N1 & N2 & _ & N9).
  destruct Hps as (HF & p0 & Hp0 & Ho).
  unfold ps in Ho. rewrite flat_map_app in Ho. apply ordered_app in Ho. destruct Ho as (O1 & O2).
  pose proof (ordered_end_le _ _ O1) as L1.
  cbn [flat_map marks app ordered] in O2. destruct O2 as (O2 & O3 & O4). destruct Hon as (On1 & On2).
  assert (Hseg : pt_lt (n_end (fst h)) (n_start (fst (segment h fs1)))).
  { unfold segment. destruct (last_opt fs1) as [a|] eqn:El; [|exfalso; now apply (last_opt_some fs1)]. apply last_opt_In in El.
    rewrite flat_map_app, <- app_assoc in O4. apply ordered_app in O4. destruct O4 as (O4 & _).
    assert (Hm : In (MTok (a_dot a)) (flat_map marks_access fs1)) by (apply in_flat_map; exists a; cbn; auto).
    destruct (ordered_tok _ _ _ O4 Hm) as (Y1 & Y2 & _).
    unfold ps in HF. apply Forall_app in HF. destruct HF as (_ & HF). inversion HF as [|? ? Hch _]; subst. destruct Hch as (_ & _ & Hf).
    apply Forall_app in Hf. destruct Hf as (Hf & _). rewrite Forall_forall in Hf. destruct (Hf a El) as (_ & _ & Hadj).
    rewrite <- Hadj. pts. }
  split; [pts|]. exists s. split; [exact Q|]. unfold is_ident.
  destruct (name_ahead _ _ _).
  - rewrite N9. unfold loc; cbn [fst snd]. assert (F : pt_leb tp (n_end (fst h)) = false) by (apply pt_lt_leb; pts).
    now rewrite F, andb_false_r.
  - destruct N9 as (-> & _). unfold loc; cbn [fst snd]. rewrite (pt_le_leb _ _ On1), (pt_le_leb _ _ On2). cbn [andb].
    now rewrite Eo, last_opt_snoc, N1.
Qed.

(** What goto answers, given the identifier under the cursor. *)
Lemma goto_by_ident F url b (st : lsp_files T) uri pos tr t ds s x :
  let src := rope_content t in
  let tp := point_of pos in
  holds st uri tr t -> knows st uri ds -> Forall small_decl ds ->
  objects_query b (t_captures T QObjects tr src) tp src false = Ok s -> is_ident s tp = x ->
  (forall name, x = Some name -> (exists d, In d ds /\ goto_sees tp name d) ->
     exists d, latest (goto_sees tp name) ds d /\
       goto_definition F url b uri pos st = Ok (Some (GScalar (mkloc uri (lsp_range (dc_start d) (dc_end d)))))) /\
  (forall name, x = Some name \/ (x = None /\ name = EmptyString) ->
     (x = Some name -> forall d, In d ds -> ~ goto_sees tp name d) ->
     let here := filter (fun fv => heads name (id_name (snd fv))) (other_vars uri (ls_vars st)) in
     pt_lt pt0 tp -> no_ref_at tp (t_captures T QImports tr src) ->
     Forall (fun c => utf8_text (c_node c) src <> Panic) (concat (t_captures T QImports tr src)) ->
     Forall (fun fv => small_id (snd fv)) (other_vars uri (ls_vars st)) ->
     Forall (fun fv => url (target_name fv) <> None) here ->
     exists locs, goto_definition F url b uri pos st = Ok (Some (GArray locs)) /\ Forall2 (found url) here locs).
Proof.
  intros src tp Hh Hk Hs Q Ei. destruct Hh as (H1 & H2 & H3).
  assert (Eg : goto_definition F url b uri pos st =
    match goto_local uri tp x st with
    | Some r => Ok (Some r)
    | None =>
        imps <- templates_query (t_captures T QImports tr src) tp src false;;
        match match in_template imps with
              | None => None
              | Some im => match import_get im tp with None => None | Some i => goto_template F url (id_name i) st end
              end with
        | Some r => Ok (Some r)
        | None => locs <- goto_others url (match x with Some n => n | None => EmptyString end) uri (ls_vars st);; Ok (Some (GArray locs))
        end
    end).
  { unfold goto_definition. rewrite H1. cbn [trees_of]. rewrite H2, H3. fold src. fold tp. rewrite Q. cbn [bind]. now rewrite Ei. }
  split.
  - intros name -> (d0 & Hd0 & Sd0).
    destruct (goto_local_latest st uri tp name ds Hk Hs) as [(_ & Hno)|(d & Hd & El)]; [exfalso; eapply Hno; eauto|].
    exists d. split; [exact Hd|]. now rewrite Eg, El.
  - intros name Hx Hno here Ht Hnr Htx Hsm Hurl.
    destruct (goto_others_exact url name uri (ls_vars st) Hsm) as (locs & El & F2).
    { apply Forall_forall. intros fv Hfv Hhd. rewrite Forall_forall in Hurl. apply Hurl. unfold here. apply filter_In. auto. }
    exists locs. split; [|exact F2].
    destruct (no_template_at src _ tp Ht Hnr Htx) as (imps & Eq & Hi).
    assert (goto_local uri tp x st = None) as Hl.
    { destruct Hx as [->|(-> & _)]; [|reflexivity].
      destruct (knows_vars _ _ _ Hk) as (vs & Ev & ->). unfold goto_local. rewrite Ev.
      destruct (filter_latest (goto_visible tp name) (goto_sees tp name) vs (goto_visible_sees tp name))
        as [(-> & _)|(m & _ & (Hin & Hp & _))]; [reflexivity|]. exfalso. exact (Hno eq_refl _ Hin Hp). }
    rewrite Eg, Hl, Eq. cbn [bind].
    assert (Hcur : match x with Some n => n | None => EmptyString end = name) by (destruct Hx as [->|(-> & ->)]; reflexivity).
    rewrite Hcur. destruct (in_template imps) as [im|]; [rewrite Hi|]; cbn [bind]; now rewrite El.
Qed.
(** In front of a name, in an expression with names, nothing is offered. *)
Lemma no_reset_at_start b st uri pos tr t acts pre n p2 h fs post :
  let src := rope_content t in
  let tp := point_of pos in
  let ps := (pre ++ PExpr n :: p2) ++ PChain h fs :: post in
  holds st uri tr t -> sget uri (ls_actions st) = Some acts -> (forall i, In i acts -> ~ on_id tp i) ->
  pieces_ok src ps -> concat (t_captures T QObjects tr src) = cap_pieces ps ->
  Forall (fun p => match p with PExpr _ => False | _ => True end) p2 ->
  tp = n_start (fst h) -> Forall (behind tp) (cap_pieces post) -> snd (n_first n) <> fst (n_last n) ->
  code_action b uri pos st = Ok None.
Proof.
  intros src tp ps (H1 & H2 & H3) H4 Hn Hps E Hp2 Hlt Hb Hne.
  assert (Hw : pt_le (n_start (fst h)) (n_end (fst h))).
  { destruct Hps as (_ & p0 & _ & Ho). unfold ps in Ho. rewrite flat_map_app in Ho. apply ordered_app in Ho. destruct Ho as (_ & O2). cbn [flat_map marks app ordered] in O2. destruct O2 as (_ & O2 & _). pts. }
  destruct (select_chain b _ tp src (pre ++ PExpr n :: p2) h [] fs post Hps E) as (s & o & ex & Q & Eo & N1 & N2 & N3 & N4 & N5 & N6 & N7 & N8 & N9);
    [rewrite Hlt; split; [apply pt_le_refl|exact Hw]|exact Hb|].
  assert (Ei : os_ident s = loc h) by (destruct N9 as [N9|N9]; exact N9).
  unfold code_action. rewrite H1. cbn [trees_of]. rewrite H2, H4, H3. fold src. fold tp.
  destruct (find_on tp acts) as [(Ef & _)|(i & _ & Hi' & Oi)]; [|exfalso; exact (Hn i Hi' Oi)]. rewrite Ef, Q. cbn [bind].
  assert (in_expr s tp = false) as ->; [|reflexivity].
  rewrite (expr_after_in pre n p2 Hp2) in N8. unfold in_expr. rewrite N8, Ei. unfold expr_info, loc. cbn [fst snd e_begin e_end].
  replace (pt_ltb (n_start (fst h)) tp) with false by (rewrite Hlt; pts). replace (pt_eqb (snd (n_first n)) (fst (n_last n))) with false.
  - rewrite andb_false_r. destruct (negb _); reflexivity.
  - symmetry. destruct (pt_eqb (snd (n_first n)) (fst (n_last n))) eqn:X; [|reflexivity]. elim Hne. revert X. unfold pt_eqb. destruct (snd (n_first n)), (fst (n_last n)). cbn. intros X. f_equal; lia.
Qed.
End Goto.

(** ** Names of other files (C73) *)
Lemma other_vars_indexed uri vars fv : In fv (other_vars uri vars) -> indexed vars (id_name (snd fv)).
Proof.
  unfold other_vars. intros H. apply in_flat_map in H. destruct H as ((f & vs) & H1 & H2).
  apply filter_In in H1. destruct H1 as (H1 & _). cbn [fst snd] in H2. apply in_map_iff in H2. destruct H2 as (v & <- & Hv).
  exists f, vs, v. auto.
Qed.
Lemma indexed_iff vars n : indexed vars n <-> exists fv, In fv (all_vars vars) /\ id_name (snd fv) = n.
Proof.
  unfold all_vars. split.
  - intros (f & vs & v & H1 & H2 & H3). exists (f, v). split; [|exact H3]. apply in_flat_map. exists (f, vs).
    split; [exact H1|]. now apply in_map.
  - intros ((f & v) & H1 & H2). apply in_flat_map in H1. destruct H1 as ((f' & vs) & H1 & H3). cbn [fst snd] in *.
    apply in_map_iff in H3. destruct H3 as (w & E & Hw). inversion E; subst. exists f, vs, v. auto.
Qed.
Lemma heads_no_dot x n : heads x n = true -> has_dot n = false -> n = x.
Proof.
  unfold heads. intros H Hd. apply andb_true_iff in H. destruct H as (_ & H). apply orb_true_iff in H. destruct H as [H|H].
  - now apply String.eqb_eq.
  - exfalso. assert (has_dot n = true); [|congruence]. clear Hd. revert n H. induction x as [|c x IH]; intros [|d n] H; cbn [append String.prefix] in H; try discriminate.
    + destruct (ascii_dec "."%char d) as [E|]; [subst d; reflexivity|discriminate H].
    + destruct (ascii_dec c d); [|discriminate H]. change (Ascii.eqb "."%char d || has_dot n = true).
      apply orb_true_iff. right. now apply IH.
Qed.
Lemma verdict_reported this any us es u d : reported this any us es -> In u us ->
  verdict this any (snd (fst u)) (n_start (fst (fst u))) (n_end (fst (fst u))) (Some d) ->
  forall k, In (k, use_id u) es <-> k = d.
Proof.
  intros R Hu V.
  assert (Hsame : forall w k, use_id w = use_id u ->
    verdict this any (snd (fst w)) (n_start (fst (fst w))) (n_end (fst (fst w))) k -> k = Some d).
  { intros w k E Hw. inversion E as [[E1 E2 E3 E4]]. unfold tok in *. rewrite E1, E2, E3 in Hw.
    exact (verdict_unique _ _ _ _ _ _ _ Hw V). }
  intros k. split.
  - clear Hu. induction R as [|w us es Hw _ IH|w us es k' Hw _ IH]; [intros []|exact IH|].
    intros [E|E]; [|exact (IH E)]. inversion E as [[Ek E1 E2 E3 E4]]. subst k'.
    assert (Ew : use_id w = use_id u) by (unfold use_id; unfold tok in *; now rewrite E1, E2, E3, E4).
    specialize (Hsame w _ Ew Hw). congruence.
  - intros ->. revert Hu. induction R as [|w us es Hw _ IH|w us es k' Hw _ IH]; [intros []| |].
    + intros [->|Hu]; [|exact (IH Hu)]. pose proof (verdict_unique _ _ _ _ _ _ _ Hw V). discriminate.
    + intros [->|Hu]; [|right; exact (IH Hu)]. left. specialize (Hsame u _ eq_refl Hw). congruence.
Qed.

Lemma elsewhere_verdict {T : ts} F b (st : lsp_files T) uri tr src dir ps tail ds u :
  pieces_ok src ps -> concat (t_captures T QObjects tr src) = cap_pieces ps ++ tail -> stops tail ->
  Forall (fun c => utf8_text (c_node c) src <> Panic) (concat (t_captures T QImports tr src)) ->
  knows st uri ds -> In u (chains ps) -> (forall d, In d ds -> ~ means (snd (fst u)) d) ->
  exists es, search_errors T F b tr src (ls_vars st) uri dir Template false = Ok (Some es) /\
    ((exists fv, In fv (all_vars (ls_vars st)) /\ id_name (snd fv) = snd (fst u)) ->
       forall k, In (k, use_id u) es <-> k = DefinedSomewhere) /\
    (~ (exists fv, In fv (all_vars (ls_vars st)) /\ id_name (snd fv) = snd (fst u)) ->
       forall k, In (k, use_id u) es <-> k = Undefined).
Proof.
  intros Hps Ho Hs Hi Hk Hu Hno. unfold knows in Hk. destruct (sget uri (ls_vars st)) as [this|] eqn:Ev; [|discriminate].
  cbn in Hk. inversion Hk; subst ds.
  destruct (templates_query_ok _ pt0 _ Hi) as (imps & Ei). eexists.
  split; [exact (search_errors_until T F b tr src (ls_vars st) uri dir false this ps tail imps Hps Ho Hs Ei Ev)|].
  assert (G : forall d, verdict (map decl_of_id this) (indexed (ls_vars st)) (snd (fst u)) (n_start (fst (fst u))) (n_end (fst (fst u))) (Some d) ->
    forall k, In (k, use_id u) (flat_map (lint_object (ls_vars st) this false) (flat_map uses ps) ++
       lint_templates F dir (imports_collect imps)) <-> k = d).
  { intros d V k. rewrite <- (verdict_reported _ _ _ _ _ _ (lint_uses (ls_vars st) this ps) Hu V k). rewrite in_app_iff.
    split; [|now left]. intros [H|H]; [exact H|]. apply lint_templates_type in H. discriminate. }
  rewrite <- indexed_iff. split; intros H; apply G; [now apply VElsewhere|now apply VNowhere].
Qed.
