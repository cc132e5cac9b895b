(** * PNav2: template references under the cursor, hover, completion items,
    symbols and code actions. *)
From Verif Require Import Base RString Utf8 Rope Types Captures MDefinition MObjects MTemplates MSearchErrors MLspFiles MLspTask.
From Verif Require Import SpecText SpecFiles SpecScope SpecObjects SpecLint SpecNav PText PUtf8 PFiles PScope PScope2 PObjects PLint PLint2 PLint3 POrder PNav.

(** ** The statement under the cursor *)
Definition keep (tp : point) (c : capture) : bool := pt_leb (n_start (c_node c)) tp.
Lemma filter_concat {A} (f : A -> bool) ms : flat_map (filter f) ms = filter f (concat ms).
Proof. induction ms as [|m ms IH]; [reflexivity|]. cbn. now rewrite filter_app, IH. Qed.
Lemma flat_captures_keep tp ms : flat_captures false tp ms = filter (keep tp) (concat ms).
Proof. unfold flat_captures, keep. cbn [orb]. apply filter_concat. Qed.
Lemma keep_all tp cs : Forall (fun c => pt_le (n_start (c_node c)) tp) cs -> filter (keep tp) cs = cs.
Proof. intros H. apply filter_all. eapply Forall_impl; [|exact H]. intros c Hc. now apply pt_le_leb. Qed.
Lemma keep_none tp cs : Forall (fun c => pt_lt tp (n_start (c_node c))) cs -> filter (keep tp) cs = [].
Proof. intros H. apply filter_none. eapply Forall_impl; [|exact H]. intros c Hc. now apply pt_lt_leb. Qed.
Lemma keep_upto tp k n : upto tp n -> keep tp (cap k n) = true.
Proof. intros H. now apply pt_le_leb. Qed.
Lemma keep_after tp k n : after tp n -> keep tp (cap k n) = false.
Proof. intros H. now apply pt_lt_leb. Qed.

(** A statement whose string has been seen so often. *)
Definition openable (k : cname) (im : import) (r : sref) : Prop :=
  match k, im with
  | CFrom, IFrom t [] => t = ref_id r
  | CImport, IImport t i => t = ref_id r /\ i = id_default
  | _, _ => False
  end.
Definition first_import (k : cname) : import :=
  match k with CFrom => IFrom id_default [] | _ => IImport id_default id_default end.
Lemma run_repeat src k n kw r m im : openable k im r -> sref_ok src r -> fresh (n_id n) m -> forall j l,
  exists l', runi src (mkimps (m ++ [(n_id n, im)]) (Some (n_id n)) l)
    (concat (repeat [cap k n; cap COther kw; cap CTemplateName (fst r)] j)) =
  Some (mkimps (m ++ [(n_id n, im)]) (Some (n_id n)) l').
Proof.
  intros Ho Hr Hf. induction j as [|j IH]; intros l; [cbn; eauto|]. cbn [repeat concat app runi].
  assert (E1 : imp_check src (mkimps (m ++ [(n_id n, im)]) (Some (n_id n)) l) (cap k n) =
    Ok (mkimps (m ++ [(n_id n, im)]) (Some (n_id n)) l, true)).
  { destruct k; try (destruct Ho; fail); unfold imp_check; cbn [cap c_name c_node]; unfold open_import; cbn [im_imports im_last];
      now rewrite (nget_last _ _ _ Hf). }
  rewrite E1. unfold imp_check at 1. cbn [cap c_name]. rewrite (check_name src m _ _ _ r Hf Hr).
  assert (E2 : add_template_name im (snd r) (n_start (fst r)) (n_end (fst r)) = im).
  { destruct k; try (destruct Ho; fail); destruct im as [| |t ids|t i]; try (destruct Ho; fail); cbn in Ho.
    - destruct Ho as (-> & ->). cbn [add_template_name]. now rewrite fill_new by now right.
    - destruct ids; [|destruct Ho]. subst t. cbn [add_template_name]. now rewrite fill_new by now right. }
  rewrite E2. apply IH.
Qed.
Lemma run_first src k n kw r s0 j : k = CFrom \/ k = CImport -> sref_ok src r -> fresh (n_id n) (im_imports s0) ->
  exists im l, runi src s0 (concat (repeat [cap k n; cap COther kw; cap CTemplateName (fst r)] (S j))) =
    Some (mkimps (im_imports s0 ++ [(n_id n, im)]) (Some (n_id n)) l) /\ openable k im r.
Proof.
  intros Hk Hr Hf. set (m := im_imports s0) in *. cbn [repeat concat app runi].
  assert (E1 : imp_check src s0 (cap k n) = Ok (mkimps (m ++ [(n_id n, first_import k)]) (Some (n_id n)) (n_id n), true)).
  { destruct Hk as [->| ->]; unfold imp_check; cbn [cap c_name c_node]; unfold open_import; fold m;
      now rewrite (nget_fresh _ _ Hf), (ninsert_fresh _ _ _ Hf). }
  rewrite E1. unfold imp_check at 1. cbn [cap c_name]. rewrite (check_name src m _ _ _ r Hf Hr).
  set (im := add_template_name _ _ _ _).
  assert (Ho : openable k im r).
  { unfold im. destruct Hk as [->| ->]; cbn [first_import add_template_name openable]; rewrite fill_new by (now left); auto. }
  destruct (run_repeat src k n kw r m im Ho Hr Hf j (n_id n)) as (l' & E). eauto.
Qed.
Lemma openable_get k im r tp : openable k im r -> on_node tp (fst r) -> import_get im tp = Some (ref_id r).
Proof.
  intros Ho (A & B). assert (Hi : in_id tp (ref_id r) = true) by (unfold in_id; cbn; now rewrite (pt_le_leb _ _ A), (pt_le_leb _ _ B)).
  destruct k; try (destruct Ho; fail); destruct im as [| |t ids|t i]; try (destruct Ho; fail); cbn in Ho.
  - destruct Ho as (-> & _). cbn [import_get]. now rewrite Hi.
  - destruct ids; [|destruct Ho]. subst t. cbn [import_get]. now rewrite Hi.
Qed.

Lemma run_cursor src tp s0 st r : stmt_ok src st -> cursor_in tp st r -> fresh (n_id (stmt_node st)) (im_imports s0) ->
  exists im l, runi src s0 (filter (keep tp) (concat (cap_stmt st))) =
    Some (mkimps (im_imports s0 ++ [(n_id (stmt_node st), im)]) (Some (n_id (stmt_node st))) l) /\
    import_get im tp = Some (ref_id r).
Proof.
  intros Hok (Hu & Hr & Hc) Hf.
  assert (Hi : in_id tp (ref_id r) = true) by (destruct Hr as (A & B); unfold in_id; cbn; now rewrite (pt_le_leb _ _ A), (pt_le_leb _ _ B)).
  set (m := im_imports s0) in *. destruct st as [n kw t|n kw ts|n kw t imp ids|n kw t als]; cbn [stmt_node] in *.
  - destruct Hc as (-> & Hkw). cbn [cap_stmt concat app stmt_ok] in *. rewrite keep_all.
    2:{ repeat apply Forall_cons; try apply Forall_nil; cbn; [exact Hu|exact Hkw|apply Hr]. }
    cbn [runi]. unfold imp_check at 1. cbn [cap c_name c_node]. unfold open_import. fold m. rewrite (nget_fresh _ _ Hf), (ninsert_fresh _ _ _ Hf).
    unfold imp_check at 1. cbn [cap c_name].
    rewrite (check_name src m _ _ _ t Hf Hok). cbn [add_template_name]. rewrite fill_new by now left.
    do 2 eexists. split; [reflexivity|]. cbn [import_get]. 
    change (mkid (n_start (fst t)) (n_end (fst t)) (snd t) (id_scope id_default) JinjaTemplate (id_fields id_default)) with (ref_id t).
    now rewrite Hi.
  - destruct Hc as (Hkw & a & z & -> & Ha & Hz). destruct Hok as (_ & Hok). cbn [cap_stmt].
    set (one := fun t : sref => [cap CInclude n; cap COther kw; cap CTemplateName (fst t)]).
    change (map _ (a ++ r :: z)) with (map one (a ++ r :: z)).
    assert (E : filter (keep tp) (concat (map one (a ++ r :: z))) =
                concat (map one (a ++ [r])) ++ concat (map (fun _ => [cap CInclude n; cap COther kw]) z)).
    { replace (a ++ r :: z) with ((a ++ [r]) ++ z) by now rewrite <- app_assoc.
      rewrite (map_app one (a ++ [r])), concat_app, filter_app. f_equal.
      - apply keep_all. apply Forall_forall. intros c Hin. apply in_concat in Hin. destruct Hin as (l & Hl & Hin).
        apply in_map_iff in Hl. destruct Hl as (x & <- & Hx). cbn in Hin.
        assert (upto tp (fst x)).
        { apply in_app_or in Hx. destruct Hx as [Hx|[<-|[]]]; [|apply Hr]. rewrite Forall_forall in Ha. apply (Ha x Hx). }
        destruct Hin as [<-|[<-|[<-|[]]]]; assumption.
      - clear - Hz Hu Hkw. induction z as [|x z IH]; [reflexivity|]. inversion Hz as [|? ? H1 H2]; subst. cbn [map concat].
        rewrite filter_app, (IH H2). f_equal. unfold one. cbn [filter].
        rewrite (keep_upto _ _ _ Hu), (keep_upto _ _ _ Hkw), (keep_after _ _ _ H1). reflexivity. }
    rewrite E, runi_app.
    assert (Hok1 : Forall (sref_ok src) (a ++ [r])).
    { apply Forall_app in Hok. destruct Hok as (O1 & O2). inversion O2; subst. apply Forall_app. split; [exact O1|]. constructor; auto. }
    assert (Hok2 : stmt_ok src (SInclude n kw (a ++ [r]))).
    { split; [|exact Hok1]. intros Hnil. apply app_eq_nil in Hnil. destruct Hnil as (_ & Hnil). discriminate Hnil. }
    destruct (run_stmt src s0 (SInclude n kw (a ++ [r])) Hok2 Hf) as (cur & l & E1).
    cbn [cap_stmt stmt_node import_of] in E1.
    match type of E1 with context [map ?f (a ++ [r])] => change (map f (a ++ [r])) with (map one (a ++ [r])) in E1 end.
    rewrite E1. fold m.
    assert (Hcur : cur = Some (n_id n)).
    { (* the last match leaves the statement current *)
      rewrite map_app, concat_app, runi_app in E1. destruct (runi src s0 (concat (map one a))) as [s1|]; [|discriminate].
      cbn [map concat app] in E1. unfold one in E1. rewrite app_nil_r in E1. cbn [runi] in E1.
      unfold imp_check at 1 in E1. cbn [cap c_name c_node] in E1. unfold open_import in E1.
      destruct (nget (n_id n) (im_imports s1)) as [q|] eqn:Eg; unfold imp_check at 1 in E1; cbn [cap c_name] in E1;
        unfold imp_check in E1; cbn [cap c_name c_node im_current im_imports im_last] in E1;
        destruct (nget (n_id n) _) in E1; try discriminate;
        destruct (utf8_text (fst r) src) as [[x|]|]; cbn [bind] in E1; try discriminate; inversion E1; subst; reflexivity. }
    subst cur.
    assert (G : forall z l, exists l', runi src (mkimps (m ++ [(n_id n, IInclude (map ref_id (a ++ [r])))]) (Some (n_id n)) l)
       (concat (map (fun _ : sref => [cap CInclude n; cap COther kw]) z)) =
       Some (mkimps (m ++ [(n_id n, IInclude (map ref_id (a ++ [r])))]) (Some (n_id n)) l')).
    { clear - Hf. induction z as [|x z IH]; intros l; [cbn; eauto|]. cbn [map concat app runi].
      unfold imp_check at 1. cbn [cap c_name c_node]. unfold open_import. cbn [im_imports im_last].
      rewrite (nget_last _ _ _ Hf). unfold imp_check at 1. cbn [cap c_name]. apply IH. }
    destruct (G z l) as (l' & ->). do 2 eexists. split; [reflexivity|]. cbn [import_get].
    rewrite map_app. clear - Ha Hi. induction a as [|x a IH]; cbn [map app find]; [now rewrite Hi|].
    inversion Ha as [|? ? (_ & H1) H2]; subst.
    assert (in_id tp (ref_id x) = false) as -> by (unfold in_id; cbn; apply andb_false_iff; right; pts). auto.
  - destruct Hc as (-> & Hkw & Him & Hids). destruct Hok as (Ht & Hne & _). unfold cap_stmt.
    assert (E : forall ids, Forall (fun i : option tok => match i with Some i => after tp (fst i) | None => True end) ids ->
      filter (keep tp) (concat (map (fun i : option tok => [cap CFrom n; cap COther kw; cap CTemplateName (fst t); cap COther imp] ++
                    match i with Some i => [cap CImportIdentifier (fst i)] | None => [] end) ids)) =
      concat (repeat [cap CFrom n; cap COther kw; cap CTemplateName (fst t)] (length ids))).
    { induction 1 as [|i l H1 _ IH]; [reflexivity|]. cbn [map concat length repeat]. rewrite filter_app, IH. f_equal.
      cbn [app filter]. rewrite (keep_upto _ _ _ Hu), (keep_upto _ _ _ Hkw), (keep_after _ _ _ Him), (keep_upto _ _ (fst t) (proj1 Hr)).
      destruct i as [i|]; [|reflexivity]. cbn [filter]. now rewrite (keep_after _ _ _ H1). }
    match goal with |- context [runi src s0 ?x] => replace x with (concat (repeat [cap CFrom n; cap COther kw; cap CTemplateName (fst t)] (length ids))) by (symmetry; exact (E ids Hids)) end.
    destruct ids as [|i ids]; [contradiction|]. cbn [length].
    destruct (run_first src CFrom n kw t s0 (length ids) (or_introl eq_refl) Ht Hf) as (im & l & E1 & Ho).
    exists im, l. split; [exact E1|]. eapply openable_get; eauto.
  - destruct Hc as (-> & Hkw & Hals). destruct Hok as (Ht & Hne & _). unfold cap_stmt.
    assert (E : forall als, Forall (fun a : option node * option tok => match fst a with Some k => after tp k | None => True end /\
        match snd a with Some i => after tp (fst i) | None => True end) als ->
      filter (keep tp) (concat (map (fun a : option node * option tok => [cap CImport n; cap COther kw; cap CTemplateName (fst t)] ++
                    match fst a with Some k => [cap COther k] | None => [] end ++
                    match snd a with Some i => [cap CImportIdentifier (fst i)] | None => [] end) als)) =
      concat (repeat [cap CImport n; cap COther kw; cap CTemplateName (fst t)] (length als))).
    { induction 1 as [|i l H1 _ IH]; [reflexivity|]. cbn [map concat length repeat]. rewrite filter_app, IH. f_equal.
      cbn [app filter]. rewrite (keep_upto _ _ _ Hu), (keep_upto _ _ _ Hkw), (keep_upto _ _ (fst t) (proj1 Hr)).
      destruct i as (k, i). cbn [fst snd] in *. destruct H1 as (H1 & H1'). destruct k, i; cbn [filter app]; rewrite ?(keep_after _ _ _ H1), ?(keep_after _ _ _ H1'); reflexivity. }
    match goal with |- context [runi src s0 ?x] => replace x with (concat (repeat [cap CImport n; cap COther kw; cap CTemplateName (fst t)] (length als))) by (symmetry; exact (E als Hals)) end.
    destruct als as [|i als]; [contradiction|]. cbn [length].
    destruct (run_first src CImport n kw t s0 (length als) (or_intror eq_refl) Ht Hf) as (im & l & E1 & Ho).
    exists im, l. split; [exact E1|]. eapply openable_get; eauto.
Qed.

Lemma template_at src ms tp pre st post r :
  stmts_ok src (pre ++ st :: post) -> ms = flat_map cap_stmt (pre ++ st :: post) ->
  Forall (all_before tp) pre -> cursor_in tp st r -> Forall (all_behind tp) post ->
  exists imps im, templates_query ms tp src false = Ok imps /\ in_template imps = Some im /\
    import_get im tp = Some (ref_id r).
Proof.
  intros (HF & HN) -> Hb Hc Ha. unfold templates_query. rewrite flat_captures_keep.
  rewrite flat_map_app. cbn [flat_map]. rewrite !concat_app, !filter_app.
  apply Forall_app in HF. destruct HF as (F1 & F2). inversion F2 as [|? ? F3 F4]; subst.
  assert (HNp : NoDup (map (fun s => n_id (stmt_node s)) pre)).
  { rewrite map_app in HN. clear - HN. induction (map (fun s => n_id (stmt_node s)) pre) as [|x l IH]; [constructor|].
    cbn in HN. inversion HN; subst. constructor; auto. intros H. apply H1. apply in_or_app. now left. }
  rewrite (keep_all tp (concat (flat_map cap_stmt pre))).
  2:{ apply Forall_forall. intros c Hin. apply in_concat in Hin. destruct Hin as (l & Hl & Hin). apply in_flat_map in Hl.
      destruct Hl as (s & Hs & Hl). rewrite Forall_forall in Hb. specialize (Hb s Hs). unfold all_before in Hb.
      rewrite Forall_forall in Hb. apply Hb. apply in_concat. eauto. }
  rewrite (keep_none tp (concat (flat_map cap_stmt post))), app_nil_r.
  2:{ apply Forall_forall. intros c Hin. apply in_concat in Hin. destruct Hin as (l & Hl & Hin). apply in_flat_map in Hl.
      destruct Hl as (s & Hs & Hl). rewrite Forall_forall in Ha. specialize (Ha s Hs). unfold all_behind in Ha.
      rewrite Forall_forall in Ha. apply Ha. apply in_concat. eauto. }
  destruct (run_stmts src pre jimports0 F1) as (cur & l & E1). { exact HNp. }
  rewrite (run_runi _ _ _ _ _ E1). cbn [jimports0 im_imports app].
  set (s1 := mkimps (map (fun s => (n_id (stmt_node s), import_of s)) pre) cur l).
  assert (Hf : fresh (n_id (stmt_node st)) (im_imports s1)).
  { unfold fresh, s1. cbn [im_imports]. rewrite map_map. cbn [fst]. rewrite map_app in HN. cbn [map] in HN.
    apply NoDup_remove_2 in HN. intros H. apply HN. apply in_or_app. now left. }
  destruct (run_cursor src tp s1 st r F3 Hc Hf) as (im & l' & E2 & Hg).
  exists (mkimps (im_imports s1 ++ [(n_id (stmt_node st), im)]) (Some (n_id (stmt_node st))) l'), im.
  split.
  - rewrite <- (app_nil_r (filter _ _)). now rewrite (run_runi _ _ _ _ _ E2).
  - split; [|exact Hg]. unfold in_template. cbn [im_current im_imports]. now apply nget_last.
Qed.

Section Handlers.
Context {T : ts}.
Implicit Types st : lsp_files T.

(** The objects side of a cursor that is on no use. *)
Lemma no_ident b ms tp src : no_use_at src (concat ms) tp ->
  exists s, objects_query b ms tp src false = Ok s /\ is_ident s tp = None.
Proof.
  intros (ps & cs2 & p & E & He & Hp & Hc).
  destruct (ends_before_run src ps p He) as (s & R & Eo & S1 & S2 & S3 & X & F1 & F2 & P0).
  destruct (query_gap b ms tp src _ _ s p E R) as (Q & Hi); auto.
  { eapply Forall_impl; [|exact F1]. intros c H. pts. }
  exists s. split; [exact Q|]. unfold is_ident. replace (pt_leb tp (snd (os_ident s))) with false by pts.
  now rewrite andb_false_r.
Qed.

(** C66: goto on a template reference. *)
Lemma goto_reference F url b st uri pos tr t pre i post r p u :
  let src := rope_content t in
  let tp := point_of pos in
  holds st uri tr t ->
  no_use_at src (concat (t_captures T QObjects tr src)) tp ->
  stmts_ok src (pre ++ i :: post) -> t_captures T QImports tr src = flat_map cap_stmt (pre ++ i :: post) ->
  Forall (all_before tp) pre -> cursor_in tp i r -> Forall (all_behind tp) post ->
  f_canon F (path_push (cf_templates (ls_config st)) (snd r)) = CanonOk p -> url (file_uri p) = Some u ->
  goto_definition F url b uri pos st = Ok (Some (GScalar (mkloc u (lsp_range pt0 pt0)))).
Proof.
  intros src tp (H1 & H2 & H3) Hno Hs Em Hb Hc Ha Hp Hu.
  destruct (no_ident b _ _ _ Hno) as (s & Q & Ei).
  destruct (template_at src _ tp pre i post r Hs Em Hb Hc Ha) as (imps & im & Eq & Et & Eg).
  unfold goto_definition. rewrite H1. cbn [trees_of]. rewrite H2, H3. fold src. fold tp. rewrite Q. cbn [bind].
  rewrite Ei. cbn [goto_local]. rewrite Eq. cbn [bind]. rewrite Et, Eg. unfold goto_template.
  change (id_name (ref_id r)) with (snd r). rewrite Hp, Hu. reflexivity.
Qed.

(** Completion inside a template reference. *)
Lemma completion_reference b st uri pos ctx tr t pre i post r typed rest :
  let src := rope_content t in
  let tp := point_of pos in
  ctx = Some TkInvoked \/ ctx = Some TkTriggerCharacter ->
  holds st uri tr t -> clean_before tp (t_captures T QSnippets tr src) ->
  (exists ps cs2 p, concat (t_captures T QObjects tr src) = cap_pieces ps ++ cs2 /\
     ends_before src ps p /\ pt_lt p tp /\ before_all tp cs2 /\ outside ps tp) ->
  stmts_ok src (pre ++ i :: post) -> t_captures T QImports tr src = flat_map cap_stmt (pre ++ i :: post) ->
  Forall (all_before tp) pre -> cursor_in tp i r -> Forall (all_behind tp) post ->
  snd r = (typed ++ rest)%string -> Forall (fun c => c < 128) (map N_of_ascii (list_ascii_of_string (snd r))) ->
  col (n_end (fst r)) = col (n_start (fst r)) + slen (snd r) + 2 ->
  col tp = col (n_start (fst r)) + 1 + slen typed ->
  small (n_start (fst r)) -> small (n_end (fst r)) ->
  exists n, quoted_prefix typed (snd r) n /\
  completion b uri pos ctx st =
    Ok (Some (CtIncludedTemplate n (lsp_range (n_start (fst r)) (n_end (fst r))), false)).
Proof.
  intros src tp Hctx (H1 & H2 & H3) Hcl (ps & cs2 & p & E & He & Hp & Hc2 & Hout) Hs Em Hb Hc Ha En Has Hce Hct S1 S2.
  destruct (complete_gap b _ tp src ps cs2 p He Hp E Hc2) as (s & Q & _ & Hno). specialize (Hno Hout).
  destruct (template_at src _ tp pre i post r Hs Em Hb Hc Ha) as (imps & im & Eq & Et & Eg).
  destruct (snippets_clean b _ _ Hcl) as (sn & Es & Esn).
  pose proof (typed_prefix_quoted b tp (ref_id r) typed rest En Hce Hct) as Hpre.
  assert (Hn : exists n, quoted_prefix typed (snd r) n /\ completion_start b tp (ref_id r) = Ok (Some n)).
  { destruct (slen typed <=? 1) eqn:El.
    - exists (snd r). split; [left; split; [lia|reflexivity]|exact Hpre].
    - assert (Hx : exists a x, typed = (a ++ String x EmptyString)%string).
      { clear - El. induction typed as [|y l IH]; [discriminate|]. destruct l as [|z l].
        - exists EmptyString, y. reflexivity.
        - destruct (slen (String z l) <=? 1) eqn:El'.
          + destruct l; [|unfold slen in *; cbn [String.length] in *; lia]. exists (String y EmptyString), z. reflexivity.
          + destruct (IH eq_refl) as (a & x & ->). exists (String y a), x. reflexivity. }
      destruct Hx as (a & x & ->). rewrite slen_app in *. change (slen (String x EmptyString)) with 1 in *.
      exists a. split.
      { right. exists x. split; [reflexivity|]. intros ->. unfold slen in El. cbn in El. discriminate. }
      rewrite Hpre. replace (slen a + 1 - 1) with (slen a) by lia. f_equal. change (id_name (ref_id r)) with (snd r).
      rewrite En, append_assoc. rewrite get_to_app; [reflexivity|].
      cbn [append]. cbn [splits_char]. 
      rewrite En, append_assoc in Has. clear - Has. induction a as [|y a IH]; cbn [append list_ascii_of_string map] in Has; inversion Has; subst; auto.
      unfold splits_char, is_cont. destruct (128 <=? N_of_ascii x) eqn:Z; [lia|reflexivity]. }
  destruct Hn as (n & Hn & Hcs). exists n. split; [exact Hn|].
  unfold completion.
  assert (Hcan : (match ctx with Some TkTriggerCharacter | Some TkInvoked => true | _ => false end) = true)
    by (destruct Hctx as [->| ->]; reflexivity).
  rewrite Hcan. cbn [negb]. rewrite H1. cbn [trees_of]. rewrite H2, H3. fold src. fold tp. rewrite Es. cbn [bind].
  rewrite Esn. cbn [andb bind is_some is_none negb]. rewrite Q. cbn [bind]. rewrite Hno. cbn [bind].
  rewrite Eq. cbn [bind]. rewrite Et, Eg, Hcs. cbn [bind]. change (id_start (ref_id r)) with (n_start (fst r)).
  change (id_end (ref_id r)) with (n_end (fst r)). now rewrite to_range_lsp.
Qed.
End Handlers.
