(** * PQueries10: goto, hover and diagnostics of templates, from their syntax trees. *)
From Verif Require Import Base RString Utf8 Rope Types Captures MTemplates MDefinition MObjects MLspFiles MSearchErrors MLspTask MQueries.
From Verif Require Import SpecFiles SpecScope SpecScope2 SpecObjects SpecObjects2 SpecLint SpecNav SpecQueries SpecQueries2 SpecQueries4.
From Verif Require Import PUtf8 PText PFiles PLint PLint2 PNode PObjects PNav PNav2 PNav3 PQueries PQueries2 PQueries3 PQueries4 PQueries6 PQueries7 PQueries9.

(** ** References are strings *)
Lemma of_kind_kid kind l n : In n (of_kind kind l) -> exists x, In x (flat_map (fun c => preorder (snd c)) l) /\ s_kind x = kind /\ s_node x = n.
Proof.
  intros H. apply of_kind_in in H. destruct H as (f & x & Hx & Hk & Hn). exists x. split; [|auto]. apply in_flat_map. exists (f, x). split; [exact Hx|apply self_inside].
Qed.
Lemma links_strings src n l o : links src n l o -> forall st, o = Some st -> forall r, In r (refs st) ->
  exists x, In x (flat_map (fun c => preorder (snd c)) l) /\ s_kind x = "string"%string /\ s_node x = fst r.
Proof.
  assert (Z : forall a f kw g z x, In x (flat_map (fun c : string * stree => preorder (snd c)) z) ->
    In x (flat_map (fun c : string * stree => preorder (snd c)) (a ++ (f, SN "keyword" kw g) :: z))).
  { intros a f kw g z x Hx. rewrite flat_map_app. cbn [flat_map]. apply in_or_app. right. apply in_or_app. now right. }
  assert (M : forall a f kw g b f1 t g1 (w : kids), exists x, In x (flat_map (fun c : string * stree => preorder (snd c)) (a ++ (f, SN "keyword" kw g) :: b ++ (f1, SN "string" t g1) :: w)) /\
     s_kind x = "string"%string /\ s_node x = t).
  { intros a f kw g b f1 t g1 w. exists (SN "string" t g1). split; [|auto]. apply Z. rewrite flat_map_app. cbn [flat_map]. apply in_or_app. right. apply in_or_app. left. apply self_inside. }
  intros H st -> r Hr. inversion H; subst; cbn [refs] in Hr; try (destruct Hr as [<-|[]]); try (now apply M).
  - destruct (of_kind_kid "string" z (fst t)) as (x & Hx & K); [match goal with E : of_kind "string" z = _ |- _ => rewrite E end; now left|]. exists x. split; [now apply Z|exact K].
  - destruct (of_kind_kid "string" z (fst r)) as (x & Hx & K); [match goal with E : of_kind "string" z = _ |- _ => rewrite E end; now apply in_map|]. exists x. split; [now apply Z|exact K].
Qed.
Lemma linked_strings src items sts : linked src items sts -> forall st r, In st sts -> In r (refs st) ->
  exists x, In x (flat_map preorder items) /\ s_kind x = "string"%string /\ s_node x = fst r.
Proof.
  induction 1 as [|n b mid e f1 f2 r o sts Hin Hl _ IH|t r sts Hin _ IH]; intros st x Hst Hx; [destruct Hst| |].
  - assert (C : o = Some st \/ In st sts) by (destruct o as [s|]; [destruct Hst as [->|Hst]|]; auto). destruct C as [->|C].
    + destruct (links_strings _ _ _ _ Hl st eq_refl x Hx) as (y & Hy & K). exists y. split; [|exact K]. cbn [flat_map]. apply in_or_app. left.
      cbn [preorder flat_map snd app]. right. right. rewrite flat_map_app. apply in_or_app. now left.
    + destruct (IH _ _ C Hx) as (y & Hy & K). exists y. split; [|exact K]. cbn [flat_map]. apply in_or_app. now right.
  - destruct (IH _ _ Hst Hx) as (y & Hy & K). exists y. split; [|exact K]. cbn [flat_map]. apply in_or_app. now right.
Qed.
Lemma cap_stmt_name s c : In c (concat (cap_stmt s)) -> c_name c = CTemplateName -> exists r, In r (refs s) /\ c_node c = fst r.
Proof.
  intros H E. apply in_concat in H. destruct H as (m & Hm & Hc). destruct s as [n kw t|n kw ts|n kw t imp ids|n kw t als]; cbn [cap_stmt refs] in *.
  - destruct Hm as [<-|[]]. destruct Hc as [<-|[<-|[<-|[]]]]; try discriminate. exists t. split; [now left|reflexivity].
  - apply in_map_iff in Hm. destruct Hm as (t & <- & Ht). destruct Hc as [<-|[<-|[<-|[]]]]; try discriminate. exists t. auto.
  - apply in_map_iff in Hm. destruct Hm as (i & <- & _). exists t. split; [now left|]. apply in_app_or in Hc. destruct Hc as [Hc|Hc].
    + destruct Hc as [<-|[<-|[<-|[<-|[]]]]]; try discriminate. reflexivity.
    + destruct i; [destruct Hc as [<-|[]]; discriminate|destruct Hc].
  - apply in_map_iff in Hm. destruct Hm as ((k & i) & <- & _). exists t. split; [now left|]. cbn [fst snd] in Hc. apply in_app_or in Hc. destruct Hc as [Hc|Hc].
    + destruct Hc as [<-|[<-|[<-|[]]]]; try discriminate. reflexivity.
    + apply in_app_or in Hc. destruct Hc as [Hc|Hc]; [destruct k|destruct i]; try (destruct Hc; fail); destruct Hc as [<-|[]]; discriminate.
Qed.

Section Tree.
Variables (parse : plang -> string -> option stree -> option stree) (edit : stree -> input_edit -> stree).
Notation T := (ts_with parse edit).
Section Displayed.
Variables (s : lsp_files T) (uri : string) (t : text) (tr : stree) (tp : tpl) (ps : list piece) (sts : list istmt).
Hypothesis Hsh : displayed s uri t tr tp ps sts.
Notation ds := (tallied (n_end (s_node tr)) tp).
Let Hd : depicts (encode t) tr tp ps sts := sh_depicts _ _ _ _ _ _ _ Hsh.
Let Hpl : well_placed tr := sh_placed _ _ _ _ _ _ _ Hsh.
Let Hpa : parsed T tr (encode t) tp ps sts := depicts_parsed parse edit _ _ _ _ _ Hd.

Lemma content : rope_content t = encode t.
Proof. apply rope_content_encode. exact (sh_text _ _ _ _ _ _ _ Hsh). Qed.
Lemma shown_holds : holds s uri tr t.
Proof. split; [exact (sh_kind _ _ _ _ _ _ _ Hsh)|]. split; [exact (sh_tree _ _ _ _ _ _ _ Hsh)|exact (sh_doc _ _ _ _ _ _ _ Hsh)]. Qed.
Lemma leaf_at x : In x (preorder tr) -> In (s_kind x) ["identifier"; "statement_begin"]%string -> s_children x = [] /\ pt_lt (n_start (s_node x)) (n_end (s_node x)).
Proof. intros Hx Hk. destruct Hpl as (_ & Ht & _). unfold tokens_whole in Ht. rewrite Forall_forall in Ht. now apply Ht. Qed.
Lemma decl_node d : In d ds ->
  exists y, In y (preorder tr) /\ s_kind y = "identifier"%string /\ n_start (s_node y) = dc_start d /\ n_end (s_node y) = dc_end d /\
    pt_le (dc_end d) (dc_until d) /\
    (dc_until d = n_end (s_node tr) \/ exists w, In w (preorder tr) /\ s_kind w = "statement_begin"%string /\ dc_until d = n_start (s_node w)).
Proof.
  intros H. destruct (tallied_signed _ _ _ H) as (A & n & B & b1 & e1 & C & E & H1 & H2 & H3). destruct Hpl as (Hl & _ & _).
  pose proof (dp_told _ _ _ _ _ Hd) as Htl. destruct H3 as [H3|(b & e & Hb & H3)].
  - destruct (told_id _ _ _ Htl n) as (y & Hy & Ky & Ny); [rewrite E; apply in_or_app; right; now left|]. apply root_items in Hy. exists y.
    split; [exact Hy|]. split; [exact Ky|]. rewrite Ny. split; [now symmetry|]. split; [now symmetry|]. split; [|now left].
    rewrite H2, H3, <- Ny. now apply laid_inside.
  - destruct (told_order _ _ _ Htl _ _ _ _ _ _ _ _ E Hb) as (p & x & q & y & r & Ep & Kx & Nx & Ky & Ny).
    destruct tr as [kr nr ch] eqn:Etr. rewrite <- Etr in *. assert (Epre : preorder tr = (SN kr nr ch :: p) ++ x :: q ++ y :: r).
    { rewrite Etr. cbn [s_children] in Ep. rewrite items_of. rewrite Etr in Ep. cbn [s_children] in Ep. rewrite Ep. reflexivity. }
    assert (Hx : In x (preorder tr)) by (rewrite Epre; apply in_or_app; right; now left).
    assert (Hy : In y (preorder tr)) by (rewrite Epre; apply in_or_app; right; right; apply in_or_app; right; now left).
    destruct (leaf_at x Hx) as (Cx & _); [rewrite Kx; now left|]. pose proof (laid_after _ _ _ _ Hl Epre Cx) as Ha. rewrite Forall_forall in Ha.
    exists x. split; [exact Hx|]. split; [exact Kx|]. rewrite Nx. split; [now symmetry|]. split; [now symmetry|]. split.
    + rewrite H2, H3, <- Nx, <- Ny. apply Ha. apply in_or_app. right. now left.
    + right. exists y. split; [exact Hy|]. split; [exact Ky|]. now rewrite Ny.
Qed.
Lemma decls_small : Forall small_decl ds.
Proof.
  apply Forall_forall. intros d H. destruct (decl_node d H) as (y & Hy & _ & E1 & E2 & _). destruct Hpl as (_ & _ & Hs).
  unfold small_tree in Hs. rewrite Forall_forall in Hs. unfold small_decl. rewrite <- E1, <- E2. now apply Hs.
Qed.
Lemma no_reference_at cur : no_string_at tr cur -> no_ref_at cur (t_captures T QImports tr (encode t)).
Proof.
  intros Hn. unfold no_ref_at. rewrite (pd_imports _ _ _ _ _ _ Hpa). apply Forall_forall. intros c Hc Ec. apply in_concat in Hc. destruct Hc as (m & Hm & Hc).
  apply in_flat_map in Hm. destruct Hm as (st & Hst & Hm). destruct (cap_stmt_name st c) as (r & Hr & ->); [apply in_concat; exists m; auto|exact Ec|].
  destruct (linked_strings _ _ _ (dp_linked _ _ _ _ _ Hd) _ _ Hst Hr) as (x & Hx & Kx & <-). apply root_items in Hx.
  unfold no_string_at in Hn. rewrite Forall_forall in Hn. now apply Hn.
Qed.
Lemma imports_read : Forall (fun c => utf8_text (c_node c) (encode t) <> Panic) (concat (t_captures T QImports tr (encode t))).
Proof.
  pose proof (characters_readable _ _ (sh_text _ _ _ _ _ _ _ Hsh) (sh_chars _ _ _ _ _ _ _ Hsh)) as Hr. unfold readable in Hr. rewrite Forall_forall in Hr.
  change (t_captures T QImports tr (encode t)) with (captured JINJA_IMPORTS (encode t) tr). rewrite captured_concat. apply Forall_forall. intros c Hc.
  apply in_map_iff in Hc. destruct Hc as (q & <- & Hq). pose proof (captured_inside JINJA_IMPORTS (encode t) tr) as Hi. rewrite Forall_forall in Hi.
  destruct (Hi _ Hq) as (y & Hy & E). cbn [to_cap c_node]. unfold to_cap. cbn. rewrite E, (Hr _ Hy). discriminate.
Qed.
Lemma objects_are : concat (t_captures T QObjects tr (rope_content t)) = cap_pieces ps.
Proof. rewrite content. exact (pd_objects _ _ _ _ _ _ Hpa). Qed.
Lemma pieces_are : pieces_ok (rope_content t) ps.
Proof. rewrite content. exact (pd_pieces _ _ _ _ _ _ Hpa). Qed.

(** The answers, whatever definitions [ds0] the server has of the document. *)
Section Known.
Variable ds0 : list decl.
Hypothesis Hk : knows s uri ds0.
Lemma known_goto F url b h fs pos : Forall small_decl ds0 -> In (h, fs) (chains ps) -> cursor_on tr (point_of pos) (fst h) ->
  (exists d, In d ds0 /\ goto_sees (point_of pos) (snd h) d) ->
  exists d, latest (goto_sees (point_of pos) (snd h)) ds0 d /\
    goto_definition F url b uri pos s = Ok (Some (GScalar (mkloc uri (lsp_range (dc_start d) (dc_end d))))).
Proof.
  intros Hsm Hc Hon Hv. destruct (in_chain _ _ _ Hc) as (pre & post & E). pose proof objects_are as Ho. pose proof pieces_are as Hp. rewrite E in Ho, Hp.
  eapply goto_latest; [exact shown_holds|exact Hk|exact Hsm|exact Hp|exact Ho|exact (proj1 Hon)| |exact Hv].
  eapply behind_cursor; [exact Hd|exact Hpl|exact E| |exact Hon]. cbn [piece_nodes]. exact (eq_refl : _ = [] ++ _).
Qed.
Lemma known_goto_else F url b h fs pos :
  let here := filter (fun fv => heads (snd h) (id_name (snd fv))) (other_vars uri (ls_vars s)) in
  In (h, fs) (chains ps) -> cursor_on tr (point_of pos) (fst h) -> no_string_at tr (point_of pos) ->
  (forall d, In d ds0 -> ~ goto_sees (point_of pos) (snd h) d) ->
  Forall (fun fv => small_id (snd fv)) (other_vars uri (ls_vars s)) -> Forall (fun fv => url (target_name fv) <> None) here ->
  exists locs, goto_definition F url b uri pos s = Ok (Some (GArray locs)) /\ Forall2 (found url) here locs.
Proof.
  intros here Hc Hon Hns Hv Hs Hu. destruct (in_chain _ _ _ Hc) as (pre & post & E). pose proof objects_are as Ho. pose proof pieces_are as Hp. rewrite E in Ho, Hp.
  eapply goto_elsewhere; [exact shown_holds|exact Hk|exact Hp|exact Ho|exact (proj1 Hon)| |exact Hv| | |exact Hs|exact Hu].
  - eapply behind_cursor; [exact Hd|exact Hpl|exact E| |exact Hon]. cbn [piece_nodes]. exact (eq_refl : _ = [] ++ _).
  - rewrite content. now apply no_reference_at.
  - rewrite content. exact imports_read.
Qed.
Lemma segment_last h l a : segment h (l ++ [a]) = a_name a.
Proof. unfold segment. assert (E : last_opt (l ++ [a]) = Some a); [|now rewrite E]. induction l as [|x l IH]; [reflexivity|]. cbn [app]. destruct l; [reflexivity|exact IH]. Qed.
(** The last segment of a chain up to some access, as a node. *)
Lemma segment_node h fs2 : forall fs1, exists A Z, piece_nodes (PChain h (fs1 ++ fs2)) = A ++ ("identifier"%string, fst (segment h fs1)) :: Z.
Proof.
  cbn [piece_nodes]. refine (rev_ind _ _ _); [|intros a l _].
  - exists [], (flat_map (fun a => [("operator"%string, a_dot a); ("identifier"%string, fst (a_name a))]) fs2). reflexivity.
  - exists (("identifier"%string, fst h) :: flat_map (fun a => [("operator"%string, a_dot a); ("identifier"%string, fst (a_name a))]) l ++ [("operator"%string, a_dot a)]),
      (flat_map (fun a => [("operator"%string, a_dot a); ("identifier"%string, fst (a_name a))]) fs2).
    rewrite segment_last, <- app_assoc, flat_map_app. cbn [flat_map app]. rewrite <- app_assoc. reflexivity.
Qed.
Lemma known_hover b h fs1 fs2 pos : In (h, fs1 ++ fs2) (chains ps) -> cursor_on tr (point_of pos) (fst (segment h fs1)) ->
  exists r, do_hover b uri pos s = Ok r /\ hover_answer s uri ds0 (snd h) (n_start (fst h)) r.
Proof.
  intros Hc Hon. destruct (in_chain _ _ _ Hc) as (pre & post & E). pose proof objects_are as Ho. pose proof pieces_are as Hp.
  pose proof (pieces_small _ _ _ _ _ Hd Hpl) as Hsm. rewrite E in Ho, Hp, Hsm. destruct (segment_node h fs2 fs1) as (A & Z & En).
  eapply hover_exact; [exact shown_holds|exact Hk|exact Hp|exact Ho|exact (proj1 Hon)| |exact Hsm].
  eapply behind_cursor; [exact Hd|exact Hpl|exact E|exact En|exact Hon].
Qed.
End Known.

(** ** A name, the definitions of the file, and the ends of their scopes *)
Section Use.
Variables (h : tok) (fs : list access).
Hypothesis Hc : In (h, fs) (chains ps).
Lemma head_at : exists x, In x (preorder tr) /\ s_kind x = "identifier"%string /\ s_node x = fst h /\ s_children x = [] /\ pt_lt (n_start (fst h)) (n_end (fst h)).
Proof.
  destruct (head_node _ _ _ _ _ Hd _ _ Hc) as (x & Hx & Kx & Nx). destruct (leaf_at x Hx) as (Cx & Lx); [rewrite Kx; now left|]. exists x. rewrite <- Nx. auto.
Qed.
Lemma until_iff d cur : In d ds -> cursor_on tr cur (fst h) -> (pt_lt (n_start (fst h)) (dc_until d) <-> pt_le cur (dc_until d)).
Proof.
  intros Hin ((Ha & Hz) & _). destruct head_at as (x & Hx & Kx & Nx & Cx & Lx). destruct Hpl as (Hl & _ & _).
  destruct (decl_node d Hin) as (y & _ & _ & _ & _ & _ & [Hu|(w & Hw & Kw & Hu)]); rewrite Hu.
  - destruct (laid_inside _ _ Hl Hx) as (_ & Hr). rewrite Nx in Hr. clear - Ha Hz Lx Hr. unfold pt_le, pt_lt in *. split; intros; lia.
  - destruct (leaf_at w Hw) as (Cw & Lw); [rewrite Kw; right; now left|].
    destruct (two_leaves _ _ _ Hl Hx Hw Cx Cw) as [->|[L|L]]; [rewrite Kw in Kx; discriminate| |]; rewrite Nx in L; clear - Ha Hz Lx L Lw; unfold pt_le, pt_lt in *; split; intros; lia.
Qed.
Lemma start_cases d cur : In d ds -> cursor_on tr cur (fst h) -> pt_le (dc_start d) (n_end (fst h)) ->
  pt_le (dc_start d) cur /\ (dc_start d = n_start (fst h) \/ pt_le (dc_end d) (n_start (fst h))).
Proof.
  intros Hin ((Ha & Hz) & Hap) Hs. destruct head_at as (x & Hx & Kx & Nx & Cx & Lx). destruct Hpl as (Hl & _ & _).
  destruct (decl_node d Hin) as (y & Hy & Ky & Y1 & Y2 & _). destruct (leaf_at y Hy) as (Cy & Ly); [rewrite Ky; now left|].
  destruct (two_leaves _ _ _ Hl Hx Hy Cx Cy) as [E|[L|L]].
  - subst y. rewrite <- Y1, Nx. split; [exact Ha|now left].
  - exfalso. unfold cursor_on in Hap. rewrite Forall_forall in Hap. assert (N : n_start (s_node y) <> n_end (fst h)) by (apply Hap; [exact Hy|rewrite Ky; now left]).
    rewrite Nx in L. destruct (pt_le_lt_eq _ _ L) as [L'|L']; [|congruence]. rewrite <- Y1 in Hs. clear - Hs L'. unfold pt_le, pt_lt in *. lia.
  - rewrite Nx, Y2 in L. rewrite Y1, Y2 in Ly. split; [|now right]. clear - L Ly Ha. unfold pt_le, pt_lt in *. lia.
Qed.
Lemma until_some d : In d ds -> dc_until d <> pt0.
Proof.
  intros Hin E. destruct (decl_node d Hin) as (y & Hy & Ky & Y1 & Y2 & Hu & _). destruct (leaf_at y Hy) as (_ & Ly); [rewrite Ky; now left|].
  rewrite Y1, Y2 in Ly. rewrite E in Hu. clear - Hu Ly. unfold pt_le, pt_lt, pt0 in *. cbn in *. lia.
Qed.
(** A definition seen by the linter is seen by goto, and by hover if it is not
    the name itself; one that is no block and seen by either is seen by the linter. *)
Lemma lint_goto d cur : In d ds -> cursor_on tr cur (fst h) -> dc_name d = snd h -> dc_kind d <> TemplateBlock ->
  (seen_from (n_start (fst h)) (n_end (fst h)) d <-> goto_sees cur (snd h) d).
Proof.
  intros Hin Hon En Ek. pose proof (until_iff d cur Hin Hon) as Hu. unfold seen_from, goto_sees. split.
  - intros (H1 & [H2|H2]); [now apply until_some in H2|]. split; [exact En|]. split; [|now apply Hu]. exact (proj1 (start_cases d cur Hin Hon H1)).
  - intros (_ & H1 & H2). split; [|right; now apply Hu]. destruct Hon as ((_ & Hz) & _). eapply pt_le_trans'; eauto.
Qed.
Lemma lint_hover d cur : In d ds -> cursor_on tr cur (fst h) -> dc_name d = snd h -> dc_kind d <> TemplateBlock ->
  (seen_from (n_start (fst h)) (n_end (fst h)) d /\ dc_start d <> n_start (fst h) <-> hover_sees (n_start (fst h)) (snd h) d).
Proof.
  intros Hin Hon En Ek. destruct head_at as (x & Hx & Kx & Nx & Cx & Lx).
  assert (Hst : cursor_on tr (n_start (fst h)) (fst h)). { split; [|exact (proj2 Hon)]. split; [right; lia|]. clear - Lx. unfold pt_le, pt_lt in *. lia. }
  pose proof (until_iff d _ Hin Hst) as Hu. destruct (decl_node d Hin) as (y & Hy & Ky & Y1 & Y2 & _). destruct (leaf_at y Hy) as (_ & Ly); [rewrite Ky; now left|]. rewrite Y1, Y2 in Ly.
  unfold seen_from, hover_sees. split.
  - intros ((H1 & [H2|H2]) & H3); [now apply until_some in H2|]. split; [exact En|]. split; [exact Ek|]. split; [|now apply Hu].
    destruct (start_cases d _ Hin Hst H1) as (_ & [H4|H4]); [now destruct H3|exact H4].
  - intros (_ & _ & H1 & H2). split; [split|].
    + clear - H1 Ly Lx. unfold pt_le, pt_lt in *. lia.
    + right. now apply Hu.
    + intros E. rewrite E in Ly. clear - H1 Ly. unfold pt_le, pt_lt in *. lia.
Qed.
End Use.
End Displayed.
Lemma tree_goto (s : lsp_files T) uri t tr tp ps sts : shown s uri t tr tp ps sts -> let ds := tallied (n_end (s_node tr)) tp in
  forall F url b h fs pos, In (h, fs) (chains ps) -> cursor_on tr (point_of pos) (fst h) ->
  (exists d, In d ds /\ goto_sees (point_of pos) (snd h) d) ->
  exists d, latest (goto_sees (point_of pos) (snd h)) ds d /\
    goto_definition F url b uri pos s = Ok (Some (GScalar (mkloc uri (lsp_range (dc_start d) (dc_end d))))).
Proof. intros (Hsh & Hk) ds F url b h fs pos. eapply known_goto; [exact Hsh|exact Hk|eapply decls_small; exact Hsh]. Qed.
Lemma tree_goto_else (s : lsp_files T) uri t tr tp ps sts : shown s uri t tr tp ps sts -> let ds := tallied (n_end (s_node tr)) tp in
  forall F url b h fs pos,
  let here := filter (fun fv => heads (snd h) (id_name (snd fv))) (other_vars uri (ls_vars s)) in
  In (h, fs) (chains ps) -> cursor_on tr (point_of pos) (fst h) -> no_string_at tr (point_of pos) ->
  (forall d, In d ds -> ~ goto_sees (point_of pos) (snd h) d) ->
  Forall (fun fv => small_id (snd fv)) (other_vars uri (ls_vars s)) -> Forall (fun fv => url (target_name fv) <> None) here ->
  exists locs, goto_definition F url b uri pos s = Ok (Some (GArray locs)) /\ Forall2 (found url) here locs.
Proof. intros (Hsh & Hk) ds F url b h fs pos. eapply known_goto_else; [exact Hsh|exact Hk]. Qed.
Lemma tree_hover (s : lsp_files T) uri t tr tp ps sts : shown s uri t tr tp ps sts -> let ds := tallied (n_end (s_node tr)) tp in
  forall b h fs1 fs2 pos, In (h, fs1 ++ fs2) (chains ps) -> cursor_on tr (point_of pos) (fst (segment h fs1)) ->
  exists r, do_hover b uri pos s = Ok r /\ hover_answer s uri ds (snd h) (n_start (fst h)) r.
Proof. intros (Hsh & Hk) ds b h fs1 fs2 pos. eapply known_hover; [exact Hsh|exact Hk]. Qed.

(** ** After opening *)
Lemma after_add uri t tr (s2 s3 : lsp_files T) :
  sget uri (ls_tt s2) = Some tr -> sget uri (ls_docs s2) = Some t -> add_variables uri Template (encode t) s2 = Ok s3 ->
  sget uri (ls_tt s3) = Some tr /\ sget uri (ls_docs s3) = Some t.
Proof. intros H1 H2 H. apply add_variables_docs in H. destruct H as (E1 & E2 & _ & _). rewrite E1, E2. auto. Qed.
Lemma open_shown F b uri t tr tp ps sts (s : lsp_files T) :
  file_ext uri = Some Template -> scalars t -> ls_ignore s = false ->
  parse PJinja (encode t) (sget uri (ls_tt s)) = Some tr ->
  on_characters t tr -> depicts (encode t) tr tp ps sts -> well_placed tr -> plain_ends tp ->
  exists s' e1, did_open F b uri t false s = Ok (s', Some [(uri, e1 ++ missing_reports F (cf_templates (ls_config s)) sts)]) /\
    reported (tallied (n_end (s_node tr)) tp) (indexed (ls_vars s')) (chains ps) e1 /\
    (forall f vs, f <> uri -> In (f, vs) (ls_vars s') <-> In (f, vs) (ls_vars s)) /\
    shown s' uri t tr tp ps sts.
Proof.
  intros Hx Hs Hi Hp Hch Hd Hw Hst. destruct (tree_open_any parse edit F b uri t tr tp ps sts s Hx Hs Hi Hp Hd Hst) as (s' & e1 & H & Hr & Hf & Hk).
  exists s', e1. split; [exact H|]. split; [exact Hr|]. split; [exact Hf|].
  assert (Hsame : sget uri (ls_tt s') = Some tr /\ sget uri (ls_docs s') = Some t).
  { destruct (did_open_relint T F b uri t tr s Hx Hp) as (s2 & A1 & A2 & _ & _ & _ & E). rewrite E in H.
    destruct (add_variables uri Template (encode t) s2) as [s3|] eqn:Ea; cbn [bind] in H; [|discriminate].
    destruct (read_tree F b uri s3) as [[v|]|]; cbn [bind] in H; try discriminate. inversion H; subst. exact (after_add _ _ _ _ _ A1 A2 Ea). }
  destruct Hsame as (A1 & A2). split; [constructor; auto|exact Hk].
Qed.
Lemma save_shown F b uri t tr tp ps sts (s : lsp_files T) :
  file_ext uri = Some Template -> scalars t -> ls_ignore s = false ->
  sget uri (ls_docs s) = Some t -> sget uri (ls_tt s) = Some tr ->
  on_characters t tr -> depicts (encode t) tr tp ps sts -> well_placed tr -> plain_ends tp ->
  exists s' e1, did_save F b uri s = Ok (s', Some [(uri, e1 ++ missing_reports F (cf_templates (ls_config s)) sts)]) /\
    reported (tallied (n_end (s_node tr)) tp) (indexed (ls_vars s')) (chains ps) e1 /\
    (forall f vs, f <> uri -> In (f, vs) (ls_vars s') <-> In (f, vs) (ls_vars s)) /\
    shown s' uri t tr tp ps sts.
Proof.
  intros Hx Hs Hi Hdoc Htr Hch Hd Hw Hst. destruct (tree_save_any parse edit F b uri t tr tp ps sts s Hx Hs Hi Hdoc Htr Hd Hst) as (s' & e1 & H & Hr & Hf & Hk).
  exists s', e1. split; [exact H|]. split; [exact Hr|]. split; [exact Hf|].
  assert (Hsame : sget uri (ls_tt s') = Some tr /\ sget uri (ls_docs s') = Some t).
  { rewrite (did_save_relint T F b uri t s Hx Hs Hdoc) in H. destruct (delete_variables_docs uri s) as (D1 & D2 & _ & _).
    destruct (add_variables uri Template (encode t) (delete_variables uri s)) as [s3|] eqn:Ea; cbn [bind] in H; [|discriminate].
    destruct (read_tree F b uri s3) as [v|]; cbn [bind] in H; [|discriminate]. inversion H; subst.
    eapply after_add; [| |exact Ea]; [now rewrite D2|now rewrite D1]. }
  destruct Hsame as (A1 & A2). split; [constructor; auto|exact Hk].
Qed.

(** ** Diagnostics *)
Lemma reported_cases this any us es u : reported this any us es -> In u us ->
  verdict this any (snd (fst u)) (n_start (fst (fst u))) (n_end (fst (fst u))) None \/ exists k, In (k, use_id u) es.
Proof.
  induction 1 as [|v us es Hv _ IH|v us es d Hv _ IH]; intros H; [destruct H| |].
  - destruct H as [->|H]; [now left|auto].
  - destruct H as [->|H]; [right; exists d; now left|]. destruct (IH H) as [A|(k & A)]; [now left|right; exists k; now right].
Qed.
Lemma reported_verdict this any us es : reported this any us es -> forall k u, In (k, use_id u) es ->
  verdict this any (snd (fst u)) (n_start (fst (fst u))) (n_end (fst (fst u))) (Some k).
Proof.
  induction 1 as [|v us es Hv _ IH|v us es d Hv _ IH]; intros k u H; [destruct H|auto|]. destruct H as [E|H]; [|auto].
  pose proof (f_equal fst E) as E1. pose proof (f_equal (fun p => id_start (snd p)) E) as E2. pose proof (f_equal (fun p => id_end (snd p)) E) as E3. pose proof (f_equal (fun p => id_name (snd p)) E) as E4.
  cbn [fst snd use_id id_start id_end id_name] in E1, E2, E3, E4. rewrite <- E1, <- E2, <- E3, <- E4. exact Hv.
Qed.
Lemma flagged_unseen this any name s e k : verdict this any name s e (Some k) -> forall d, In d this -> means name d -> ~ seen_from s e d.
Proof. intros H. inversion H; subst; [intros d' Hd' Hm; auto| |]; intros d' Hd' Hm; exfalso; match goal with X : forall d, In d this -> ~ means name d |- _ => eapply X; eauto end. Qed.
Lemma missing_not_use F dir sts k u : ~ In (k, use_id u) (missing_reports F dir sts).
Proof. unfold missing_reports. intros H. apply in_map_iff in H. destruct H as (r & Er & _). unfold ref_id, use_id in Er. discriminate Er. Qed.

Section Diagnosed.
Variables (s : lsp_files T) (uri : string) (t : text) (tr : stree) (tp : tpl) (ps : list piece) (sts : list istmt) (F : fs) (dir : string) (e1 : errors) (any : string -> Prop).
Hypothesis Hsh : shown s uri t tr tp ps sts.
Notation ds := (tallied (n_end (s_node tr)) tp).
Hypothesis Hr : reported ds any (chains ps) e1.
Notation e := (e1 ++ missing_reports F dir sts).
Variables (h : tok) (fs : list access) (pos : position).
Hypothesis Hc : In (h, fs) (chains ps).
Notation cur := (point_of pos).

Lemma silent_seen : (forall k, ~ In (k, use_id (h, fs)) e) -> exists d, In d ds /\ means (snd h) d /\ seen_from (n_start (fst h)) (n_end (fst h)) d.
Proof.
  intros H. destruct (reported_cases _ _ _ _ (h, fs) Hr Hc) as [V|(k & V)]; [|exfalso; apply (H k); apply in_or_app; now left].
  inversion V; subst. eauto.
Qed.
Lemma reported_unseen k : In (k, use_id (h, fs)) e -> forall d, In d ds -> means (snd h) d -> ~ seen_from (n_start (fst h)) (n_end (fst h)) d.
Proof.
  intros H. apply in_app_or in H. destruct H as [H|H]; [|now apply missing_not_use in H]. exact (flagged_unseen _ _ _ _ _ _ (reported_verdict _ _ _ _ Hr _ _ H)).
Qed.
Lemma silent_goto G url b : cursor_on tr cur (fst h) -> (forall k, ~ In (k, use_id (h, fs)) e) ->
  exists d, latest (goto_sees cur (snd h)) ds d /\
    goto_definition G url b uri pos s = Ok (Some (GScalar (mkloc uri (lsp_range (dc_start d) (dc_end d))))).
Proof.
  intros Hon H. destruct (silent_seen H) as (d & Hd & (En & Ek) & Hs). eapply tree_goto; [exact Hsh|exact Hc|exact Hon|].
  exists d. split; [exact Hd|]. now apply (lint_goto _ _ _ _ _ _ _ (proj1 Hsh) h fs Hc d cur Hd Hon En Ek).
Qed.
Lemma reported_goto G url b k : cursor_on tr cur (fst h) -> In (k, use_id (h, fs)) e ->
  (exists d, latest (goto_sees cur (snd h)) ds d /\ dc_kind d = TemplateBlock /\
     goto_definition G url b uri pos s = Ok (Some (GScalar (mkloc uri (lsp_range (dc_start d) (dc_end d)))))) \/
  ((forall d, In d ds -> ~ goto_sees cur (snd h) d) /\
   (let here := filter (fun fv => heads (snd h) (id_name (snd fv))) (other_vars uri (ls_vars s)) in
    no_string_at tr cur -> Forall (fun fv => small_id (snd fv)) (other_vars uri (ls_vars s)) -> Forall (fun fv => url (target_name fv) <> None) here ->
    exists locs, goto_definition G url b uri pos s = Ok (Some (GArray locs)) /\ Forall2 (found url) here locs)).
Proof.
  intros Hon H. pose proof (reported_unseen k H) as Hun.
  assert (D : (exists d, In d ds /\ goto_sees cur (snd h) d) \/ forall d, In d ds -> ~ goto_sees cur (snd h) d).
  { clear. generalize ds. intros l. assert (Dec : forall d, goto_sees cur (snd h) d \/ ~ goto_sees cur (snd h) d).
    { intros d. unfold goto_sees. destruct (String.string_dec (dc_name d) (snd h)) as [E|E]; [|right; intuition].
      destruct (pt_leb (dc_start d) cur && pt_leb cur (dc_until d)) eqn:B; [left|right].
      - apply andb_true_iff in B. destruct B as (B1 & B2). auto using pt_leb_le.
      - intros (_ & H1 & H2). apply pt_le_leb in H1. apply pt_le_leb in H2. rewrite H1, H2 in B. discriminate. }
    induction l as [|d l IH]; [right; intros d []|]. destruct (Dec d) as [Y|N]; [left; exists d; split; [now left|exact Y]|].
    destruct IH as [(x & Hx & Y)|IH]; [left; exists x; split; [now right|exact Y]|right]. intros x [<-|Hx]; auto. }
  destruct D as [D|D].
  - left. destruct (tree_goto _ _ _ _ _ _ _ Hsh G url b h fs pos Hc Hon D) as (d & Hd & E). exists d. split; [exact Hd|]. split; [|exact E].
    destruct Hd as (Hin & Hs & _). destruct (itype_eqb (dc_kind d) TemplateBlock) eqn:Ek; [destruct (dc_kind d); try discriminate; reflexivity|exfalso].
    assert (Ek' : dc_kind d <> TemplateBlock) by (intros X; rewrite X in Ek; discriminate). pose proof (proj1 Hs) as En.
    apply (Hun d Hin (conj En Ek')). now apply (lint_goto _ _ _ _ _ _ _ (proj1 Hsh) h fs Hc d cur Hin Hon En Ek').
  - right. split; [exact D|]. intros here Hns Hsm Hu. eapply tree_goto_else; eauto.
Qed.
Lemma silent_hover b : cursor_on tr cur (fst h) -> (forall k, ~ In (k, use_id (h, fs)) e) -> (forall d, In d ds -> dc_start d <> n_start (fst h)) ->
  exists d, latest (hover_sees (n_start (fst h)) (snd h)) ds d /\ do_hover b uri pos s = Ok (Some (DocKind (kind_text (dc_kind d)))).
Proof.
  intros Hon H Hnd. destruct (silent_seen H) as (d & Hd & (En & Ek) & Hs).
  assert (Hh : hover_sees (n_start (fst h)) (snd h) d) by (apply (lint_hover _ _ _ _ _ _ _ (proj1 Hsh) h fs Hc d cur Hd Hon En Ek); auto).
  destruct (tree_hover _ _ _ _ _ _ _ Hsh b h [] fs pos Hc Hon) as (r & E & [(d' & Hl & ->)|[(Hn & _)|(Hn & _)]]); [|now destruct (Hn d Hd)|now destruct (Hn d Hd)].
  exists d'. auto.
Qed.
Lemma reported_hover b k : cursor_on tr cur (fst h) -> In (k, use_id (h, fs)) e ->
  ((exists fv, In fv (other_vars uri (ls_vars s)) /\ heads (snd h) (id_name (snd fv)) = true) /\ do_hover b uri pos s = Ok (Some (DocKind "Backend variable"))) \/
  ((forall fv, In fv (other_vars uri (ls_vars s)) -> heads (snd h) (id_name (snd fv)) = false) /\ do_hover b uri pos s = Ok None).
Proof.
  intros Hon H. pose proof (reported_unseen k H) as Hun.
  destruct (tree_hover _ _ _ _ _ _ _ Hsh b h [] fs pos Hc Hon) as (r & E & [(d & (Hd & Hl & _) & ->)|[(_ & Hf & ->)|(_ & Hf & ->)]]); [exfalso|left; auto|right; auto].
  pose proof (proj1 Hl) as En. pose proof (proj1 (proj2 Hl)) as Ek.
  destruct (proj2 (lint_hover _ _ _ _ _ _ _ (proj1 Hsh) h fs Hc d cur Hd Hon En Ek) Hl) as (Hs & _). exact (Hun d Hd (conj En Ek) Hs).
Qed.
End Diagnosed.

Lemma agrees (s : lsp_files T) uri t tr tp ps sts F dir e1 any : shown s uri t tr tp ps sts -> reported (tallied (n_end (s_node tr)) tp) any (chains ps) e1 ->
  forall h fs, In (h, fs) (chains ps) -> answers_agree s uri tr (tallied (n_end (s_node tr)) tp) (e1 ++ missing_reports F dir sts) h fs.
Proof.
  intros Hsh Hr h fs Hc G url b pos cur Hon. split.
  - intros H. split; [eapply silent_goto; eauto|]. intros Hd. eapply silent_hover; eauto.
  - intros k H. split; [eapply reported_goto; eauto|]. eapply reported_hover; eauto.
Qed.
Lemma open_agrees F b uri t tr tp ps sts (s : lsp_files T) :
  file_ext uri = Some Template -> scalars t -> ls_ignore s = false ->
  parse PJinja (encode t) (sget uri (ls_tt s)) = Some tr ->
  on_characters t tr -> depicts (encode t) tr tp ps sts -> well_placed tr -> plain_ends tp ->
  exists s' e, did_open F b uri t false s = Ok (s', Some [(uri, e)]) /\
    forall h fs, In (h, fs) (chains ps) -> answers_agree s' uri tr (tallied (n_end (s_node tr)) tp) e h fs.
Proof.
  intros H1 H2 H3 H4 H5 H6 H7 H8. destruct (open_shown F b uri t tr tp ps sts s H1 H2 H3 H4 H5 H6 H7 H8) as (s' & e1 & E & Hr & _ & Hsh).
  exists s'. eexists. split; [exact E|]. eapply agrees; eauto.
Qed.
Lemma save_agrees F b uri t tr tp ps sts (s : lsp_files T) :
  file_ext uri = Some Template -> scalars t -> ls_ignore s = false ->
  sget uri (ls_docs s) = Some t -> sget uri (ls_tt s) = Some tr ->
  on_characters t tr -> depicts (encode t) tr tp ps sts -> well_placed tr -> plain_ends tp ->
  exists s' e, did_save F b uri s = Ok (s', Some [(uri, e)]) /\
    forall h fs, In (h, fs) (chains ps) -> answers_agree s' uri tr (tallied (n_end (s_node tr)) tp) e h fs.
Proof.
  intros H1 H2 H3 H4 H5 H6 H7 H8 H9. destruct (save_shown F b uri t tr tp ps sts s H1 H2 H3 H4 H5 H6 H7 H8 H9) as (s' & e1 & E & Hr & _ & Hsh).
  exists s'. eexists. split; [exact E|]. eapply agrees; eauto.
Qed.

(** ** Completion between words *)
Lemma ordered_earlier ms : forall a a', pt_le a' a -> ordered a ms -> ordered a' ms.
Proof.
  induction ms as [|[n|n] ms IH]; intros a a' H Ho; [exact I| |].
  - destruct Ho as (H1 & H2). split; [eapply pt_le_trans'; eauto|exact H2].
  - cbn [ordered] in *. eapply IH; [|exact Ho]. unfold pt_max. destruct (pt_leb a' (n_start n)) eqn:E1, (pt_leb a (n_start n)) eqn:E2; try (right; split; lia).
    + apply Bool.not_true_iff_false in E2. assert (~ pt_le a (n_start n)) by (intros X; apply E2; now apply pt_le_leb). clear - H0. unfold pt_le in *. lia.
    + apply Bool.not_true_iff_false in E1. exfalso. apply E1. apply pt_le_leb. apply pt_leb_le in E2. eapply pt_le_trans'; eauto.
    + exact H.
Qed.
Definition mark_node (m : mark) : string * node -> Prop :=
  match m with MTok n => fun w => snd w = n /\ fst w <> "expression"%string | MExpr n => fun w => w = ("expression"%string, n) end.
Lemma mark_nodes p m : In m (marks p) -> exists w, In w (piece_nodes p) /\ mark_node m w.
Proof.
  assert (L : forall k n (l : list (string * node)), In (k, n) l -> k <> "expression"%string -> exists w, In w l /\ mark_node (MTok n) w).
  { intros k n l Hin Hk. exists (k, n). split; [exact Hin|]. split; [reflexivity|exact Hk]. }
  destruct p as [n|h fs|q name|kw nots name|t|t]; cbn [marks piece_nodes]; intros H.
  - destruct H as [<-|[]]. exists ("expression"%string, n). split; [now left|reflexivity].
  - destruct H as [<-|H]; [eapply L; [now left|discriminate]|]. apply in_flat_map in H. destruct H as (a & Ha & [<-|[<-|[]]]).
    + apply (L "operator"%string); [|discriminate]. right. apply in_flat_map. exists a. split; [exact Ha|now left].
    + apply (L "identifier"%string); [|discriminate]. right. apply in_flat_map. exists a. split; [exact Ha|right; now left].
  - destruct H as [<-|[<-|[]]]; [apply (L "operator"%string)|apply (L "identifier"%string)]; cbn; auto; discriminate.
  - destruct H as [<-|H]; [apply (L "keyword"%string); [now left|discriminate]|]. apply in_app_or in H. destruct H as [H|[<-|[]]].
    + apply in_map_iff in H. destruct H as (t & <- & Ht). apply (L "identifier"%string); [|discriminate]. right. apply in_or_app. left. apply in_map_iff. exists t. auto.
    + apply (L "identifier"%string); [|discriminate]. right. apply in_or_app. right. now left.
  - destruct H as [<-|[]]. apply (L "identifier"%string); [now left|discriminate].
  - destruct H as [<-|[]]. apply (L "operator"%string); [now left|discriminate].
Qed.
Lemma marks_end_before cur ms : Forall (fun m => match m with MTok n => pt_lt (n_end n) cur | MExpr n => pt_lt (n_start n) cur end) ms ->
  forall a, pt_lt a cur -> pt_lt (marks_end a ms) cur.
Proof.
  unfold marks_end. induction 1 as [|m ms Hm _ IH]; intros a Ha; [exact Ha|]. cbn [fold_left]. apply IH. destruct m as [n|n]; cbn [mark_end]; [exact Hm|].
  unfold pt_max. destruct (pt_leb a (n_start n)); auto.
Qed.
Lemma between_ends cur src ps1 ps2 : pieces_ok src (ps1 ++ ps2) -> between cur ps1 ps2 ->
  (exists p, ends_before src ps1 p /\ pt_lt p cur) /\ before_all cur (cap_pieces ps2).
Proof.
  intros (Hok & p0 & Hp0 & Hord) (H01 & Hpass & Hnext). apply Forall_app in Hok. destruct Hok as (Hok & _). split.
  - exists (marks_end (mkpt 0 1) (flat_map marks ps1)). split.
    + split; [exact Hok|]. exists (mkpt 0 1). split; [right; cbn; lia|]. split; [|right; split; lia].
      rewrite flat_map_app in Hord. apply ordered_app in Hord. destruct Hord as (Hord & _). eapply ordered_earlier; [|exact Hord].
      clear - Hp0. unfold pt_le, pt_lt, pt0 in *. cbn in *. lia.
    + apply marks_end_before; [|exact H01]. apply Forall_forall. intros m Hm. apply in_flat_map in Hm. destruct Hm as (p & Hp & Hm).
      destruct (mark_nodes _ _ Hm) as (w & Hw & Mw). rewrite Forall_forall in Hpass. assert (Pw : passed cur w) by (apply Hpass; apply in_flat_map; exists p; auto).
      unfold passed in Pw. destruct m as [n|n]; cbn [mark_node] in Mw.
      * destruct Mw as (<- & Nw). apply String.eqb_neq in Nw. now rewrite Nw in Pw.
      * subst w. exact Pw.
  - clear Hord. destruct ps2 as [|p ps2]; [exact I|]. cbn [cap_pieces flat_map] in *. destruct p as [n|h fs|q name|kw nots name|t|t]; exact Hnext.
Qed.
Lemma known_complete s uri t tr tp ps1 ps2 sts b pos ctx ds :
  @displayed parse edit s uri t tr tp (ps1 ++ ps2) sts -> knows s uri ds -> ctx = Some TkInvoked \/ ctx = Some TkTriggerCharacter ->
  between (point_of pos) ps1 ps2 -> SpecObjects.inside ps1 (point_of pos) ->
  exists items, do_completion b uri pos ctx s = Ok (Some (map RItem items)) /\
    variables_offered s uri ds (point_of pos) EmptyString range0 items.
Proof.
  intros Hsh Hk Hctx Hb Hin. pose proof (depicts_parsed parse edit _ _ _ _ _ (sh_depicts _ _ _ _ _ _ _ Hsh)) as Hpa.
  pose proof (objects_are _ _ _ _ _ _ _ Hsh) as Ho. pose proof (pieces_are _ _ _ _ _ _ _ Hsh) as Hp.
  destruct (between_ends _ _ _ _ Hp Hb) as ((p & He & Hlt) & Hba). unfold cap_pieces in Ho. rewrite flat_map_app in Ho.
  destruct (complete_gap b _ _ _ _ _ p He Hlt Ho Hba) as (st & Q & O & _). destruct (O Hin) as (a & Ha).
  eapply do_completion_variables; [exact Hk| |left; split; reflexivity].
  eapply completion_in_template; [exact Hctx|exact (sh_kind _ _ _ _ _ _ _ Hsh)|exact (sh_tree _ _ _ _ _ _ _ Hsh)|exact (sh_doc _ _ _ _ _ _ _ Hsh)| |exact Q|exact Ha].
  intros n (b0 & c & a0 & E & Ec & _). exfalso. pose proof (pd_clean _ _ _ _ _ _ Hpa) as Hcl. rewrite (content _ _ _ _ _ _ _ Hsh) in E.
  change (t_captures (ts_with parse edit)) with (t_captures T) in E. rewrite E in Hcl. apply Forall_app in Hcl. destruct Hcl as (_ & Hcl). inversion Hcl; subst. contradiction.
Qed.
Lemma tree_complete s uri t tr tp ps1 ps2 sts b pos ctx :
  @shown parse edit s uri t tr tp (ps1 ++ ps2) sts -> ctx = Some TkInvoked \/ ctx = Some TkTriggerCharacter ->
  between (point_of pos) ps1 ps2 -> SpecObjects.inside ps1 (point_of pos) ->
  exists items, do_completion b uri pos ctx s = Ok (Some (map RItem items)) /\
    variables_offered s uri (tallied (n_end (s_node tr)) tp) (point_of pos) EmptyString range0 items.
Proof. intros (Hsh & Hk). exact (known_complete _ _ _ _ _ _ _ _ _ _ _ _ Hsh Hk). Qed.
End Tree.
