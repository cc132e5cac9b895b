(** * PNav4: hover and completion agree with linting (C33). *)
From Verif Require Import Base RString Utf8 Rope Types Captures.
From Verif Require Import MDefinition MObjects MTemplates MSearchErrors MLspFiles MLspTask.
From Verif Require Import SpecText SpecFiles SpecScope SpecObjects SpecLint SpecNav.
From Verif Require Import PText PObjects PLint PLint2 PLint3 POrder PNav PNav2 PNav3.

(** A use with a good verdict is in no report. *)
Lemma fine_not_reported ds any us es u : reported ds any us es ->
  verdict ds any (snd (fst u)) (n_start (fst (fst u))) (n_end (fst (fst u))) None ->
  forall k, ~ In (k, use_id u) es.
Proof.
  intros R V k. induction R as [|w us es Hw _ IH|w us es d Hw _ IH]; [intros []|exact IH|].
  intros [E|E]; [|exact (IH E)]. inversion E as [[Ek E1 E2 E3 E4]].
  unfold tok in *. rewrite E1, E2, E3 in Hw. pose proof (verdict_unique _ _ _ _ _ _ _ Hw V). discriminate.
Qed.

Lemma lint_templates_type F dir ids k i : In (k, i) (lint_templates F dir ids) -> id_type i = JinjaTemplate.
Proof.
  unfold lint_templates. intros H. apply in_flat_map in H. destruct H as (j & _ & H).
  destruct (itype_eqb (id_type j) JinjaTemplate) eqn:E; [|destruct H].
  assert (id_type j = JinjaTemplate) by (destruct (id_type j); easy).
  destruct (String.eqb _ _); [destruct H as [H|[]]; inversion H; now subst|].
  destruct (template_missing _ _ _); [destruct H as [H|[]]; inversion H; now subst|destruct H].
Qed.

Section Agree.
Context {T : ts}.
Implicit Types st : lsp_files T.

Lemma lint_fine F b st uri tr src dir ps tail ds u :
  pieces_ok src ps -> concat (t_captures T QObjects tr src) = cap_pieces ps ++ tail -> stops tail ->
  Forall (fun c => utf8_text (c_node c) src <> Panic) (concat (t_captures T QImports tr src)) ->
  knows st uri ds ->
  verdict ds (indexed (ls_vars st)) (snd (fst u)) (n_start (fst (fst u))) (n_end (fst (fst u))) None ->
  exists es, search_errors T F b tr src (ls_vars st) uri dir Template false = Ok (Some es) /\ forall k, ~ In (k, use_id u) es.
Proof.
  intros Hps Ho Hs Hi Hk V. unfold knows in Hk. destruct (sget uri (ls_vars st)) as [this|] eqn:Ev; [|discriminate].
  cbn in Hk. inversion Hk; subst ds.
  destruct (templates_query_ok _ pt0 _ Hi) as (imps & Ei). eexists.
  split; [exact (search_errors_until T F b tr src (ls_vars st) uri dir false this ps tail imps Hps Ho Hs Ei Ev)|].
  intros k H. apply in_app_or in H. destruct H as [H|H].
  - exact (fine_not_reported _ _ _ _ _ (lint_uses (ls_vars st) this ps) V k H).
  - apply lint_templates_type in H. discriminate.
Qed.

Lemma hover_agrees F b st uri pos tr t pre h fs1 fs2 post ds dir k :
  let src := rope_content t in
  let tp := point_of pos in
  let ps := pre ++ PChain h (fs1 ++ fs2) :: post in
  holds st uri tr t -> knows st uri ds -> Forall wf_decl ds ->
  pieces_ok src ps -> concat (t_captures T QObjects tr src) = cap_pieces ps ->
  Forall (fun c => utf8_text (c_node c) src <> Panic) (concat (t_captures T QImports tr src)) ->
  on_tok tp (segment h fs1) -> Forall (behind tp) (cap_pieces post) -> all_small (cap_pieces ps) ->
  pt_le (n_start (fst h)) (n_end (fst h)) ->
  (forall d, In d ds -> dc_name d = snd h -> dc_until d <> n_start (fst h)) ->
  do_hover b uri pos st = Ok (Some (DocKind k)) ->
  k <> "Backend variable"%string \/
    (forall fv, In fv (other_vars uri (ls_vars st)) -> heads (snd h) (id_name (snd fv)) = false) ->
  exists es, search_errors T F b tr src (ls_vars st) uri dir Template false = Ok (Some es) /\
    forall e, ~ In (e, use_id (h, fs1 ++ fs2)) es.
Proof.
  intros src tp ps Hh Hk Hw Hps Ho Hi Hon Hb Hsm Hse Hst Hhov Hloc.
  destruct (hover_exact b st uri pos tr t pre h fs1 fs2 post ds Hh Hk Hps Ho Hon Hb Hsm) as (r & Er & Ha).
  rewrite Hhov in Er. inversion Er; subst r.
  apply lint_fine with (ps := ps) (tail := []) (ds := ds); auto; [now rewrite app_nil_r|now left|].
  cbn [fst snd]. destruct Ha as [(d & (Hd & Hsee & _) & _)|[(_ & (fv & F1 & F2) & E)|(_ & _ & E)]].
  - apply hover_then_fine with (d := d); auto; [now apply (Forall_forall wf_decl ds)|].
    pose proof Hsee as (N & _ & _ & L). specialize (Hst d Hd N). revert L Hst. clear.
    destruct (dc_until d) as [r1 c1], (n_start (fst h)) as [r2 c2]. unfold pt_le, pt_lt. cbn. intros L H.
    destruct L as [L|(-> & L)]; [now left|]. right. split; [reflexivity|].
    assert (c1 <> c2) by congruence. lia.
  - inversion E. subst k. destruct Hloc as [Hl|Hl]; [easy|]. rewrite (Hl fv F1) in F2. discriminate.
  - discriminate.
Qed.

Lemma completion_agrees F b st uri pos ctx tr src ps tail h fs ds dir ct a typed r items i :
  knows st uri ds -> Forall wf_decl ds ->
  pieces_ok src ps -> concat (t_captures T QObjects tr src) = cap_pieces ps ++ tail -> stops tail ->
  Forall (fun c => utf8_text (c_node c) src <> Panic) (concat (t_captures T QImports tr src)) ->
  on_tok (point_of pos) h ->
  (forall d, In d ds -> dc_name d = snd h -> dc_until d <> n_start (fst h)) ->
  completion b uri pos ctx st = Ok (Some (ct, a)) ->
  (ct = CtIdentifier /\ typed = EmptyString) \/ ct = CtIncompleteIdentifier typed r ->
  do_completion b uri pos ctx st = Ok (Some (map RItem items)) ->
  In i items -> ci_label i = snd h -> ci_detail i <> Some "Backend variable"%string ->
  exists es, search_errors T F b tr src (ls_vars st) uri dir Template false = Ok (Some es) /\
    forall e, ~ In (e, use_id (h, fs)) es.
Proof.
  intros Hk Hw Hps Ho Hs Hi (On1 & On2) Hst Hc Hct Hd Hin Hl Hn.
  destruct (do_completion_variables b st uri pos ctx ds ct a Hk Hc typed r Hct) as (items' & D & V).
  rewrite D in Hd. inversion Hd as [Em]. assert (items' = items) as ->.
  { clear - Em. revert items Em. induction items' as [|x l IH]; intros [|y m] H; inversion H; f_equal; auto. }
  destruct V as (local & back & -> & _ & _ & Hloc & _ & _ & _ & Hback).
  apply lint_fine with (ps := ps) (tail := tail) (ds := ds); auto. cbn [fst snd].
  apply in_app_or in Hin. destruct Hin as [Hin|Hin].
  - rewrite Forall_forall in Hloc. destruct (Hloc _ Hin) as (d & Hd1 & Hoff & Hp & _).
    apply completion_then_fine with (tp := point_of pos) (d := d); auto; [now apply (Forall_forall wf_decl ds)|congruence|].
    assert (N : dc_name d = snd h) by congruence. specialize (Hst d Hd1 N).
    destruct Hoff as (_ & _ & _ & L). revert On1 L Hst. clear.
    destruct (dc_until d) as [r1 c1], (n_start (fst h)) as [r2 c2], (point_of pos) as [r3 c3].
    unfold pt_le, pt_lt. cbn. intros A B H.
    destruct (N.eq_dec r1 r2) as [->|]; [|left; lia]. right. split; [reflexivity|].
    assert (c1 <> c2) by congruence. lia.
  - exfalso. clear - Hback Hin Hn.
    assert (Hall : Forall (fun fv => is_backend fv = true) (filter is_backend (all_vars (ls_vars st)))).
    { apply Forall_forall. intros x Hx. now apply filter_In in Hx. }
    induction Hback as [|x y l l' Hxy _ IH]; [exact Hin|]. inversion Hall; subst.
    destruct Hin as [->|Hin]; [|auto]. destruct Hxy as ((_ & Hdet & _) & _).
    unfold is_backend in *. cbn in Hdet. destruct (id_type (snd x)); try discriminate. contradiction.
Qed.
End Agree.

(** Where a name reported as defined elsewhere is defined (C72). *)
Lemma elsewhere_or_block T F b tr src vars file dir lang ig es i ids :
  search_errors T F b tr src vars file dir lang ig = Ok (Some es) -> In (DefinedSomewhere, i) es ->
  NoDup (map fst vars) -> sget file vars = Some ids ->
  (exists fv, In fv (other_vars file vars) /\ id_name (snd fv) = id_name i) \/
  (exists v, In v ids /\ id_name v = id_name i /\ id_type v = TemplateBlock).
Proof.
  intros E Hin Hn Hg. unfold search_errors in E. destruct lang.
  2:{ rewrite Hg in E. inversion E; subst es. pose proof (lint_backend_kind F dir ids) as K. rewrite Forall_forall in K.
      specialize (K _ Hin). discriminate. }
  destruct (objects_query _ _ _ _ _) as [objs|]; [|discriminate]. cbn [bind] in E. rewrite Hg in E.
  destruct (templates_query _ _ _ _) as [imps|]; [|discriminate]. cbn [bind] in E. inversion E; subst es. clear E.
  apply in_app_or in Hin. destruct Hin as [Hin|Hin].
  2:{ pose proof (lint_templates_kind F dir (imports_collect imps)) as K. rewrite Forall_forall in K.
      specialize (K _ Hin). discriminate. }
  apply in_flat_map in Hin. destruct Hin as (o & _ & Hin). unfold lint_object in Hin.
  destruct (o_is_filter o || o_is_test o); [destruct Hin|].
  destruct (filter (same_name o) ids) as [|c cs] eqn:Ec.
  - cbn [filter andb] in Hin. destruct ig; [destruct Hin|].
    destruct (defined_somewhere vars o) eqn:Ed; destruct Hin as [Hin|[]]; inversion Hin; subst i. clear Hin.
    unfold defined_somewhere in Ed. apply existsb_exists in Ed. destruct Ed as ((f & vs) & Hf & Ed).
    apply existsb_exists in Ed. destruct Ed as (v & Hv & Ev). apply String.eqb_eq in Ev. cbn [snd] in Hv.
    destruct (String.eqb_spec f file) as [->|Hne].
    + right. rewrite (In_sget _ _ _ Hn Hf) in Hg. inversion Hg; subst vs. exists v. split; [exact Hv|]. split; [exact Ev|].
      destruct (itype_eqb (id_type v) TemplateBlock) eqn:Et; [destruct (id_type v); easy|].
      assert (In v (filter (same_name o) ids)) as Hc; [|rewrite Ec in Hc; destruct Hc].
      apply filter_In. split; [exact Hv|]. unfold same_name. rewrite Ev, Et, String.eqb_refl. reflexivity.
    + left. exists (f, v). split; [|exact Ev]. unfold other_vars. apply in_flat_map. exists (f, vs).
      split; [apply filter_In; split; [exact Hf|cbn; now apply negb_true_iff, String.eqb_neq]|cbn; now apply in_map].
  - destruct (filter (visible_at o) (c :: cs)); [|destruct Hin]. cbn [andb] in Hin. destruct ig; [destruct Hin|].
    destruct Hin as [Hin|[]]. discriminate.
Qed.
