(** * PQueries2: templates given as syntax trees. *)
From Verif Require Import Base RString Utf8 Types Captures MDefinition MObjects MQueries.
From Verif Require Import SpecScope SpecScope2 SpecObjects SpecObjects2 SpecLint SpecQueries PQueries.

(** ** Keywords are told apart *)
Definition kw_of (s : sign) : list N :=
  match s with SgWord DkDef n | SgWord DkScope n => [n_id n] | _ => [] end.
Lemma heard_kws src l ms :
  heard src l ms -> NoDup (ids l) -> NoDup (flat_map kw_of ms) /\ incl (flat_map kw_of ms) (ids l).
Proof.
  induction 1 as [|t k r ss Hh _ IH|t r ss Hh _ IH]; intros Hn; [split; [constructor|intros x []]| |]; cbn [ids map] in *; apply NoDup_cons_iff in Hn; destruct Hn as (Hx & Hn); destruct (IH Hn) as (A & B).
  - cbn [flat_map]. split.
    + destruct k; cbn [kw_of app]; auto; constructor; auto.
    + intros x Hi. apply in_app_or in Hi. destruct Hi as [Hi|Hi]; [|right; now apply B].
      left. destruct k; cbn in Hi; tauto.
  - split; [exact A|]. intros x Hi. right. now apply B.
Qed.
Lemma NoDup_parts {A} (a b c d : list A) :
  NoDup (a ++ b) -> NoDup c -> NoDup d -> incl c a -> incl d b -> NoDup (c ++ d).
Proof.
  intros H Hc Hd Ic Id. destruct (NoDup_app_parts _ _ H) as (_ & _ & X). clear H.
  induction c as [|x c IH]; [exact Hd|]. apply NoDup_cons_iff in Hc. destruct Hc as (Hx & Hc). cbn [app]. constructor.
  - intros Hi. apply in_app_or in Hi. destruct Hi as [Hi|Hi]; [auto|]. apply (X x); [apply Ic; cbn; auto|now apply Id].
  - apply IH; auto. intros y Hy. apply Ic. cbn. auto.
Qed.
Lemma told_kws src items ss :
  told src items ss -> NoDup (ids (flat_map preorder items)) ->
  NoDup (flat_map kw_of ss) /\ incl (flat_map kw_of ss) (ids (flat_map preorder items)).
Proof.
  induction 1 as [|n b mid e f1 f2 r ms ss Hin Hh _ IH|t r ms ss Hin Hh _ IH]; intros Hn; [split; [constructor|intros x []]| |]; cbn [flat_map] in *; rewrite ids_app in *;
    destruct (NoDup_app_parts _ _ Hn) as (N1 & N2 & _); destruct (IH N2) as (B1 & B2).
  - set (t := SN "statement" n _) in *.
    assert (Et : preorder t = [t; SN "statement_begin" b []] ++ flat_map (fun c => preorder (snd c)) mid ++ [SN "statement_end" e []]).
    { unfold t at 1. cbn [preorder flat_map snd app]. rewrite flat_map_app. reflexivity. }
    assert (M : NoDup (ids (flat_map (fun c => preorder (snd c)) mid)) /\ incl (ids (flat_map (fun c => preorder (snd c)) mid)) (ids (preorder t))).
    { rewrite Et in N1 |- *. rewrite !ids_app in *. apply NoDup_app_parts in N1. destruct N1 as (_ & N1 & _). apply NoDup_app_parts in N1. destruct N1 as (N1 & _).
      split; [exact N1|]. intros x Hx. apply in_or_app. right. apply in_or_app. auto. }
    destruct M as (M1 & M2). destruct (heard_kws src _ ms Hh M1) as (A1 & A2).
    rewrite flat_map_app. cbn [flat_map kw_of app]. split.
    + eapply NoDup_parts; [exact Hn|exact A1|exact B1| |exact B2]. intros x Hx. apply M2. now apply A2.
    + apply incl_app; intros x Hx; apply in_or_app; [left; apply M2; now apply A2|right; now apply B2].
  - destruct (heard_kws src _ ms Hh N1) as (A1 & A2). rewrite flat_map_app. split.
    + eapply NoDup_parts; eauto.
    + apply incl_app; intros x Hx; apply in_or_app; auto.
Qed.
Lemma signs_kws tp : flat_map kw_of (signs tp) = keyword_ids tp.
Proof.
  assert (N : forall es, flat_map kw_of (map noise_sign es) = ifs es).
  { induction es as [|e es IH]; [reflexivity|]. cbn [map flat_map]. rewrite IH. unfold ifs. destruct e; reflexivity. }
  assert (I : forall ts : list tok, flat_map kw_of (map (fun t => SgWord DkId (fst t)) ts) = []).
  { induction ts as [|e es IH]; [reflexivity|]. cbn [map flat_map]. rewrite IH. reflexivity. }
  assert (B : forall bs, flat_map kw_of (flat_map bind_signs bs) = ifs (flat_map snd bs)).
  { induction bs as [|(x, es) bs IH]; [reflexivity|]. cbn [flat_map]. rewrite flat_map_app, IH. unfold ifs. rewrite flat_map_app. f_equal.
    unfold bind_signs. cbn [flat_map fst snd kw_of app]. apply N. }
  assert (H : forall h, flat_map kw_of (header_signs h) = header_kw h :: ifs (header_es h)).
  { intros [| | | |]; cbn [header_signs flat_map header_kw header_es kw_of app]; rewrite ?flat_map_app, ?N, ?I, ?B; reflexivity. }
  assert (E : forall et, flat_map kw_of (end_signs et) = ifs (et_es et)).
  { intros et. unfold end_signs. cbn [flat_map kw_of app]. rewrite flat_map_app, N. cbn. apply app_nil_r. }
  induction tp; cbn [signs keyword_ids flat_map]; rewrite ?flat_map_app; cbn [flat_map kw_of app]; rewrite ?flat_map_app, ?N, ?H, ?E; cbn [flat_map kw_of app]; rewrite ?flat_map_app, ?E; try congruence.
  all: repeat match goal with X : flat_map _ (signs _) = _ |- _ => rewrite X; clear X end; cbn [app]; rewrite <- ?app_assoc; reflexivity.
Qed.
Lemma items_of k n ch : preorder (SN k n ch) = [SN k n ch] ++ flat_map preorder (map snd ch).
Proof. cbn [preorder app]. f_equal. induction ch as [|c ch IH]; [reflexivity|]. cbn [map flat_map]. now f_equal. Qed.
Lemma depicts_distinct src t tp ps sts : depicts src t tp ps sts -> distinct_nodes tp.
Proof.
  intros H. destruct H. destruct t as [k n ch]. cbn [s_children] in *. unfold told_apart in dp_apart. rewrite items_of in *.
  rewrite map_app in dp_apart. apply NoDup_app_parts in dp_apart. destruct dp_apart as (_ & A & _).
  destruct (told_kws _ _ _ dp_told A) as (B1 & B2). rewrite signs_kws in *. unfold distinct_nodes. constructor; [|exact B1].
  intros X. apply B2 in X. apply Forall_app in dp_ids. destruct dp_ids as (_ & Y). rewrite Forall_forall in Y.
  unfold ids in X. apply in_map_iff in X. destruct X as (x & E & Hx). now apply (Y x).
Qed.

(** ** Statements are told apart *)
Lemma linked_ids src items sts :
  linked src items sts -> NoDup (ids (flat_map preorder items)) ->
  NoDup (map (fun s => n_id (stmt_node s)) sts) /\ incl (map (fun s => n_id (stmt_node s)) sts) (ids (flat_map preorder items)).
Proof.
  induction 1 as [|n b mid e f1 f2 r o sts Hin Hl _ IH|t r sts Hin _ IH]; intros Hn; [split; [constructor|intros x []]| |]; cbn [flat_map] in *; rewrite ids_app in *;
    destruct (NoDup_app_parts _ _ Hn) as (N1 & N2 & N3); destruct (IH N2) as (B1 & B2).
  - assert (E : forall s, o = Some s -> n_id (stmt_node s) = n_id n) by (intros s ->; inversion Hl; reflexivity).
    destruct o as [s|]; cbn [map].
    + rewrite (E s eq_refl). split.
      * constructor; [|exact B1]. intros X. apply B2 in X. apply (N3 _ (or_introl eq_refl) X).
      * intros x [<-|Hx]; [left; reflexivity|]. apply in_or_app. right. now apply B2.
    + split; [exact B1|]. intros x Hx. apply in_or_app. right. now apply B2.
  - split; [exact B1|]. intros x Hx. apply in_or_app. right. now apply B2.
Qed.

(** ** Snippets *)
Lemma in_ordering f xs ys m : In m (ordering f xs ys) -> In m (flat_map f xs).
Proof. unfold ordering. intros H. apply in_flat_map in H. destruct H as (y & _ & H). now apply filter_In in H. Qed.
Lemma snippets_at src t : s_kind t <> "ERROR"%string ->
  Forall (fun m => Forall (fun c => fst c <> "error_block"%string) (fst m)) (query_at JINJA_SNIPPETS src t).
Proof.
  intros He. unfold query_at, JINJA_SNIPPETS. cbn [flat_map]. rewrite app_nil_r. unfold pattern_at. cbn [p_alts p_preds rev app flat_map].
  rewrite !largest_leaf, !embed_leaf. cbn [embed_root]. rewrite embed_node. rewrite !(String.eqb_sym _ (s_kind t)).
  rewrite (proj2 (String.eqb_neq _ _) He). cbn [largest filter app].
  apply Forall_forall. intros m Hm. apply filter_In in Hm. destruct Hm as (Hm & _).
  repeat (apply in_app_or in Hm; destruct Hm as [Hm|Hm]).
  all: try match type of Hm with context [if ?c then _ else _] => destruct c; cbn in Hm end; try contradiction.
  all: destruct Hm as [<-|[]]; constructor; [discriminate|constructor].
Qed.
Lemma snippets_clean src t : no_error t ->
  Forall (fun c => c_name c <> CErrorBlock) (concat (captured JINJA_SNIPPETS src t)).
Proof.
  intros He. rewrite captured_concat, matches_ordering. apply Forall_forall. intros c Hc.
  apply in_map_iff in Hc. destruct Hc as (x & <- & Hx). apply in_concat in Hx. destruct Hx as (m & Hm & Hx).
  apply in_map_iff in Hm. destruct Hm as (em & <- & Hm). apply in_ordering in Hm. apply in_flat_map in Hm. destruct Hm as (y & Hy & Hm).
  unfold no_error in He. rewrite Forall_forall in He. pose proof (snippets_at src y (He y Hy)) as S. rewrite Forall_forall in S. pose proof (S em Hm) as S'.
  rewrite Forall_forall in S'. pose proof (S' x Hx) as N. destruct x as (nm, nd). cbn in N |- *.
  unfold cname_of. cbn [find fst snd].
  repeat (match goal with |- context [String.eqb nm ?k] => destruct (String.eqb_spec nm k) as [E|] end; cbn [snd]; [subst; first [discriminate|now elim N]|]).
  discriminate.
Qed.

Theorem depicts_parsed parse edit src t tp ps sts :
  depicts src t tp ps sts -> parsed (ts_with parse edit) t src tp ps sts.
Proof.
  intros H. pose proof (depicts_distinct _ _ _ _ _ H) as Hd. destruct H. destruct t as [k n ch]. cbn [s_children s_kind] in *.
  constructor; cbn [ts_with t_captures query_of]; auto.
  - now apply definitions_tpl.
  - destruct dp_pieces. now apply objects_pieces.
  - split; auto. unfold told_apart in dp_apart. rewrite items_of in *.
    rewrite map_app in dp_apart. apply NoDup_app_parts in dp_apart. destruct dp_apart as (_ & A & _). now apply (linked_ids src _ sts dp_linked).
  - now apply imports_stmts.
  - now apply snippets_clean.
Qed.
