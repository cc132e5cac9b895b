(** * PLint3: which paths linting and goto look at (C25, C26, C63). *)
From Verif Require Import Base RString Utf8 Rope Types Captures MDefinition MObjects MTemplates MSearchErrors MLspFiles.
From Verif Require Import SpecText SpecFiles SpecScope SpecObjects SpecLint PText PUtf8 PFiles PScope PScope2 PObjects PLint PLint2.

Lemma prefix_app p s : String.prefix p (p ++ s) = true.
Proof.
  induction p as [|a p IH]; [destruct s; reflexivity|]. cbn [append String.prefix].
  destruct (ascii_dec a a); [exact IH|easy].
Qed.
Lemma lookup_path_starts dir name : starts_with (lookup_path dir name) dir = true.
Proof.
  unfold starts_with, lookup_path. destruct (String.eqb dir "") eqn:E.
  - apply String.eqb_eq in E. subst. destruct (relative name); reflexivity.
  - destruct (ends_with_slash dir); apply prefix_app.
Qed.
Lemma lint_paths T F F' b tr src vars file dir lang ig :
  (forall p, starts_with p dir = true -> f_canon F p = f_canon F' p) ->
  search_errors T F b tr src vars file dir lang ig = search_errors T F' b tr src vars file dir lang ig.
Proof.
  intros H.
  assert (E : forall n, template_missing F dir n = template_missing F' dir n).
  { intros n. rewrite !template_missing_not_found. unfold not_found. rewrite H; [reflexivity|]. apply lookup_path_starts. }
  unfold search_errors. destruct lang.
  - destruct (objects_query b _ pt0 src true); [|reflexivity]. cbn [bind]. destruct (sget file vars); [|reflexivity].
    destruct (templates_query _ pt0 src true); [|reflexivity]. cbn [bind]. do 3 f_equal.
    unfold lint_templates. apply flat_map_ext. intros i. now rewrite E.
  - destruct (sget file vars); [|reflexivity]. do 2 f_equal. unfold lint_backend. apply flat_map_ext. intros i. now rewrite E.
Qed.

(** Names whose segments are all there. *)
Lemma filter_id {A} (f : A -> bool) l : Forall (fun x => f x = true) l -> filter f l = l.
Proof. induction 1 as [|x l H _ IH]; [reflexivity|]. cbn. now rewrite H, IH. Qed.
Lemma proper_relative name : ~ In EmptyString (split_char slash name) -> relative name = name.
Proof.
  intros H. unfold relative, segments. rewrite filter_id.
  - assert (He : ends_with_slash name = false).
    { pose proof (last_split name) as L.
      destruct (last_opt (split_char slash name)) as [x|] eqn:El.
      - destruct (String.eqb x "") eqn:Ex; [|destruct (String.eqb name ""), (ends_with_slash name); discriminate || reflexivity].
        apply String.eqb_eq in Ex. subst x. exfalso. apply H. clear -El.
        induction (split_char slash name) as [|y l IH]; [discriminate|]. rewrite last_opt_cons in El.
        destruct (last_opt l); [right; apply IH; congruence|left; congruence].
      - destruct (String.eqb name ""), (ends_with_slash name); discriminate || reflexivity. }
    rewrite He. cbn [andb]. rewrite append_nil_r. apply concat_split.
  - apply Forall_forall. intros x Hx. unfold non_empty. apply negb_true_iff. apply String.eqb_neq. intros ->. now apply H.
Qed.
Lemma goto_lint_path dir name :
  ~ In EmptyString (split_char slash name) -> path_push dir name = lookup_path dir name.
Proof.
  intros H. rewrite <- lookup_path_push, path_items_relative. now rewrite proper_relative.
Qed.

(** No [..]: below the directory. *)
Lemma split_app_no_slash x s : no_slash x -> split_char slash (x ++ String slash s) = x :: split_char slash s.
Proof.
  induction x as [|a x IH]; intros H; [reflexivity|]. cbn [append split_char].
  assert (Ascii.eqb a slash = false) as -> by (apply Ascii.eqb_neq; intros ->; apply H; now left).
  rewrite IH; [reflexivity|]. intros Hi. apply H. now right.
Qed.
Lemma split_no_slash_one x : no_slash x -> split_char slash x = [x].
Proof.
  induction x as [|a x IH]; intros H; [reflexivity|]. cbn [split_char].
  assert (Ascii.eqb a slash = false) as -> by (apply Ascii.eqb_neq; intros ->; apply H; now left).
  rewrite IH; [reflexivity|]. intros Hi. apply H. now right.
Qed.
Lemma split_concat l s : l <> [] -> Forall no_slash l ->
  (s = EmptyString \/ s = "/"%string) ->
  split_char slash (String.concat "/" l ++ s) = l ++ (if String.eqb s "" then [] else [EmptyString]).
Proof.
  induction l as [|x l IH]; intros Hl HF Hs; [easy|]. inversion HF as [|? ? H1 H2]; subst.
  destruct l as [|y l].
  - cbn [String.concat]. destruct Hs as [->| ->]; cbn [String.eqb].
    + rewrite append_nil_r. now apply split_no_slash_one.
    + change "/"%string with (String slash EmptyString). rewrite split_app_no_slash by exact H1. reflexivity.
  - rewrite concat_cons by discriminate. rewrite !append_assoc.
    change ("/" ++ ?z)%string with (String slash z). rewrite split_app_no_slash by exact H1.
    rewrite IH by (assumption || discriminate). reflexivity.
Qed.
Lemma stays_no_dotdot l : forall n, ~ In ".."%string l -> stays n l = true.
Proof.
  induction l as [|x l IH]; intros n H; [reflexivity|]. cbn [stays].
  destruct (String.eqb x "..") eqn:E; [apply String.eqb_eq in E; subst; exfalso; apply H; now left|].
  assert (H' : ~ In ".."%string l) by (intros Hi; apply H; now right).
  destruct (String.eqb x "" || String.eqb x "."); now apply IH.
Qed.
Lemma lookup_below dir name : no_dotdot name -> below dir (lookup_path dir name).
Proof.
  intros H. exists (relative name). split; [apply relative_not_absolute|]. split; [|reflexivity].
  unfold relative. pose proof (filter_non_empty _ (split_no_slash name)) as Hf. fold (segments name) in Hf.
  destruct (segments name) as [|x l] eqn:Es.
  - rewrite andb_false_r. reflexivity.
  - rewrite split_concat.
    + apply stays_no_dotdot. intros Hi. apply in_app_or in Hi. destruct Hi as [Hi|Hi].
      * apply H. rewrite <- Es in Hi. unfold segments in Hi. now apply filter_In in Hi.
      * destruct (String.eqb _ ""); [destruct Hi|]. destruct Hi as [Hi|[]]. discriminate.
    + discriminate.
    + eapply Forall_impl; [|exact Hf]. now intros ? (_ & ?).
    + destruct (ends_with_slash name && _); auto.
Qed.
Lemma lint_below T F F' b tr src vars file dir ig this ps sts :
  (forall p, below dir p -> f_canon F p = f_canon F' p) ->
  pieces_ok src ps -> concat (t_captures T QObjects tr src) = cap_pieces ps ->
  stmts_ok src sts -> t_captures T QImports tr src = flat_map cap_stmt sts ->
  Forall (fun r : sref => no_dotdot (snd r)) (flat_map refs sts) ->
  sget file vars = Some this ->
  search_errors T F b tr src vars file dir Template ig = search_errors T F' b tr src vars file dir Template ig.
Proof.
  intros H Hps Ho Hst Hi Hn Hf.
  destruct (templates_exact src _ pt0 sts Hst Hi) as (cur & l & Q).
  rewrite !(search_errors_template T _ b tr src vars file dir ig this ps _ Hps Ho Q Hf).
  unfold imports_collect. cbn [im_imports]. rewrite !lint_templates_refs. do 4 f_equal.
  rewrite Forall_forall in Hn. apply filter_ext_in. intros r Hr. unfold missing, not_found.
  rewrite H; [reflexivity|]. apply lookup_below. now apply Hn.
Qed.
