(** * PNode: proofs about the Node binding. *)
From Verif Require Import Base RString Utf8 Rope Types Captures.
From Verif Require Import MDefinition MObjects MTemplates MSearchErrors MLspFiles MLspTask MNode SpecNode.
From Verif Require Import SpecText SpecFiles SpecObjects SpecScope PUtf8 PText POrder PFiles PObjects PConfig.

Lemma last_opt_In {A} (l : list A) x : last_opt l = Some x -> In x l.
Proof.
  induction l as [|y l IH]; [discriminate|]. destruct l as [|z l]; [cbn; intros H; inversion H; auto|].
  intros H. right. apply IH. exact H.
Qed.
(** ** u32 arithmetic *)
Lemma as_u32_small x : x < 4294967296 -> as_u32 x = x.
Proof. intros H. unfold as_u32. now apply N.mod_small. Qed.
Lemma shift_place b n p : in_host n p -> shift_pos b (to_position2 p) n = Ok (place n p).
Proof.
  intros (H1 & H2). unfold shift_pos, to_position2, place. cbn [line character].
  rewrite !as_u32_small by lia. unfold u32_add, two32. destruct (N.ltb_spec (row p + n) 4294967296); [reflexivity|lia].
Qed.
Lemma unshift_lower b n p : unshift_pos b (lower n p) n = Ok p.
Proof.
  unfold unshift_pos, lower, u32_sub. cbn [line character]. destruct (N.leb_spec n (line p + n)); [|lia]. cbn.
  rewrite N.add_sub. now destruct p.
Qed.
Lemma unshift_0 b p : unshift_pos b p 0 = Ok p.
Proof. rewrite <- (unshift_lower b 0 p). unfold lower. rewrite N.add_0_r. now destruct p. Qed.
Lemma u32_add_step b x y n : u32_add b x 0 = Ok y -> y + n < 4294967296 -> u32_add b x n = Ok (y + n).
Proof.
  unfold u32_add, two32. rewrite N.add_0_r. destruct (N.ltb_spec x 4294967296).
  - intros E Hy. inversion E; subst. destruct (N.ltb_spec (y + n) 4294967296); [reflexivity|lia].
  - destruct b; intros E Hy; [discriminate|]. inversion E as [E']. subst y.
    destruct (N.ltb_spec (x + n) 4294967296); [lia|]. f_equal. rewrite N.add_mod by lia.
    rewrite (N.mod_small n) by lia. apply N.mod_small. lia.
Qed.
Lemma shift_pos_step b p q n : shift_pos b p 0 = Ok q -> line q + n < 4294967296 -> shift_pos b p n = Ok (lower n q).
Proof.
  unfold shift_pos. destruct (u32_add b (line p) 0) as [y|] eqn:E; cbn; [|discriminate]. intros H. inversion H; subst. cbn.
  intros Hy. rewrite (u32_add_step _ _ _ _ E Hy). reflexivity.
Qed.
Lemma shift_range_step b r q n : shift_range b r 0 = Ok q -> fits n q -> shift_range b r n = Ok (lower_range n q).
Proof.
  unfold shift_range. destruct (shift_pos b (rstart r) 0) as [s|] eqn:E1; cbn; [|discriminate].
  destruct (shift_pos b (rend r) 0) as [e|] eqn:E2; cbn; [|discriminate]. intros H. inversion H; subst. intros (H1 & H2).
  cbn in *. now rewrite (shift_pos_step _ _ _ _ E1 H1), (shift_pos_step _ _ _ _ E2 H2).
Qed.

Section Node.
Context {T : ts}.
Implicit Types s : node_state T.

(** ** C49 *)
Lemma variables_placed b id n s vs :
  sget id (ls_vars (nd_files s)) = Some vs ->
  Forall (fun v => in_host n (id_start v) /\ in_host n (id_end v)) vs ->
  get_variables b id n s =
    Ok (Some (map (fun v => mkjs (place n (id_start v)) (place n (id_end v)) (id_name v) (JsOf (id_type v))) vs)).
Proof.
  intros E H. unfold get_variables. rewrite E.
  assert (K : js_vars b n vs = Ok (map (fun v => mkjs (place n (id_start v)) (place n (id_end v)) (id_name v) (JsOf (id_type v))) vs)).
  { clear E. induction H as [|v vs (H1 & H2) _ IH]; [reflexivity|]. cbn [js_vars map].
    now rewrite (shift_place b n _ H1), (shift_place b n _ H2), IH. }
  now rewrite K.
Qed.

Lemma hover_lowered url b id f n pos s v r :
  node_hover url b id f 0 pos s = Ok (Some (v, r)) -> fits n r ->
  node_hover url b id f n (lower n pos) s = Ok (Some (v, lower_range n r)).
Proof.
  unfold node_hover. rewrite unshift_0, unshift_lower. cbn [bind]. destruct (url _) as [uri|]; [|discriminate].
  destruct (hover b uri pos (nd_files s)) as [[(i & ct)|]|]; cbn [bind]; try discriminate.
  set (rg := mkrange _ _). destruct (shift_range b rg 0) as [r0|] eqn:E; cbn [bind]; [|discriminate].
  intros H Hf. assert (r0 = r).
  { destruct ct; [destruct (str_mem (id_name i) filter_names); inversion H; auto|..];
      (destruct (data_type uri i (nd_files s)); [|discriminate]; destruct (find _ _); inversion H; auto). }
  subst r0. rewrite (shift_range_step _ _ _ _ E Hf). cbn [bind].
  destruct ct; [destruct (str_mem (id_name i) filter_names); inversion H; auto|..];
    (destruct (data_type uri i (nd_files s)); [|discriminate]; destruct (find _ _); inversion H; auto).
Qed.
Lemma hover_lowered_none url b id f n pos s uri :
  url (home_url f id "jinja") = Some uri -> hover b uri pos (nd_files s) = Ok None ->
  node_hover url b id f n (lower n pos) s = Ok None.
Proof. intros Hu Hh. unfold node_hover. now rewrite unshift_lower, Hu; cbn [bind]; rewrite Hh. Qed.
Lemma hover_range url b id f n pos s uri i ct :
  url (home_url f id "jinja") = Some uri -> hover b uri pos (nd_files s) = Ok (Some (i, ct)) ->
  in_host n (id_start i) -> in_host n (id_end i) ->
  exists o, node_hover url b id f n (lower n pos) s = Ok o /\
    forall v r, o = Some (v, r) -> r = mkrange (place n (id_start i)) (place n (id_end i)).
Proof.
  intros Hu Hh H1 H2. unfold node_hover. rewrite unshift_lower, Hu. cbn [bind]. rewrite Hh. cbn [bind].
  unfold shift_range. cbn [rstart rend]. rewrite (shift_place b n _ H1), (shift_place b n _ H2). cbn [bind].
  destruct ct; [destruct (str_mem (id_name i) filter_names)|..];
    try (destruct (data_type uri i (nd_files s)); [destruct (find _ _)|]); eexists; (split; [reflexivity|]); intros v0 r0 E; inversion E; reflexivity.
Qed.

Lemma complete_lowered url b id f n pos s items :
  node_complete url b id f 0 pos s = Ok (Some items) -> items <> [] -> Forall (item_fits n) items ->
  node_complete url b id f n (lower n pos) s = Ok (Some (map (lower_item n) items)).
Proof.
  unfold node_complete. rewrite unshift_0, unshift_lower. cbn [bind]. destruct (url _) as [uri|]; [|discriminate].
  destruct (completion b uri pos (Some TkTriggerCharacter) (nd_files s)) as [[(ct & au)|]|]; cbn [bind]; try discriminate.
  destruct ct; try discriminate.
  - intros H _ _. assert (items = map JsFilter filter_names) by congruence. subst items. now rewrite map_map.
  - destruct (read_variables uri pos None None (nd_files s)) as [vs|]; [|discriminate]. intros H _ _. inversion H; subst.
    rewrite map_app, !map_map. reflexivity.
  - destruct (shift_range b r 0) as [q|] eqn:E; cbn [bind]; [|discriminate].
    destruct (get_variable name f temp_key (nd_files s)) as [vs|]; [|discriminate]. intros H Hn Hf. inversion H; subst.
    destruct vs as [|v vs]; [now elim Hn|]. inversion Hf as [|? ? H1 _]; subst. cbn in H1.
    rewrite (shift_range_step _ _ _ _ E H1). cbn [bind]. rewrite map_map. reflexivity.
Qed.

Lemma goto_array_lowered url b n ls : forall rs, node_goto_array url b 0 ls = Ok rs ->
  Forall (fun l => fits n (jl_range l)) rs -> node_goto_array url b n ls = Ok (map (lower_location n) rs).
Proof.
  induction ls as [|l ls IH]; intros rs H Hf; cbn [node_goto_array] in *; [inversion H; reflexivity|].
  destruct (contains (loc_uri l) "temp"); [|auto]. destruct (url (loc_uri l)) as [u|]; [|discriminate].
  destruct (shift_range b (loc_range l) 0) as [q|] eqn:E; cbn [bind] in *; [|discriminate].
  destruct (node_goto_array url b 0 ls) as [more|]; cbn [bind] in *; [|discriminate]. inversion H; subst.
  inversion Hf as [|? ? H1 H2]; subst. cbn in H1. rewrite (shift_range_step _ _ _ _ E H1). cbn [bind].
  now rewrite (IH more eq_refl H2).
Qed.
Lemma goto_lowered F url b id f n pos s ls :
  node_goto F url b id f 0 pos s = Ok (Some ls) -> Forall (fun l => fits n (jl_range l)) ls ->
  node_goto F url b id f n (lower n pos) s = Ok (Some (map (lower_location n) ls)).
Proof.
  unfold node_goto. rewrite unshift_0, unshift_lower. cbn [bind]. destruct (url _) as [uri|]; [|discriminate].
  destruct (goto_definition F url b uri pos (nd_files s)) as [[[l|l]|]|]; cbn [bind]; try discriminate.
  - destruct (contains (loc_uri l) f); [|intros H _; inversion H; reflexivity].
    destruct (url f) as [u|]; [|discriminate]. destruct (shift_range b (loc_range l) 0) as [q|] eqn:E; cbn [bind]; [|discriminate].
    intros H Hf. inversion H; subst. inversion Hf as [|? ? H1 _]; subst. cbn in H1.
    now rewrite (shift_range_step _ _ _ _ E H1).
  - destruct (node_goto_array url b 0 l) as [rs|] eqn:E; cbn [bind]; [|discriminate]. intros H Hf. inversion H; subst.
    now rewrite (goto_array_lowered _ _ _ _ _ E Hf).
Qed.

Lemma above_panics F url id f n pos s : line pos < n ->
  node_hover url Debug id f n pos s = Panic /\ node_complete url Debug id f n pos s = Panic /\
  node_goto F url Debug id f n pos s = Panic.
Proof.
  intros H. unfold node_hover, node_complete, node_goto, unshift_pos, u32_sub.
  destruct (N.leb_spec n (line pos)); [lia|]. now cbn.
Qed.

(** Everything the query sees ends above the cursor: no hover. *)
Definition low (R : N) (s : jobjects) : Prop :=
  row (snd (os_ident s)) < R /\ Forall (fun o => row (last_field_end o) < R) (os_objects s).
Lemma last_field_end_add o f : last_field_end (obj_add_field f o) = snd (snd f).
Proof. unfold last_field_end, obj_add_field. cbn. now rewrite last_opt_snoc. Qed.
Lemma update_last_Forall {A} (P : A -> Prop) f (l : list A) : Forall P l -> (forall x, P (f x)) -> Forall P (update_last f l).
Proof.
  intros H Hf. induction H as [|x l H1 H2 IH]; [constructor|]. cbn. destruct l; [constructor; auto|constructor; auto].
Qed.
Lemma low_check R src (s : jobjects) c (s' : jobjects) a : low R s -> row (n_end (c_node c)) < R -> obj_check src s c = Ok (s', a) -> low R s'.
Proof.
  intros (H1 & H2) Hc H. unfold obj_check in H.
  destruct (c_name c); try (inversion H; subst; split; assumption).
  - unfold build_object in H. destruct (utf8_text (c_node c) src) as [[v|]|]; cbn [bind] in H; [|inversion H; subst; split; assumption|discriminate].
    assert (Hnew : forall (s1 : jobjects) x, new_object s v (n_start (c_node c)) (n_end (c_node c)) = (s1, x) -> low R s1).
    { intros s1 x E. unfold new_object in E. destruct (str_mem v valid_identifiers); inversion E; subst; split; cbn; auto.
      apply Forall_app. split; [exact H2|]. constructor; [|constructor]. exact Hc. }
    destruct (new_object s v (n_start (c_node c)) (n_end (c_node c))) as [s1 x] eqn:En.
    destruct (_ && _).
    + destruct (os_objects s) as [|o os] eqn:Eo; cbn [bind fst snd] in H; inversion H; subst.
      * eapply Hnew; eauto.
      * split; cbn [os_ident os_objects]; [exact Hc|]. change (Forall (fun o => row (last_field_end o) < R) (update_last (obj_add_field (v, (n_start (c_node c), n_end (c_node c)))) (o :: os))). apply update_last_Forall; [exact H2|]. intros y.
        rewrite last_field_end_add. exact Hc.
    + cbn [bind fst snd] in H. inversion H; subst. eapply Hnew; eauto.
  - destruct (utf8_text (c_node c) src) as [[v|]|]; cbn [bind] in H; [|inversion H; subst; split; assumption|discriminate].
    destruct (starts_with v "|"); inversion H; subst; split; assumption.
Qed.
Lemma low_run R b src tp cs : (forall c, In c cs -> row (n_end (c_node c)) < R /\ row (n_start (c_node c)) < R)%N ->
  R <= row tp ->
  forall l l', low R (l_objs l) -> run (obj_step b src tp false) l cs = Ok l' -> low R (l_objs l').
Proof.
  intros Hc Hr. induction cs as [|c cs IH]; intros l l' Hl H; cbn [run] in H; [inversion H; subst; exact Hl|].
  destruct (Hc c (or_introl eq_refl)) as (C1 & C2).
  assert (E : pt_leb (n_start (c_node c)) tp = true).
  { unfold pt_leb. destruct (N.ltb_spec (row (n_start (c_node c))) (row tp)); [reflexivity|lia]. }
  unfold obj_step at 1 in H. rewrite E in H. cbn [orb] in H.
  destruct (obj_check src (l_objs l) c) as [[s1 a]|] eqn:Eo; cbn [bind fst snd] in H; [|discriminate].
  pose proof (low_check R src _ _ _ _ Hl C1 Eo) as Hl1.
  destruct a; cbn [is_some] in H; [|inversion H; subst; exact Hl1].
  eapply IH; [intros c' Hc'; apply Hc; now right| |exact H]. exact Hl1.
Qed.
Lemma hover_below b uri pos (st : lsp_files T) :
  (forall tr t c, sget uri (ls_tt st) = Some tr -> sget uri (ls_docs st) = Some t ->
     In c (concat (t_captures T QObjects tr (rope_content t))) ->
     row (n_start (c_node c)) < line pos /\ row (n_end (c_node c)) < line pos) ->
  line pos < 4294967296 -> 0 < line pos ->
  hover b uri pos st = Ok None \/ hover b uri pos st = Panic.
Proof.
  intros Hc Hl Hp. unfold hover. destruct (file_ext uri) as [[|]|]; auto.
  destruct (sget uri (ls_tt st)) as [tr|] eqn:Et; auto. destruct (sget uri (ls_docs st)) as [t|] eqn:Ed; auto.
  unfold objects_query. destruct (run _ oloop0 _) as [l|] eqn:Er; cbn [bind]; [|auto]. left.
  apply (low_run (line pos)) in Er; [|intros c Hi; destruct (Hc _ _ c eq_refl eq_refl Hi); auto|cbn; lia|split; [exact Hp|constructor]].
  replace (is_hover (l_objs l) (point_of pos)) with false; [reflexivity|]. destruct Er as (E1 & E2). symmetry.
  unfold is_hover. apply orb_false_iff. split.
  - apply andb_false_iff. right. unfold pt_leb, point_of. cbn [row col].
    destruct (N.ltb_spec (line pos) (row (snd (os_ident (l_objs l))))); [lia|].
    destruct (N.eqb_spec (line pos) (row (snd (os_ident (l_objs l))))); [lia|]. reflexivity.
  - unfold os_full_range, to_range2. destruct (last_opt (os_objects (l_objs l))) as [o|] eqn:El.
    + apply andb_false_iff. right. apply last_opt_In in El. rewrite Forall_forall in E2. specialize (E2 _ El).
      unfold obj_full_range, to_range, to_position2, to_point, point_of, pt_leb. cbn [fst snd rend line character row col].
      rewrite as_u32_small by lia.
      destruct (N.ltb_spec (line pos) (row (last_field_end o))); [lia|].
      destruct (N.eqb_spec (line pos) (row (last_field_end o))); [lia|]. reflexivity.
    + apply andb_false_iff. right. unfold range0, to_point, point_of, pt_leb. cbn.
      destruct (N.ltb_spec (line pos) 0); [lia|]. destruct (N.eqb_spec (line pos) 0); [lia|]. reflexivity.
Qed.
Lemma above_misses url id f n pos s uri :
  url (home_url f id "jinja") = Some uri -> line pos < n -> n < 4294967296 ->
  (forall tr t c, sget uri (ls_tt (nd_files s)) = Some tr -> sget uri (ls_docs (nd_files s)) = Some t ->
     In c (concat (t_captures T QObjects tr (rope_content t))) ->
     row (n_start (c_node c)) < line pos + (4294967296 - n) /\ row (n_end (c_node c)) < line pos + (4294967296 - n)) ->
  node_hover url Release id f n pos s = Ok None \/ node_hover url Release id f n pos s = Panic.
Proof.
  intros Hu Hl Hn Hc. unfold node_hover, unshift_pos, u32_sub. destruct (N.leb_spec n (line pos)); [lia|]. cbn [bind]. rewrite Hu.
  unfold two32. replace (line pos + 4294967296 - n) with (line pos + (4294967296 - n)) by lia.
  destruct (hover_below Release uri (mkpos (line pos + (4294967296 - n)) (character pos)) (nd_files s)) as [->| ->]; cbn [line bind]; auto; lia.
Qed.
Lemma above_misses_none url id f n pos s uri :
  url (home_url f id "jinja") = Some uri -> line pos < n -> n < 4294967296 ->
  (forall tr t c, sget uri (ls_tt (nd_files s)) = Some tr -> sget uri (ls_docs (nd_files s)) = Some t ->
     In c (concat (t_captures T QObjects tr (rope_content t))) ->
     text_ok (rope_content t) c /\ (c_name c = CPipe -> n_start (c_node c) <> pt0) /\
     row (n_start (c_node c)) < line pos + (4294967296 - n) /\ row (n_end (c_node c)) < line pos + (4294967296 - n)) ->
  node_hover url Release id f n pos s = Ok None.
Proof.
  intros Hu Hl Hn Hc. unfold node_hover, unshift_pos, u32_sub. destruct (N.leb_spec n (line pos)); [lia|]. cbn [bind]. rewrite Hu.
  unfold two32. replace (line pos + 4294967296 - n) with (line pos + (4294967296 - n)) by lia.
  assert (Hh : hover Release uri (mkpos (line pos + (4294967296 - n)) (character pos)) (nd_files s) <> Panic).
  { unfold hover. destruct (file_ext uri) as [[]|]; try discriminate.
    destruct (sget uri (ls_tt (nd_files s))) as [tr|] eqn:Et; [|discriminate].
    destruct (sget uri (ls_docs (nd_files s))) as [t|] eqn:Ed; [|discriminate].
    edestruct (objects_query_no_panic Release (t_captures T QObjects tr (rope_content t))) as (o & Eo); cycle 2.
    - rewrite Eo. cbn [bind]. destruct (is_hover _ _); [|discriminate]. destruct (get_last_id _); discriminate.
    - apply Forall_forall. intros c0 K. now apply (Hc tr t c0 eq_refl eq_refl).
    - apply Forall_forall. intros c0 K. now apply (Hc tr t c0 eq_refl eq_refl). }
  destruct (hover_below Release uri (mkpos (line pos + (4294967296 - n)) (character pos)) (nd_files s)) as [E|E]; cbn [line bind]; auto; try lia.
  - intros tr t c0 A B K. cbn [line]. destruct (Hc tr t c0 A B K) as (_ & _ & K1 & K2). auto.
  - now rewrite E.
  - congruence.
Qed.

End Node.

(** ** C50: dotted names *)
Lemma split_undotted c : forall s, undotted s = true -> c = dot -> split_char c s = [s].
Proof.
  induction s as [|a s IH]; intros H Hc; [reflexivity|]. unfold undotted in H. cbn in H. apply andb_true_iff in H.
  destruct H as (H1 & H2). subst c. apply negb_true_iff in H1. cbn [split_char]. unfold dot at 1. rewrite H1. now rewrite (IH H2 eq_refl).
Qed.
Lemma split_cons_dot s r : undotted s = true -> split_char dot (s ++ String dot r)%string = s :: split_char dot r.
Proof.
  induction s as [|a s IH]; intros H; [reflexivity|]. unfold undotted in H. cbn in H. apply andb_true_iff in H.
  destruct H as (H1 & H2). apply negb_true_iff in H1. cbn [String.append split_char]. unfold dot at 1. rewrite H1. now rewrite (IH H2).
Qed.
Lemma split_concat segs : segs <> [] -> forallb undotted segs = true -> split_char dot (String.concat "." segs) = segs.
Proof.
  induction segs as [|x segs IH]; [congruence|]. intros _ H. cbn in H. apply andb_true_iff in H. destruct H as (H1 & H2).
  destruct segs as [|y segs].
  - cbn. now apply split_undotted.
  - change (String.concat "." (x :: y :: segs)) with (x ++ String dot (String.concat "." (y :: segs)))%string.
    rewrite (split_cons_dot _ _ H1). f_equal. apply IH; [discriminate|exact H2].
Qed.
Lemma split_nonempty c s : split_char c s <> [].
Proof. destruct s as [|a s]; cbn; [discriminate|]. destruct (Ascii.eqb a c); [discriminate|]. destruct (split_char c s); discriminate. Qed.
Lemma concat_split s : String.concat "." (split_char dot s) = s /\ forallb undotted (split_char dot s) = true.
Proof.
  induction s as [|a s (IH1 & IH2)]; [split; reflexivity|]. cbn [split_char].
  destruct (Ascii.eqb a dot) eqn:E.
  - apply Ascii.eqb_eq in E. subst a. split; [|cbn; exact IH2]. pose proof (split_nonempty dot s) as Hn.
    destruct (split_char dot s) as [|x l]; [congruence|].
    change (String.concat "." (EmptyString :: x :: l)) with (String "." (String.concat "." (x :: l))). now rewrite IH1.
  - pose proof (split_nonempty dot s) as Hn. destruct (split_char dot s) as [|x l]; [congruence|]. split.
    + destruct l as [|y l]; [cbn in *; congruence|].
      change (String.concat "." (String a x :: y :: l)) with (String a (String.concat "." (x :: y :: l))). now rewrite IH1.
    + cbn [forallb] in *. apply andb_true_iff in IH2. destruct IH2 as (I1 & I2). rewrite I2, andb_true_r.
      unfold undotted in *. cbn [list_ascii_of_string forallb]. unfold dot in E. now rewrite E, I1.
Qed.
Lemma ao_eqb_eq a c : ao_eqb a c = true <-> a = c.
Proof.
  revert c. induction a as [|x a IH]; intros [|y c]; cbn; try (split; congruence).
  rewrite andb_true_iff, String.eqb_eq, IH. split; [intros (-> & ->); reflexivity|intros E; inversion E; auto].
Qed.
Lemma ao_names segs a : segs <> [] -> ao_eqb (ao_of_action a) segs = names_chain segs a.
Proof.
  intros Hn. unfold names_chain, ao_of_action. destruct (ao_eqb (split_char dot (na_name a)) segs) eqn:E.
  - apply ao_eqb_eq in E. subst segs. destruct (concat_split (na_name a)) as (-> & ->). now rewrite String.eqb_refl.
  - symmetry. apply andb_false_iff. destruct (String.eqb_spec (na_name a) (String.concat "." segs)) as [Es|]; [right|now left].
    destruct (forallb undotted segs) eqn:Eu; [|reflexivity]. exfalso. rewrite Es, (split_concat _ Hn Eu) in E.
    assert (ao_eqb segs segs = true) by now apply ao_eqb_eq. congruence.
Qed.
Lemma ao_same a p : ao_eqb (ao_of_action a) (ao_of_py p) = String.eqb (na_name a) (py_field p).
Proof.
  unfold ao_of_action, ao_of_py. destruct (String.eqb_spec (na_name a) (py_field p)) as [E|E].
  - rewrite E. now apply ao_eqb_eq.
  - destruct (ao_eqb _ _) eqn:K; [|reflexivity]. apply ao_eqb_eq in K. elim E.
    rewrite <- (proj1 (concat_split (na_name a))), K. apply concat_split.
Qed.
Lemma links_repeat b n st en name segs (sel : naction -> bool) acts :
  in_host n st -> in_host n en -> (forall a, ao_eqb (ao_of_action a) segs = sel a) ->
  links_of b n st en name segs (map ao_of_action acts) = Ok (times (mkjs (place n st) (place n en) name JsLink) sel acts).
Proof.
  intros H1 H2 Hs. induction acts as [|a acts IH]; [reflexivity|]. cbn [map links_of]. unfold times in *. cbn [filter].
  rewrite Hs. destruct (sel a); [|exact IH]. unfold link_id. rewrite (shift_place b n _ H1), (shift_place b n _ H2). cbn [bind].
  rewrite IH. reflexivity.
Qed.
Lemma chain_end_last o : last_field_end o = chain_end o.
Proof.
  unfold last_field_end, chain_end. generalize (snd (o_loc o)). induction (o_fields o) as [|f l IH]; intros d; [reflexivity|].
  destruct l as [|g l]; [reflexivity|]. cbn [map]. specialize (IH d). cbn [map] in IH. exact IH.
Qed.
Lemma obj_links_exact b n acts os :
  Forall (fun o => in_host n (fst (o_loc o)) /\ in_host n (chain_end o)) os ->
  obj_links b n (map ao_of_action acts) os =
  Ok (flat_map (fun o => times (use_link n o) (names_chain (segments o)) acts) os).
Proof.
  induction 1 as [|o os (H1 & H2) _ IH]; [reflexivity|]. cbn [obj_links flat_map]. rewrite chain_end_last.
  rewrite (links_repeat b n _ _ _ _ (names_chain (segments o)) acts H1 H2) by (intros a; apply ao_names; discriminate).
  cbn [bind]. rewrite IH. reflexivity.
Qed.
Lemma py_links_exact b n acts ps :
  Forall (fun p => in_host n (py_start p) /\ in_host n (py_end p)) ps ->
  py_links b n (map ao_of_action acts) ps =
  Ok (flat_map (fun p => times (py_link n p) (fun a => String.eqb (na_name a) (py_field p)) acts) ps).
Proof.
  induction 1 as [|p ps (H1 & H2) _ IH]; [reflexivity|]. cbn [py_links flat_map].
  rewrite (links_repeat b n _ _ _ _ (fun a => String.eqb (na_name a) (py_field p)) acts H1 H2) by (intros a; apply ao_same).
  cbn [bind]. rewrite IH. reflexivity.
Qed.


Section Hints.
Context {T : ts}.
Implicit Types s : node_state T.

(** ** Histories *)
Lemma sget_sremove_same {V} k (m : smap V) : sget k (sremove k m) = None.
Proof.
  unfold sget, sremove, hm_remove. induction m as [|(k' & v) m IH]; [reflexivity|]. cbn.
  destruct (String.eqb k k') eqn:E; cbn; [exact IH|now rewrite E].
Qed.
Lemma sget_sremove_other {V} k k' (m : smap V) : k <> k' -> sget k (sremove k' m) = sget k m.
Proof.
  intros H. unfold sget, sremove, hm_remove. induction m as [|(k2 & v) m IH]; [reflexivity|]. cbn.
  destruct (String.eqb_spec k' k2); cbn; [subst; destruct (String.eqb_spec k k2); [congruence|exact IH]|].
  destruct (String.eqb k k2); [reflexivity|exact IH].
Qed.
Lemma node_do_hints F url b o s s' key : node_do F url b o s = Ok s' ->
  sget key (nd_actions s') = match sets o with Some (k, v) => if String.eqb k key then v else sget key (nd_actions s) | None => sget key (nd_actions s) end /\
  (sget key (nd_objs s) = option_map (map ao_of_action) (sget key (nd_actions s)) ->
   sget key (nd_objs s') = option_map (map ao_of_action) (sget key (nd_actions s'))).
Proof.
  assert (Hins : forall a k, sget key (sinsert k a (nd_actions s)) = (if String.eqb k key then Some a else sget key (nd_actions s)) /\
    (sget key (nd_objs s) = option_map (map ao_of_action) (sget key (nd_actions s)) ->
     sget key (sinsert k (map ao_of_action a) (nd_objs s)) = option_map (map ao_of_action) (sget key (sinsert k a (nd_actions s))))).
  { intros a k. destruct (String.eqb_spec k key) as [->|Hk].
    - rewrite !sget_sinsert_same. auto.
    - rewrite !sget_sinsert_other by congruence. auto. }
  destruct o as [u [a|]|[a|] h|h|f|id f c l e k]; cbn [node_do sets add_link_hints save_link_hint remove_temp_link_hint delete_all];
    intros H;
    try (inversion H; subst; cbn [nd_actions nd_objs]; first [exact (Hins _ _) | now split]; fail).
  - inversion H; subst. unfold remove_temp_link_hint. cbn [nd_actions nd_objs]. change (hint_key h) with (key_of h).
    destruct (String.eqb_spec (key_of h) key) as [->|Hk].
    + rewrite !sget_sremove_same. auto.
    + rewrite !sget_sremove_other by congruence. auto.
  - destruct (add_one F url b id f c l e k s) as [[s2 ls]|] eqn:E; cbn [bind fst] in H; [|discriminate]. inversion H; subst.
    assert (nd_actions s' = nd_actions s /\ nd_objs s' = nd_objs s) as (-> & ->); [|auto].
    unfold add_one in E. destruct (url _) as [uri|]; [|discriminate].
    destruct (did_open F b uri _ true (nd_files s)) as [[fl d]|]; cbn [bind fst] in E; [|discriminate].
    destruct (String.eqb e "jinja").
    { destruct (read_objects b uri _) as [os|]; cbn [bind] in E; [|discriminate].
      destruct os as [os|]; [|inversion E; subst; auto]. cbn [nd_objs] in E.
      destruct (sget temp_key (nd_objs s)) as [acts|]; [|inversion E; subst; auto].
      destruct (obj_links b l acts os); cbn [bind] in E; [|discriminate]. inversion E; subst; auto. }
    destruct (String.eqb e "py").
    { destruct (read_python_ids uri _) as [os|]; cbn [bind] in E; [|discriminate].
      destruct os as [os|]; [|inversion E; subst; auto]. cbn [nd_objs] in E.
      destruct (sget temp_key (nd_objs s)) as [acts|]; [|inversion E; subst; auto].
      destruct (py_links b l acts os); cbn [bind] in E; [|discriminate]. inversion E; subst; auto. }
    inversion E; subst; auto.
Qed.
Lemma node_run_hints F url b key os : forall s s', node_run F url b os s = Ok s' ->
  sget key (nd_objs s) = option_map (map ao_of_action) (sget key (nd_actions s)) ->
  sget key (nd_actions s') =
    fold_left (fun r o => match sets o with Some (k, v) => if String.eqb k key then v else r | None => r end) os (sget key (nd_actions s)) /\
  sget key (nd_objs s') = option_map (map ao_of_action) (sget key (nd_actions s')).
Proof.
  induction os as [|o os IH]; intros s s' H Ho; cbn [node_run fold_left] in *; [inversion H; subst; auto|].
  destruct (node_do F url b o s) as [s1|] eqn:E; cbn [bind] in H; [|discriminate].
  destruct (node_do_hints F url b o s s1 key E) as (E1 & E2). rewrite <- E1. apply IH; auto.
Qed.
Lemma node_hints F url b os s key : node_run F url b os (node_new T) = Ok s ->
  sget key (nd_actions s) = registered key os /\
  sget key (nd_objs s) = option_map (map ao_of_action) (registered key os).
Proof.
  intros H. destruct (node_run_hints F url b key os _ _ H eq_refl) as (E1 & E2). rewrite E2, E1. auto.
Qed.

Lemma spaces_repeat n : spaces n = repeat 32 n.
Proof. induction n; cbn; congruence. Qed.
Lemma did_open_doc F b uri t ig (s s' : lsp_files T) d l : file_ext uri = Some l -> did_open F b uri t ig s = Ok (s', d) ->
  sget uri (ls_docs s') = Some t.
Proof.
  intros El H. unfold did_open in H. rewrite El in H.
  set (s2 := set_docs (sinsert uri t (ls_docs (delete_variables uri s))) (delete_variables uri s)) in H.
  assert (D2 : sget uri (ls_docs s2) = Some t).
  { unfold s2. destruct (delete_variables uri s). cbn. apply sget_sinsert_same. }
  assert (D3 : sget uri (ls_docs (add_tree uri l (encode t) s2)) = Some t).
  { unfold add_tree. destruct (parse s2 l (encode t) _); [|exact D2]. now rewrite set_trees_docs. }
  destruct (add_variables uri l (encode t) (add_tree uri l (encode t) s2)) as [s3|] eqn:Ea; cbn [bind] in H; [|discriminate].
  assert (D4 : sget uri (ls_docs s3) = Some t).
  { rewrite <- D3. f_equal. clear H D2 D3. unfold add_variables in Ea. destruct (sget uri (trees_of l _)); [|inversion Ea; reflexivity].
    destruct l.
    - destruct (snippets_query _ _ _) as [sn|]; cbn [bind] in Ea; [|discriminate]. destruct (sn_error sn); [inversion Ea; reflexivity|].
      destruct (definition_query _ _ _ _ _); cbn [bind] in Ea; [|discriminate]. inversion Ea. reflexivity.
    - destruct (backend_definition_query _ _ _ _); cbn [bind] in Ea; [|discriminate].
      destruct (backend_templates_query _ _ _ _); cbn [bind] in Ea; [|discriminate]. inversion Ea. reflexivity. }
  destruct ig; [inversion H; subst; exact D4|].
  destruct (read_tree F b uri s3) as [[v|]|]; cbn [bind] in H; inversion H; subst; exact D4.
Qed.

Lemma links_exact F url b os s id f content n k s' links uri objs :
  node_run F url b os (node_new T) = Ok s -> url (home_url f id "jinja") = Some uri -> file_ext uri = Some Template ->
  add_one F url b id f content n "jinja" k s = Ok (s', links) ->
  read_objects b uri (nd_files s') = Ok (Some objs) ->
  Forall (fun o => in_host n (fst (o_loc o)) /\ in_host n (chain_end o)) objs ->
  sget uri (ls_docs (nd_files s')) = Some (repeat 32 (N.to_nat (match k with Some c => c | None => 0 end)) ++ content) /\
  links = flat_map (fun o => times (use_link n o) (names_chain (segments o)) (temporary os)) objs.
Proof.
  intros Hr Hu Hx H Ho Hh. unfold add_one in H. rewrite Hu in H.
  destruct (did_open F b uri _ true (nd_files s)) as [[fl d]|] eqn:Ed; cbn [bind fst] in H; [|discriminate].
  pose proof (did_open_doc _ _ _ _ _ _ _ _ _ Hx Ed) as Hd. rewrite spaces_repeat in Hd. cbn [String.eqb] in H.
  change (String.eqb "jinja" "jinja") with true in H. cbn iota in H. cbn [nd_files nd_objs] in H.
  destruct (node_hints F url b os s temp_key Hr) as (_ & Hg). rewrite Hg in H. change temp_key with "temp"%string in H.
  destruct (read_objects b uri fl) as [os0|] eqn:Er; cbn [bind] in H; [|discriminate].
  assert (Hf : nd_files s' = fl).
  { destruct os0 as [os0|]; [|inversion H; reflexivity]. destruct (registered "temp" os); cbn [option_map] in H; [|inversion H; reflexivity].
    destruct (obj_links _ _ _ _); cbn [bind] in H; [|discriminate]. inversion H. reflexivity. }
  rewrite Hf in *. split; [exact Hd|]. rewrite Er in Ho. inversion Ho; subst os0. unfold temporary.
  destruct (registered "temp" os) as [acts|]; cbn [option_map] in H.
  - rewrite (obj_links_exact b n acts objs Hh) in H. cbn [bind] in H. now inversion H.
  - inversion H. clear. induction objs as [|o objs IH]; [reflexivity|exact IH].
Qed.
Lemma py_links_all F url b os s id f content n k s' links uri ids l :
  node_run F url b os (node_new T) = Ok s -> url (home_url f id "py") = Some uri -> file_ext uri = Some l ->
  add_one F url b id f content n "py" k s = Ok (s', links) ->
  read_python_ids uri (nd_files s') = Ok (Some ids) ->
  Forall (fun p => in_host n (py_start p) /\ in_host n (py_end p)) ids ->
  sget uri (ls_docs (nd_files s')) = Some (repeat 32 (N.to_nat (match k with Some c => c | None => 0 end)) ++ content) /\
  links = flat_map (fun p => times (py_link n p) (fun a => String.eqb (na_name a) (py_field p)) (temporary os)) ids.
Proof.
  intros Hr Hu Hx H Ho Hh. unfold add_one in H. rewrite Hu in H.
  destruct (did_open F b uri _ true (nd_files s)) as [[fl d]|] eqn:Ed; cbn [bind fst] in H; [|discriminate].
  pose proof (did_open_doc _ _ _ _ _ _ _ _ _ Hx Ed) as Hd. rewrite spaces_repeat in Hd.
  change (String.eqb "py" "jinja") with false in H. change (String.eqb "py" "py") with true in H. cbn iota in H. cbn [nd_files nd_objs] in H.
  destruct (node_hints F url b os s temp_key Hr) as (_ & Hg). rewrite Hg in H. change temp_key with "temp"%string in H.
  destruct (read_python_ids uri fl) as [os0|] eqn:Er; cbn [bind] in H; [|discriminate].
  assert (Hf : nd_files s' = fl).
  { destruct os0 as [os0|]; [|inversion H; reflexivity]. destruct (registered "temp" os); cbn [option_map] in H; [|inversion H; reflexivity].
    destruct (py_links _ _ _ _); cbn [bind] in H; [|discriminate]. inversion H. reflexivity. }
  rewrite Hf in *. split; [exact Hd|]. rewrite Er in Ho. inversion Ho; subst os0. unfold temporary.
  destruct (registered "temp" os) as [acts|]; cbn [option_map] in H.
  - rewrite (py_links_exact b n acts ids Hh) in H. cbn [bind] in H. now inversion H.
  - inversion H. clear. induction ids as [|o ids IH]; [reflexivity|exact IH].
Qed.

(** ** C51 *)
Lemma save_get b acts h n s : n < 4294967296 ->
  get_variables b (key_of h) n (save_link_hint (Some acts) h s) =
  Ok (Some (map (fun a => mkjs (mkpos n 0) (mkpos n 0) (na_name a) (JsOf BackendVariable)) acts)).
Proof.
  intros Hn. rewrite (variables_placed b (key_of h) n _ (hint_ids acts)).
  - unfold hint_ids. rewrite map_map. reflexivity.
  - cbn [save_link_hint nd_files]. destruct (nd_files s). cbn. apply sget_sinsert_same.
  - unfold hint_ids. apply Forall_forall. intros v Hv. apply in_map_iff in Hv. destruct Hv as (a & <- & _). unfold in_host. cbn. lia.
Qed.
Lemma ls_vars_set_vars m (s : lsp_files T) : ls_vars (set_vars m s) = m.
Proof. now destruct s. Qed.
Lemma save_other b acts h n k s : k <> key_of h -> get_variables b k n (save_link_hint acts h s) = get_variables b k n s.
Proof.
  intros Hk. unfold get_variables. destruct acts as [acts|]; [|reflexivity]. cbn [save_link_hint nd_files].
  rewrite ls_vars_set_vars. change (hint_key h) with (key_of h). now rewrite sget_sinsert_other.
Qed.
Lemma remove_get b h n k s :
  get_variables b k n (remove_temp_link_hint h s) = if String.eqb k (key_of h) then Ok None else get_variables b k n s.
Proof.
  unfold get_variables, remove_temp_link_hint. cbn [nd_files]. rewrite ls_vars_set_vars. change (hint_key h) with (key_of h).
  destruct (String.eqb_spec k (key_of h)) as [->|Hk]; [now rewrite sget_sremove_same|now rewrite sget_sremove_other].
Qed.

(** ** C52 *)
Lemma delete_fold (ids : list string) : forall (s : lsp_files T),
  let s' : lsp_files T := fold_left (fun (x : lsp_files T) u => delete_one u x) ids s in
  (forall k, sget k (ls_docs s') = (if existsb (String.eqb k) ids then None else sget k (ls_docs s)) /\
             sget k (ls_vars s') = (if existsb (String.eqb k) ids then None else sget k (ls_vars s)) /\
             sget k (ls_tt s') = (if existsb (String.eqb k) ids then None else sget k (ls_tt s))) /\
  ls_bt s' = ls_bt s /\ ls_config s' = ls_config s /\ ls_actions s' = ls_actions s /\ ls_parser s' = ls_parser s /\ ls_query s' = ls_query s.
Proof.
  induction ids as [|u ids IH]; intros s; cbn [fold_left existsb]; [auto 10|].
  destruct (IH (delete_one u s)) as (K & K1 & K2 & K3 & K4 & K5). split.
  - intros k. destruct (K k) as (A & B & C). rewrite A, B, C. unfold delete_one. lsimp.
    destruct (String.eqb_spec k u) as [->|Hk]; cbn [orb].
    + rewrite !sget_sremove_same. destruct (existsb _ ids); auto.
    + rewrite !sget_sremove_other by congruence. auto.
  - rewrite K1, K2, K3, K4, K5. unfold delete_one. destruct s. cbn. auto 10.
Qed.
Lemma sget_keys {V} k (m : smap V) : In k (map fst m) <-> sget k m <> None.
Proof.
  unfold sget. induction m as [|(k' & v) m IH]; cbn; [intuition congruence|].
  destruct (String.eqb_spec k k') as [->|Hk]; [intuition congruence|]. rewrite <- IH. intuition congruence.
Qed.
Lemma delete_exact f s k :
  let gone := contains k f = true /\ sget k (ls_docs (nd_files s)) <> None in
  let files := nd_files s in let files' := nd_files (delete_all f s) in
  (gone -> sget k (ls_docs files') = None /\ sget k (ls_vars files') = None /\ sget k (ls_tt files') = None) /\
  (~ gone -> sget k (ls_docs files') = sget k (ls_docs files) /\ sget k (ls_vars files') = sget k (ls_vars files) /\
             sget k (ls_tt files') = sget k (ls_tt files)) /\
  ls_bt files' = ls_bt files /\ ls_config files' = ls_config files /\ ls_actions files' = ls_actions files /\
  nd_actions (delete_all f s) = nd_actions s /\ nd_objs (delete_all f s) = nd_objs s.
Proof.
  intros gone files files'. unfold files', delete_all. cbn [nd_files nd_actions nd_objs]. unfold delete_documents_with_id. fold files.
  set (ids := filter (fun u => contains u f) (map fst (ls_docs files))).
  assert (Hg : existsb (String.eqb k) ids = true <-> gone).
  { rewrite existsb_exists. unfold ids, gone. rewrite <- sget_keys. split.
    - intros (x & Hx & E). apply String.eqb_eq in E. subst x. apply filter_In in Hx. tauto.
    - intros (H1 & H2). exists k. rewrite String.eqb_refl, filter_In. auto. }
  destruct (delete_fold ids files) as (K & K1 & K2 & K3 & _). destruct (K k) as (A & B & C).
  split; [intros H; apply Hg in H; rewrite H in *; auto|].
  split; [intros H; destruct (existsb (String.eqb k) ids); [tauto|auto]|]. auto 10.
Qed.

(** ** C78 *)
Lemma saved_offered url b id f n pos s acts uri ct auto items :
  let s1 := save_link_hint (Some acts) None s in
  url (home_url f id "jinja") = Some uri ->
  completion b uri pos (Some TkTriggerCharacter) (nd_files s1) = Ok (Some (ct, auto)) -> ct = CtIdentifier ->
  node_complete url b id f n (lower n pos) s1 = Ok (Some items) ->
  forall a, In a acts -> exists d, In (JsIdent (na_name a) d) items.
Proof.
  intros s1 Hu Hc -> H a Ha. unfold node_complete in H. rewrite unshift_lower, Hu in H. cbn [bind] in H. rewrite Hc in H. cbn [bind] in H.
  unfold read_variables in H. destruct (sget uri (ls_vars (nd_files s1))) as [vs|]; [|discriminate]. inversion H; subst. clear H.
  exists (completion_detail BackendVariable). apply in_or_app. right. apply in_map_iff.
  exists (plain_item (with_type BackendVariable (id_new (na_name a) pt0 pt0))). split; [reflexivity|].
  apply in_or_app. right. unfold backend_items. apply in_flat_map. exists (temp_key, hint_ids acts). split.
  - change (In (temp_key, hint_ids acts) (sinsert temp_key (hint_ids acts) (ls_vars (nd_files s)))).
    generalize (ls_vars (nd_files s)) as m. induction m as [|(k & v) m IH]; [now left|]. unfold sinsert. cbn [hm_insert].
    destruct (String.eqb temp_key k); [now left|right; exact IH].
  - cbn [snd]. apply in_map. apply filter_In. split; [|reflexivity]. unfold hint_ids. apply in_map_iff. eauto.
Qed.

(** ** C79 *)
Lemma goto_file_crash F url b id f n pos s uri l :
  url (home_url f id "jinja") = Some uri -> goto_definition F url b uri pos (nd_files s) = Ok (Some (GScalar l)) ->
  contains (loc_uri l) f = true -> url f = None -> node_goto F url b id f n (lower n pos) s = Panic.
Proof. intros Hu Hg Hc Hf. unfold node_goto. rewrite unshift_lower, Hu. cbn [bind]. rewrite Hg. cbn [bind]. now rewrite Hc, Hf. Qed.
Lemma goto_file_found F url b id f n pos s uri l u a z :
  url (home_url f id "jinja") = Some uri -> goto_definition F url b uri pos (nd_files s) = Ok (Some (GScalar l)) ->
  contains (loc_uri l) f = true -> url f = Some u -> loc_range l = mkrange (place 0 a) (place 0 z) -> in_host n a -> in_host n z ->
  node_goto F url b id f n (lower n pos) s = Ok (Some [mkjl u (mkrange (place n a) (place n z)) false]).
Proof.
  intros Hu Hg Hc Hf Hr (A1 & A2) (Z1 & Z2). unfold node_goto. rewrite unshift_lower, Hu. cbn [bind]. rewrite Hg. cbn [bind]. rewrite Hc, Hf.
  unfold shift_range. rewrite Hr. unfold shift_pos, u32_add, place, two32. cbn [rstart rend line character].
  rewrite !N.add_0_r. destruct (N.ltb_spec (row a + n) 4294967296); [|lia]. cbn [bind].
  destruct (N.ltb_spec (row z + n) 4294967296); [|lia]. reflexivity.
Qed.

(** ** C81 *)
Lemma fresh_after_delete F url b f s id g content n ext k s' links uri l :
  parse_total T -> url (home_url g id ext) = Some uri -> file_ext uri = Some l -> l = Template ->
  contains uri f = true -> sget uri (ls_docs (nd_files s)) <> None ->
  add_one F url b id g content n ext k (delete_all f s) = Ok (s', links) ->
  sget uri (ls_tt (nd_files s')) =
    t_parse T PJinja (encode (repeat 32 (N.to_nat (match k with Some c => c | None => 0 end)) ++ content)) None.
Proof.
  intros Hp Hu Hx -> Hc Hd H. unfold add_one in H. rewrite Hu in H.
  destruct (did_open F b uri _ true _) as [[fl d]|] eqn:Ed; cbn [bind fst] in H; [|discriminate].
  pose proof (did_open_tree F b uri Template _ _ _ _ _ Hp Hx Ed) as Ht. cbn [trees_of] in Ht.
  destruct (delete_exact f s uri) as (Hg & _). destruct Hg as (_ & _ & Hg); [auto|]. rewrite Hg in Ht. rewrite spaces_repeat in Ht. rewrite <- Ht.
  f_equal. f_equal. cbn [nd_files] in H. cbn [nd_objs] in H.
  destruct (String.eqb ext "jinja").
  { destruct (read_objects b uri _) as [os|]; cbn [bind] in H; [|discriminate].
    destruct os as [os|]; [|inversion H; subst; auto].
    destruct (sget temp_key _) as [acts|]; [|inversion H; subst; auto].
    destruct (obj_links b n acts os); cbn [bind] in H; [|discriminate]. inversion H; subst; auto. }
  destruct (String.eqb ext "py").
  { destruct (read_python_ids uri _) as [os|]; cbn [bind] in H; [|discriminate].
    destruct os as [os|]; [|inversion H; subst; auto].
    destruct (sget temp_key _) as [acts|]; [|inversion H; subst; auto].
    destruct (py_links b n acts os); cbn [bind] in H; [|discriminate]. inversion H; subst; auto. }
  inversion H; subst; auto.
Qed.

(** ** C82 *)
Lemma vars_untouched F url b f os : forall s s',
  (forall o, In o os -> match o with
     | OSave (Some _) h => key_of h <> f
     | OOne id g _ _ ext _ => url (home_url g id ext) <> Some f
     | _ => True end) ->
  node_run F url b os s = Ok s' -> sget f (ls_vars (nd_files s)) = None -> sget f (ls_vars (nd_files s')) = None.
Proof.
  induction os as [|o os IH]; intros s s' Ho H Hs; cbn [node_run] in H; [inversion H; subst; exact Hs|].
  destruct (node_do F url b o s) as [s1|] eqn:E; cbn [bind] in H; [|discriminate].
  apply (IH s1 s'); [intros o' Ho'; apply Ho; now right|exact H|]. clear IH H.
  specialize (Ho o (or_introl eq_refl)).
  destruct o as [u [a|]|[a|] h|h|g|id g c l e k]; cbn [node_do] in E; try (inversion E; subst; exact Hs).
  - inversion E; subst. cbn [save_link_hint nd_files]. rewrite ls_vars_set_vars. change (hint_key h) with (key_of h).
    now rewrite sget_sinsert_other by congruence.
  - inversion E; subst. unfold remove_temp_link_hint. cbn [nd_files]. rewrite ls_vars_set_vars. change (hint_key h) with (key_of h).
    destruct (String.eqb_spec f (key_of h)) as [->|Hk]; [apply sget_sremove_same|now rewrite sget_sremove_other].
  - inversion E; subst. destruct (delete_exact g s f) as (H1 & H2 & _). cbn zeta in *.
    destruct (contains f g) eqn:Ec.
    + destruct (sget f (ls_docs (nd_files s))) as [t|] eqn:Ed.
      * apply H1. split; [reflexivity|congruence].
      * rewrite <- Hs. apply H2. intros (_ & K). congruence.
    + rewrite <- Hs. apply H2. intros (K & _). congruence.
  - destruct (add_one F url b id g c l e k s) as [[s2 ls]|] eqn:Ea; cbn [bind fst] in E; [|discriminate]. inversion E; subst. clear E.
    unfold add_one in Ea. destruct (url _) as [uri|]; [|discriminate].
    destruct (did_open F b uri _ true (nd_files s)) as [[fl d]|] eqn:Ed; cbn [bind fst] in Ea; [|discriminate].
    assert (K : sget f (ls_vars fl) = None).
    { destruct (did_open_frame _ _ _ _ _ _ _ _ Ed) as (Kf & _). rewrite <- Hs.
      assert (Hk : f <> uri) by congruence. destruct (Kf f Hk) as (A1 & A2 & A3 & A4 & A5). congruence. }
    assert (nd_files s1 = fl) as ->; [|exact K].
    destruct (String.eqb e "jinja").
    { destruct (read_objects b uri _) as [os0|]; cbn [bind] in Ea; [|discriminate].
      destruct os0 as [os0|]; [|inversion Ea; subst; auto]. cbn [nd_objs] in Ea.
      destruct (sget temp_key (nd_objs s)) as [acts|]; [|inversion Ea; subst; auto].
      destruct (obj_links b l acts os0); cbn [bind] in Ea; [|discriminate]. inversion Ea; subst; auto. }
    destruct (String.eqb e "py").
    { destruct (read_python_ids uri _) as [os0|]; cbn [bind] in Ea; [|discriminate].
      destruct os0 as [os0|]; [|inversion Ea; subst; auto]. cbn [nd_objs] in Ea.
      destruct (sget temp_key (nd_objs s)) as [acts|]; [|inversion Ea; subst; auto].
      destruct (py_links b l acts os0); cbn [bind] in Ea; [|discriminate]. inversion Ea; subst; auto. }
    inversion Ea; subst; auto.
Qed.
Lemma partial_none F url b os s id f n pos uri name r auto :
  node_run F url b os (node_new T) = Ok s ->
  (forall o, In o os -> match o with
     | OSave (Some _) h => key_of h <> f
     | OOne id g _ _ ext _ => url (home_url g id ext) <> Some f
     | _ => True end) ->
  url (home_url f id "jinja") = Some uri ->
  completion b uri pos (Some TkTriggerCharacter) (nd_files s) = Ok (Some (CtIncompleteIdentifier name r, auto)) ->
  fits n r ->
  node_complete url b id f n (lower n pos) s = Ok None.
Proof.
  intros Hr Ho Hu Hc (Hf1 & Hf2). unfold node_complete. rewrite unshift_lower, Hu. cbn [bind]. rewrite Hc. cbn [bind].
  unfold shift_range, shift_pos, u32_add, two32.
  destruct (N.ltb_spec (line (rstart r) + n) 4294967296); [|lia]. cbn [bind].
  destruct (N.ltb_spec (line (rend r) + n) 4294967296); [|lia]. cbn [bind]. unfold get_variable.
  now rewrite (vars_untouched F url b f os _ _ Ho Hr eq_refl).
Qed.
Lemma partial_offered url b id f n pos s uri name r auto acts :
  sget f (ls_vars (nd_files s)) = Some (hint_ids acts) -> url (home_url f id "jinja") = Some uri ->
  completion b uri pos (Some TkTriggerCharacter) (nd_files s) = Ok (Some (CtIncompleteIdentifier name r, auto)) ->
  fits n r ->
  exists items, node_complete url b id f n (lower n pos) s = Ok (Some items) /\
    forall a, In a acts -> contains (na_name a) name = true -> In (JsIncomplete (na_name a) (lower_range n r)) items.
Proof.
  intros Hv Hu Hc (Hf1 & Hf2). unfold node_complete. rewrite unshift_lower, Hu. cbn [bind]. rewrite Hc. cbn [bind].
  unfold shift_range, shift_pos, u32_add, two32.
  destruct (N.ltb_spec (line (rstart r) + n) 4294967296); [|lia]. cbn [bind].
  destruct (N.ltb_spec (line (rend r) + n) 4294967296); [|lia]. cbn [bind]. unfold get_variable. rewrite Hv.
  eexists. split; [reflexivity|]. intros a Ha Hn. apply in_map_iff. exists (na_name a). split; [reflexivity|].
  apply in_or_app. left. apply in_map_iff. exists (with_type BackendVariable (id_new (na_name a) pt0 pt0)). split; [reflexivity|].
  apply filter_In. split; [|exact Hn]. unfold hint_ids. apply in_map_iff. eauto.
Qed.

(** ** C50 for documents given by their pieces *)
Lemma add_one_files F url b id f content n ext k s s' links uri :
  url (home_url f id ext) = Some uri -> add_one F url b id f content n ext k s = Ok (s', links) ->
  exists d, did_open F b uri (repeat 32 (N.to_nat (match k with Some c => c | None => 0 end)) ++ content) true (nd_files s) = Ok (nd_files s', d).
Proof.
  intros Hu H. unfold add_one in H. rewrite Hu in H. rewrite spaces_repeat in H.
  destruct (did_open F b uri _ true (nd_files s)) as [[fl d]|] eqn:Ed; cbn [bind fst] in H; [|discriminate].
  exists d. cbn [nd_files nd_objs] in H.
  assert (nd_files s' = fl) as ->; [|reflexivity]. clear Ed.
  destruct (String.eqb ext "jinja").
  { destruct (read_objects b uri _) as [os|]; cbn [bind] in H; [|discriminate].
    destruct os as [os|]; [|inversion H; subst; auto].
    destruct (sget temp_key _) as [acts|]; [|inversion H; subst; auto].
    destruct (obj_links b n acts os); cbn [bind] in H; [|discriminate]. inversion H; subst; auto. }
  destruct (String.eqb ext "py").
  { destruct (read_python_ids uri _) as [os|]; cbn [bind] in H; [|discriminate].
    destruct os as [os|]; [|inversion H; subst; auto].
    destruct (sget temp_key _) as [acts|]; [|inversion H; subst; auto].
    destruct (py_links b n acts os); cbn [bind] in H; [|discriminate]. inversion H; subst; auto. }
  inversion H; subst; auto.
Qed.
Lemma links_pieces F url b os s id f content n k s' links uri ps :
  let doc := repeat 32 (N.to_nat (match k with Some c => c | None => 0 end)) ++ content in
  parse_total T -> scalar_text doc -> node_run F url b os (node_new T) = Ok s ->
  url (home_url f id "jinja") = Some uri -> file_ext uri = Some Template ->
  add_one F url b id f content n "jinja" k s = Ok (s', links) ->
  pieces_ok (encode doc) ps ->
  (forall tr, t_parse T PJinja (encode doc) (sget uri (ls_tt (nd_files s))) = Some tr ->
     concat (t_captures T QObjects tr (encode doc)) = cap_pieces ps) ->
  Forall (fun o => in_host n (fst (o_loc o)) /\ in_host n (chain_end o)) (flat_map uses ps) ->
  links = flat_map (fun o => times (use_link n o) (names_chain (segments o)) (temporary os)) (flat_map uses ps).
Proof.
  intros doc Hp Hsc Hr Hu Hx Ha Hok Hc Hh.
  destruct (add_one_files F url b id f content n "jinja" k s s' links uri Hu Ha) as (d & Hd). fold doc in Hd.
  pose proof (did_open_tree F b uri Template doc true _ _ _ Hp Hx Hd) as Ht. cbn [trees_of] in Ht.
  pose proof (did_open_doc _ _ _ _ _ _ _ _ _ Hx Hd) as Hdoc.
  refine (proj2 (links_exact F url b os s id f content n k s' links uri (flat_map uses ps) Hr Hu Hx Ha _ Hh)).
  unfold read_objects. rewrite Hdoc, Hx. cbn [trees_of].
  destruct (t_parse T PJinja (encode doc) (sget uri (ls_tt (nd_files s)))) as [tr|] eqn:Et;
    [|exfalso; apply (Hp PJinja (encode doc) (sget uri (ls_tt (nd_files s)))); exact Et].
  rewrite Ht. rewrite rope_content_encode by exact Hsc.
  destruct (objects_exact b (encode doc) (t_captures T QObjects tr (encode doc)) pt0 ps Hok (Hc tr eq_refl)) as (st & E1 & E2).
  rewrite E1. cbn [bind]. now rewrite E2.
Qed.
Lemma delete_keeps f s uri :
  let files := nd_files s in let files' := nd_files (delete_all f s) in
  contains uri f = false ->
  sget uri (ls_docs files') = sget uri (ls_docs files) /\ sget uri (ls_vars files') = sget uri (ls_vars files) /\
  sget uri (ls_tt files') = sget uri (ls_tt files) /\ sget uri (ls_bt files') = sget uri (ls_bt files).
Proof.
  intros files files' H. destruct (delete_exact f s uri) as (_ & H2 & H3 & _).
  destruct H2 as (A & B & C); [intros (K & _); congruence|]. fold files files' in A, B, C, H3. rewrite H3. auto.
Qed.
End Hints.
