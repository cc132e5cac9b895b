(** * PNav: proofs about goto, hover, completion, symbols, code actions. *)
From Verif Require Import Base RString Utf8 Rope Types Captures MDefinition MObjects MTemplates MSearchErrors MLspFiles MLspTask.
From Verif Require Import SpecText SpecFiles SpecScope SpecObjects SpecLint SpecNav PText PUtf8 PFiles PScope PScope2 PObjects PLint PLint2 PLint3 POrder.

(** ** The latest visible definition *)
Lemma pt_compare_le a b : pt_compare a b <> Gt -> pt_le a b.
Proof.
  unfold pt_compare, cmp_then, pt_le. destruct (N.compare_spec (row a) (row b)); try (intros; congruence).
  - destruct (N.compare_spec (col a) (col b)); try (intros; congruence); intros _; right; lia.
  - intros _. left. lia.
Qed.
Lemma pt_compare_ge a b : pt_compare a b <> Lt -> pt_le b a.
Proof.
  unfold pt_compare, cmp_then, pt_le. destruct (N.compare_spec (row a) (row b)); try (intros; congruence).
  - destruct (N.compare_spec (col a) (col b)); try (intros; congruence); intros _; right; lia.
  - intros _. left. lia.
Qed.
Lemma id_compare_start a b : (id_compare a b <> Gt -> pt_le (id_start a) (id_start b)) /\
  (id_compare a b = Gt -> pt_le (id_start b) (id_start a)).
Proof.
  unfold id_compare. destruct (pt_compare (id_start a) (id_start b)) eqn:E; cbn [cmp_then]; split; intros H;
    try discriminate; try congruence;
    (apply pt_compare_le; congruence) || (apply pt_compare_ge; congruence).
Qed.
Lemma pt_le_refl a : pt_le a a.
Proof. pts. Qed.
Lemma pt_le_trans a b c : pt_le a b -> pt_le b c -> pt_le a c.
Proof. intros. pts. Qed.
Lemma max_from_spec l : forall m, In (max_from m l) (m :: l) /\
  forall x, In x (m :: l) -> pt_le (id_start x) (id_start (max_from m l)).
Proof.
  induction l as [|y l IH]; intros m.
  - split; [now left|]. intros x [->|[]]. apply pt_le_refl.
  - cbn [max_from]. destruct (id_compare_start m y) as (H1 & H2).
    set (z := match id_compare m y with Gt => m | _ => y end).
    destruct (IH z) as (A & B). 
    assert (Hz : (z = m /\ pt_le (id_start y) (id_start m)) \/ (z = y /\ pt_le (id_start m) (id_start y))).
    { unfold z. destruct (id_compare m y); [right|right|left]; split; auto; apply H1; discriminate. }
    split.
    + destruct A as [A|A]; [|right; now right]. destruct Hz as [(-> & _)|(Hz & _)]; [left; congruence|right; left; congruence].
    + assert (Bz : pt_le (id_start z) (id_start (max_from z l))) by (apply B; now left).
      intros x [->|[->|Hx]].
      * destruct Hz as [(-> & _)|(-> & H)]; [exact Bz|]. eapply pt_le_trans; eauto.
      * destruct Hz as [(-> & H)|(-> & _)]; [|exact Bz]. eapply pt_le_trans; eauto.
      * apply B. now right.
Qed.
Lemma iter_max_some l m : iter_max l = Some m -> In m l /\ forall x, In x l -> pt_le (id_start x) (id_start m).
Proof. destruct l as [|y l]; [discriminate|]. cbn [iter_max]. intros H; inversion H; subst. apply max_from_spec. Qed.
Lemma iter_max_none l : iter_max l = None <-> l = [].
Proof. destruct l; cbn; split; congruence. Qed.

Lemma filter_latest (f : identifier -> bool) (P : decl -> Prop) vs :
  (forall v, f v = true <-> P (decl_of_id v)) ->
  (iter_max (filter f vs) = None /\ forall d, In d (map decl_of_id vs) -> ~ P d) \/
  (exists m, iter_max (filter f vs) = Some m /\ latest P (map decl_of_id vs) (decl_of_id m)).
Proof.
  intros Hf. destruct (iter_max (filter f vs)) as [m|] eqn:E.
  - right. exists m. split; [reflexivity|]. apply iter_max_some in E. destruct E as (A & B).
    apply filter_In in A. destruct A as (A1 & A2). split; [now apply in_map|]. split; [now apply Hf|].
    intros d Hd Pd. apply in_map_iff in Hd. destruct Hd as (v & <- & Hv). cbn. apply B. apply filter_In. split; [exact Hv|now apply Hf].
  - left. split; [reflexivity|]. intros d Hd Pd. apply in_map_iff in Hd. destruct Hd as (v & <- & Hv).
    apply (proj1 (iter_max_none _)) in E.
    assert (In v (filter f vs)) by (apply filter_In; split; [exact Hv|now apply Hf]). rewrite E in H. destruct H.
Qed.

Lemma goto_visible_sees tp name v : goto_visible tp name v = true <-> goto_sees tp name (decl_of_id v).
Proof.
  unfold goto_visible, goto_sees. cbn. rewrite !andb_true_iff, String.eqb_eq.
  split; [intros ((A & B) & C)|intros (A & B & C)]; repeat split; auto using pt_leb_le, pt_le_leb.
Qed.
Lemma data_visible_sees h v : data_visible h v = true <-> hover_sees (id_start h) (id_name h) (decl_of_id v).
Proof.
  unfold data_visible, hover_sees. cbn. rewrite !andb_true_iff, negb_true_iff, itype_eqb_neq, String.eqb_eq.
  split; [intros (A & (B & C) & D)|intros (A & B & C & D)]; repeat split; auto using pt_leb_le, pt_le_leb.
Qed.
Lemma completion_visible_sees tp v : completion_visible tp v = true <-> offered_at tp (decl_of_id v).
Proof.
  unfold completion_visible, offered_at. cbn. rewrite !andb_true_iff, !negb_true_iff, !itype_eqb_neq.
  split; [intros ((A & B) & C & D)|intros (A & B & C & D)]; repeat split; auto using pt_leb_le, pt_le_leb.
Qed.
Lemma to_range_lsp a z : small a -> small z -> to_range (a, z) = lsp_range a z.
Proof.
  intros (A1 & A2) (B1 & B2). unfold to_range, lsp_range, to_position2, lsp_pos. cbn [fst snd]. now rewrite !as_u32_small.
Qed.

Section Handlers.
Context {T : ts}.
Implicit Types st : lsp_files T.

Lemma knows_vars st uri ds : knows st uri ds -> exists vs, sget uri (ls_vars st) = Some vs /\ ds = map decl_of_id vs.
Proof. unfold knows. destruct (sget uri (ls_vars st)) as [vs|]; [|discriminate]. cbn. intros H; inversion H; eauto. Qed.

(** What goto finds for a name in the file itself. *)
Lemma goto_local_latest st uri tp name ds : knows st uri ds -> Forall small_decl ds ->
  (goto_local uri tp (Some name) st = None /\ forall d, In d ds -> ~ goto_sees tp name d) \/
  (exists d, latest (goto_sees tp name) ds d /\
     goto_local uri tp (Some name) st = Some (GScalar (mkloc uri (lsp_range (dc_start d) (dc_end d))))).
Proof.
  intros Hk Hs. destruct (knows_vars _ _ _ Hk) as (vs & E & ->). unfold goto_local. rewrite E.
  destruct (filter_latest (goto_visible tp name) (goto_sees tp name) vs (goto_visible_sees tp name))
    as [(-> & H)|(m & -> & H)]; [left; split; auto|right].
  exists (decl_of_id m). split; [exact H|]. destruct H as (Hin & _). rewrite Forall_forall in Hs.
  destruct (Hs _ Hin) as (S1 & S2). cbn in *. now rewrite to_range_lsp.
Qed.

(** The identifier under a cursor on the head of a chain. *)
Lemma ident_on_head b st uri tr t tp pre h fs post :
  let src := rope_content t in
  let ps := pre ++ PChain h fs :: post in
  pieces_ok src ps -> concat (t_captures T QObjects tr src) = cap_pieces ps ->
  on_tok tp h -> Forall (behind tp) (cap_pieces post) -> holds st uri tr t ->
  exists s, objects_query b (t_captures T QObjects tr src) tp src false = Ok s /\ is_ident s tp = Some (snd h).
Proof.
  intros src ps Hps E Hon Hb _.
  destruct (select_chain b _ tp src pre h [] fs post Hps E Hon Hb)
    as (s & o & ex & Q & Eo & N1 & N2 & N3 & N4 & N5 & N6 & N7 & N8 & N9).
  exists s. split; [exact Q|]. unfold is_ident.
  assert (Ei : os_ident s = loc h) by (destruct N9 as [N9|N9]; exact N9). rewrite Ei. destruct Hon as (A & B).
  unfold loc. cbn [fst snd]. rewrite (pt_le_leb _ _ A), (pt_le_leb _ _ B). cbn [andb].
  now rewrite Eo, last_opt_snoc, N1.
Qed.

(** C31 *)
Lemma goto_latest F url b st uri pos tr t pre h fs post ds :
  let src := rope_content t in
  let tp := point_of pos in
  let ps := pre ++ PChain h fs :: post in
  holds st uri tr t -> knows st uri ds -> Forall small_decl ds ->
  pieces_ok src ps -> concat (t_captures T QObjects tr src) = cap_pieces ps ->
  on_tok tp h -> Forall (behind tp) (cap_pieces post) ->
  (exists d, In d ds /\ goto_sees tp (snd h) d) ->
  exists d, latest (goto_sees tp (snd h)) ds d /\
    goto_definition F url b uri pos st = Ok (Some (GScalar (mkloc uri (lsp_range (dc_start d) (dc_end d))))).
Proof.
  intros src tp ps Hh Hk Hs Hps E Hon Hb (d0 & Hd0 & Sd0).
  destruct (ident_on_head b st uri tr t tp pre h fs post Hps E Hon Hb Hh) as (s & Q & Ei).
  destruct (goto_local_latest st uri tp (snd h) ds Hk Hs) as [(_ & Hno)|(d & Hd & Eg)]; [exfalso; eapply Hno; eauto|].
  exists d. split; [exact Hd|]. destruct Hh as (H1 & H2 & H3). unfold goto_definition. rewrite H1. cbn [trees_of].
  rewrite H2, H3. fold src. fold src in Q. fold tp. rewrite Q. cbn [bind]. now rewrite Ei, Eg.
Qed.

(** ** Other files *)
Lemma has_dot_cons a x : has_dot (String a x) = Ascii.eqb "."%char a || has_dot x.
Proof. reflexivity. Qed.
Lemma split_dot_head x r : has_dot x = false -> split_char dot (x ++ String dot r) = x :: split_char dot r.
Proof.
  induction x as [|a x IH]; [reflexivity|]. rewrite has_dot_cons. intros H. apply orb_false_iff in H. destruct H as (H1 & H2).
  cbn [append split_char]. rewrite (IH H2). unfold dot in *. rewrite Ascii.eqb_sym in H1. now rewrite H1.
Qed.
Lemma split_dot_none x : has_dot x = false -> split_char dot x = [x].
Proof.
  induction x as [|a x IH]; [reflexivity|]. rewrite has_dot_cons. intros H. apply orb_false_iff in H. destruct H as (H1 & H2).
  cbn [split_char]. rewrite (IH H2). unfold dot in *. rewrite Ascii.eqb_sym in H1. now rewrite H1.
Qed.
Lemma split_dot_cases n : exists x, has_dot x = false /\
  ((n = x /\ split_char dot n = [x]) \/ exists r, n = (x ++ String dot r)%string /\ split_char dot n = x :: split_char dot r).
Proof.
  induction n as [|a n IH].
  - exists EmptyString. split; [reflexivity|]. left. split; reflexivity.
  - destruct (Ascii.eqb a dot) eqn:Ea.
    + exists EmptyString. split; [reflexivity|]. right. exists n. apply Ascii.eqb_eq in Ea. subst a. split; reflexivity.
    + destruct IH as (x & Hx & H). exists (String a x). split.
      { rewrite has_dot_cons, Hx, orb_false_r. rewrite Ascii.eqb_sym. exact Ea. }
      destruct H as [(-> & H)|(r & -> & H)].
      * left. split; [reflexivity|]. cbn [split_char]. now rewrite Ea, H.
      * right. exists r. split; [reflexivity|]. cbn [append split_char]. now rewrite Ea, H.
Qed.
Lemma prefix_iff p s : String.prefix p s = true <-> exists r, s = (p ++ r)%string.
Proof.
  split.
  - revert s. induction p as [|a p IH]; intros s H; [now exists s|]. destruct s as [|c s]; [discriminate|].
    cbn [String.prefix] in H. destruct (ascii_dec a c); [|discriminate]. subst. destruct (IH s H) as (r & ->). now exists r.
  - intros (r & ->). apply prefix_app.
Qed.
Lemma app_inj_len (a b c d : string) : String.length a = String.length c -> (a ++ b = c ++ d)%string -> a = c /\ b = d.
Proof.
  revert c. induction a as [|x a IH]; intros [|y c] L E; try discriminate; [now split|].
  cbn in *. inversion L. inversion E. subst. destruct (IH c) as (-> & ->); auto.
Qed.
Lemma dotless_unique x y r s : has_dot x = false -> has_dot y = false ->
  (x ++ String dot r = y ++ String dot s)%string -> x = y.
Proof.
  revert y. induction x as [|a x IH]; intros [|c y] Hx Hy E; try reflexivity; cbn in E; inversion E; subst.
  - rewrite has_dot_cons in Hy. discriminate.
  - rewrite has_dot_cons in Hx. discriminate.
  - f_equal. rewrite has_dot_cons in *. apply orb_false_iff in Hx, Hy. destruct Hx, Hy. now apply IH.
Qed.
Lemma dot_in_app x r : has_dot (x ++ String dot r) = true.
Proof. induction x as [|a x IH]; [reflexivity|]. cbn [append]. rewrite has_dot_cons, IH. apply orb_true_r. Qed.
Lemma heads_first x n : heads x n = String.eqb (first_segment n) x.
Proof.
  unfold first_segment. destruct (split_dot_cases n) as (y & Hy & [(-> & E)|(r & -> & E)]); rewrite E; unfold heads.
  - destruct (String.eqb_spec y x) as [->|Hn].
    + rewrite Hy. reflexivity.
    + cbn [orb]. destruct (has_dot x) eqn:Hx; [reflexivity|]. cbn [negb andb].
      destruct (String.prefix (x ++ ".") y) eqn:Ep; [|reflexivity]. apply prefix_iff in Ep. destruct Ep as (s & ->).
      rewrite append_assoc in Hy. change ("." ++ s)%string with (String dot s) in Hy. rewrite dot_in_app in Hy. discriminate.
  - destruct (String.eqb_spec y x) as [->|Hn].
    + rewrite Hy. cbn [negb andb]. apply orb_true_iff. right. apply prefix_iff. exists r. rewrite append_assoc. reflexivity.
    + destruct (has_dot x) eqn:Hx; [reflexivity|]. cbn [negb andb].
      destruct (String.eqb_spec (y ++ String dot r) x) as [<-|_]; [rewrite dot_in_app in Hx; discriminate|]. cbn [orb].
      destruct (String.prefix (x ++ ".") (y ++ String dot r)) eqn:Ep; [|reflexivity]. apply prefix_iff in Ep. destruct Ep as (s & Es).
      rewrite append_assoc in Es. change ("." ++ s)%string with (String dot s) in Es.
      exfalso. apply Hn. exact (dotless_unique _ _ _ _ Hy Hx Es).
Qed.

Lemma goto_file_exact url x file vs :
  Forall small_id vs ->
  (forall v, In v vs -> heads x (id_name v) = true -> url (target_name (file, v)) <> None) ->
  exists locs, goto_file url x file vs = Ok locs /\
    Forall2 (found url) (filter (fun fv => heads x (id_name (snd fv))) (map (pair file) vs)) locs.
Proof.
  intros HS HU. induction vs as [|v vs IH]; [exists []; split; [reflexivity|constructor]|].
  inversion HS as [|? ? (S1 & S2) HS2]; subst. destruct IH as (locs & E & F2); auto.
  { intros w Hw. apply HU. now right. }
  cbn [goto_file map filter snd]. specialize (HU v (or_introl eq_refl)). rewrite heads_first in *.
  destruct (String.eqb (first_segment (id_name v)) x); [|eauto].
  specialize (HU eq_refl). unfold target_name in HU. cbn [fst snd] in HU.
  destruct (url _) as [u|] eqn:Eu; [|congruence]. rewrite E. cbn [bind]. eexists. split; [reflexivity|].
  constructor; [|exact F2]. split; [exact Eu|]. cbn [loc_range snd]. now apply to_range_lsp.
Qed.
Lemma goto_others_exact url x uri vars :
  Forall (fun fv => small_id (snd fv)) (other_vars uri vars) ->
  Forall (fun fv => heads x (id_name (snd fv)) = true -> url (target_name fv) <> None) (other_vars uri vars) ->
  exists locs, goto_others url x uri vars = Ok locs /\
    Forall2 (found url) (filter (fun fv => heads x (id_name (snd fv))) (other_vars uri vars)) locs.
Proof.
  induction vars as [|(f, vs) vars IH]; [exists []; split; [reflexivity|constructor]|].
  unfold other_vars in *. cbn [goto_others filter fst]. destruct (String.eqb f uri); cbn [negb]; [exact IH|].
  cbn [flat_map fst snd]. intros HS HU. apply Forall_app in HS, HU. destruct HS as (S1 & S2), HU as (U1 & U2).
  destruct (IH S2 U2) as (locs & E & F2).
  destruct (goto_file_exact url x f vs) as (l1 & E1 & F1).
  { rewrite Forall_map in S1. exact S1. }
  { rewrite Forall_map, Forall_forall in U1. exact U1. }
  rewrite E1, E. cbn [bind]. eexists. split; [reflexivity|]. rewrite filter_app. now apply Forall2_app.
Qed.

(** One URI that cannot be parsed is enough. *)
Lemma goto_file_crash url x file vs :
  (exists v, In v vs /\ heads x (id_name v) = true /\ url (target_name (file, v)) = None) -> goto_file url x file vs = Panic.
Proof.
  induction vs as [|w vs IH]; intros (v & Hv & H1 & H2); [destruct Hv|]. cbn [goto_file]. destruct Hv as [->|Hv].
  - rewrite heads_first in H1. rewrite H1. unfold target_name in H2. cbn [fst snd] in H2. now rewrite H2.
  - assert (E : goto_file url x file vs = Panic) by (apply IH; eauto).
    rewrite E. destruct (String.eqb _ x); [|reflexivity]. match goal with |- match ?u with _ => _ end = _ => now destruct u end.
Qed.
Lemma goto_others_crash url x uri vars :
  (exists fv, In fv (other_vars uri vars) /\ heads x (id_name (snd fv)) = true /\ url (target_name fv) = None) ->
  goto_others url x uri vars = Panic.
Proof.
  induction vars as [|(f, vs) vars IH]; intros (fv & Hfv & H1 & H2); [destruct Hfv|].
  unfold other_vars in *. cbn [goto_others filter fst] in *. destruct (String.eqb f uri); cbn [negb] in Hfv; [apply IH; eauto|].
  cbn [flat_map fst snd] in Hfv. apply in_app_or in Hfv. destruct Hfv as [Hfv|Hfv].
  - apply in_map_iff in Hfv. destruct Hfv as (v & <- & Hv). rewrite goto_file_crash; [reflexivity|]. eauto.
  - destruct (goto_file url x f vs); [|reflexivity]. cbn [bind]. rewrite IH; [reflexivity|eauto].
Qed.

(** Every template in the table of imports comes from a quoted string. *)
Definition placed (P : point -> point -> Prop) (i : identifier) : Prop := P (id_start i) (id_end i).
Definition placed_import (P : point -> point -> Prop) (im : import) : Prop :=
  match im with
  | IExtends t | IFrom t _ | IImport t _ => placed P t
  | IInclude ts => Forall (placed P) ts
  end.
Definition placed_all (P : point -> point -> Prop) (s : jimports) : Prop :=
  Forall (fun kv => placed_import P (snd kv)) (im_imports s).
Lemma ninsert_Forall {V} (P : N * V -> Prop) k v m : P (k, v) -> Forall P m -> Forall P (ninsert k v m).
Proof.
  intros H. unfold ninsert. induction 1 as [|(k', w) m Hm HF IH]; cbn [hm_insert]; [repeat constructor; exact H|].
  destruct (N.eqb_spec k k'); constructor; auto. 
Qed.
Lemma nget_In {V} k (v : V) m : nget k m = Some v -> In (k, v) m.
Proof.
  unfold nget. induction m as [|(k', w) m IH]; [discriminate|]. cbn [hm_get]. destruct (N.eqb_spec k k').
  - intros H; inversion H; subst. now left.
  - intros H. right. auto.
Qed.
Lemma placed_fill (P : point -> point -> Prop) t name s e : placed P t -> P s e -> placed P (fill_template t name s e).
Proof. unfold fill_template, placed. destruct (String.eqb _ _); cbn; auto. Qed.
Lemma imp_check_placed (P : point -> point -> Prop) src s c s' k : P pt0 pt0 ->
  (c_name c = CTemplateName -> P (n_start (c_node c)) (n_end (c_node c))) ->
  placed_all P s -> imp_check src s c = Ok (s', k) -> placed_all P s'.
Proof.
  intros H0 Hc HP E. unfold imp_check in E.
  assert (Hop : forall id fresh again, placed_import P fresh -> placed_all P (open_import s id fresh again)).
  { intros id fr ag Hf. unfold open_import. destruct (nget id (im_imports s)); [exact HP|].
    unfold placed_all. cbn. apply ninsert_Forall; auto. }
  assert (Hg : forall id im, nget id (im_imports s) = Some im -> placed_import P im).
  { intros id im Hi. apply nget_In in Hi. unfold placed_all in HP. rewrite Forall_forall in HP. exact (HP _ Hi). }
  destruct (c_name c); try (inversion E; subst; auto; try apply Hop; cbn; auto; fail).
  - destruct (im_current s) as [id|]; [|inversion E; subst; exact HP].
    destruct (nget id (im_imports s)) as [im|] eqn:Ei; [|inversion E; subst; exact HP].
    destruct (utf8_text (c_node c) src) as [[raw|]|]; cbn [bind] in E; inversion E; subst; [|exact HP].
    unfold placed_all. cbn. apply ninsert_Forall; [|exact HP]. cbn [snd]. specialize (Hg _ _ Ei). specialize (Hc eq_refl).
    destruct im; cbn [add_template_name placed_import] in *; try (apply placed_fill; auto).
    apply Forall_app. split; [exact Hg|]. constructor; [|constructor]. exact Hc.
  - destruct (im_current s) as [id|]; [|inversion E; subst; exact HP].
    destruct (utf8_text (c_node c) src) as [[raw|]|]; cbn [bind] in E; try discriminate; [|inversion E; subst; exact HP].
    destruct (nget id (im_imports s)) as [im|] eqn:Ei; [|inversion E; subst; exact HP].
    specialize (Hg _ _ Ei). destruct im; try (inversion E; subst; exact HP).
    + inversion E; subst. unfold placed_all. cbn. apply ninsert_Forall; [|exact HP]. exact Hg.
    + destruct (String.eqb _ _); inversion E; subst; [|exact HP].
      unfold placed_all. cbn. apply ninsert_Forall; [|exact HP]. exact Hg.
Qed.
Lemma run_placed (P : point -> point -> Prop) src : P pt0 pt0 -> forall cs s s',
  Forall (fun c => c_name c = CTemplateName -> P (n_start (c_node c)) (n_end (c_node c))) cs ->
  placed_all P s -> run (imp_check src) s cs = Ok s' -> placed_all P s'.
Proof.
  intros H0. induction cs as [|c cs IH]; intros s s' HF HP E; cbn [run] in E; [inversion E; subst; exact HP|].
  inversion HF as [|? ? H1 H2]; subst. destruct (imp_check src s c) as [(s1, k)|] eqn:Ec; [|discriminate].
  pose proof (imp_check_placed P src s c s1 k H0 H1 HP Ec) as HP1. destruct k; [|inversion E; subst; exact HP1].
  eapply IH; eauto.
Qed.
(** No quoted string under the cursor: no template under the cursor. *)
Lemma no_template_at src ms tp :
  pt_lt pt0 tp -> no_ref_at tp ms -> Forall (fun c => utf8_text (c_node c) src <> Panic) (concat ms) ->
  exists imps, templates_query ms tp src false = Ok imps /\
    match in_template imps with None => True | Some im => import_get im tp = None end.
Proof.
  intros Ht Hn Hu.
  assert (Hin : forall c, In c (flat_captures false tp ms) -> In c (concat ms)) by (intros c Hc; apply flat_captures_In in Hc; tauto).
  assert (Hr : exists imps, templates_query ms tp src false = Ok imps).
  { unfold templates_query. apply (run_ok (imp_check src) (fun c => utf8_text (c_node c) src <> Panic)).
    - intros s c Hc. now apply imp_check_ok.
    - apply Forall_forall. intros c Hc. rewrite Forall_forall in Hu. auto. }
  destruct Hr as (imps & E). exists imps. split; [exact E|].
  set (P := fun s e => ~ (pt_le s tp /\ pt_le tp e)).
  assert (HP : placed_all P imps).
  { unfold templates_query in E. apply (run_placed P src) with (cs := flat_captures false tp ms) (s := jimports0); auto.
    - unfold P. pts.
    - apply Forall_forall. intros c Hc Hk. unfold no_ref_at in Hn. rewrite Forall_forall in Hn. exact (Hn c (Hin c Hc) Hk).
    - constructor. }
  unfold in_template. destruct (im_current imps) as [id|]; [|exact I].
  destruct (nget id (im_imports imps)) as [im|] eqn:Ei; [|exact I]. apply nget_In in Ei.
  unfold placed_all in HP. rewrite Forall_forall in HP. specialize (HP _ Ei). cbn [snd] in HP.
  assert (Hp : forall t, placed P t -> in_id tp t = false).
  { intros t Hpt. unfold in_id. destruct (pt_leb (id_start t) tp) eqn:A; [|reflexivity]. destruct (pt_leb tp (id_end t)) eqn:B; [|reflexivity].
    exfalso. apply Hpt. split; now apply pt_leb_le. }
  destruct im; cbn [import_get placed_import] in *; try now rewrite Hp.
  destruct (find (in_id tp) templates) as [t|] eqn:Ef; [|reflexivity]. apply find_some in Ef. destruct Ef as (Ef1 & Ef2).
  rewrite Forall_forall in HP. rewrite (Hp t (HP t Ef1)) in Ef2. discriminate.
Qed.

(** C32 *)
Lemma goto_elsewhere F url b st uri pos tr t pre h fs post ds :
  let src := rope_content t in
  let tp := point_of pos in
  let ps := pre ++ PChain h fs :: post in
  let here := filter (fun fv => heads (snd h) (id_name (snd fv))) (other_vars uri (ls_vars st)) in
  holds st uri tr t -> knows st uri ds ->
  pieces_ok src ps -> concat (t_captures T QObjects tr src) = cap_pieces ps ->
  on_tok tp h -> Forall (behind tp) (cap_pieces post) ->
  (forall d, In d ds -> ~ goto_sees tp (snd h) d) ->
  no_ref_at tp (t_captures T QImports tr src) ->
  Forall (fun c => utf8_text (c_node c) src <> Panic) (concat (t_captures T QImports tr src)) ->
  Forall (fun fv => small_id (snd fv)) (other_vars uri (ls_vars st)) ->
  Forall (fun fv => url (target_name fv) <> None) here ->
  exists locs, goto_definition F url b uri pos st = Ok (Some (GArray locs)) /\ Forall2 (found url) here locs.
Proof.
  intros src tp ps here Hh Hk Hps E Hon Hb Hno Hnr Htx Hsm Hurl.
  destruct (ident_on_head b st uri tr t tp pre h fs post Hps E Hon Hb Hh) as (s & Q & Ei).
  destruct (goto_others_exact url (snd h) uri (ls_vars st) Hsm) as (locs & El & F2).
  { apply Forall_forall. intros fv Hfv Hhd. rewrite Forall_forall in Hurl. apply Hurl. unfold here. apply filter_In. auto. }
  exists locs. split; [|exact F2].
  assert (Ht : pt_lt pt0 tp).
  { destruct Hps as (_ & p0 & Hp0 & Ho). destruct Hon as (On1 & _).
    assert (Hm : In (MTok (fst h)) (flat_map marks ps)) by (unfold ps; rewrite flat_map_app; apply in_or_app; right; cbn; auto).
    destruct (ordered_tok _ _ _ Ho Hm) as (X1 & _). pts. }
  destruct (no_template_at src _ tp Ht Hnr Htx) as (imps & Eq & Hi).
  destruct Hh as (H1 & H2 & H3). unfold goto_definition. rewrite H1. cbn [trees_of].
  rewrite H2, H3. fold src. fold src in Q. fold tp. rewrite Q. cbn [bind]. rewrite Ei.
  assert (goto_local uri tp (Some (snd h)) st = None) as ->.
  { destruct (knows_vars _ _ _ Hk) as (vs & Ev & ->). unfold goto_local. rewrite Ev.
    destruct (filter_latest (goto_visible tp (snd h)) (goto_sees tp (snd h)) vs (goto_visible_sees tp (snd h)))
      as [(-> & _)|(m & _ & (Hin & Hp & _))]; [reflexivity|]. exfalso. exact (Hno _ Hin Hp). }
  rewrite Eq. cbn [bind]. destruct (in_template imps) as [im|]; [rewrite Hi|]; cbn [bind]; now rewrite El.
Qed.
Lemma goto_elsewhere_crash F url b st uri pos tr t pre h fs post ds :
  let src := rope_content t in
  let tp := point_of pos in
  let ps := pre ++ PChain h fs :: post in
  let here := filter (fun fv => heads (snd h) (id_name (snd fv))) (other_vars uri (ls_vars st)) in
  holds st uri tr t -> knows st uri ds ->
  pieces_ok src ps -> concat (t_captures T QObjects tr src) = cap_pieces ps ->
  on_tok tp h -> Forall (behind tp) (cap_pieces post) ->
  (forall d, In d ds -> ~ goto_sees tp (snd h) d) ->
  no_ref_at tp (t_captures T QImports tr src) ->
  Forall (fun c => utf8_text (c_node c) src <> Panic) (concat (t_captures T QImports tr src)) ->
  Exists (fun fv => url (target_name fv) = None) here ->
  goto_definition F url b uri pos st = Panic.
Proof.
  intros src tp ps here Hh Hk Hps E Hon Hb Hno Hnr Htx Hurl.
  destruct (ident_on_head b st uri tr t tp pre h fs post Hps E Hon Hb Hh) as (s & Q & Ei).
  assert (El : goto_others url (snd h) uri (ls_vars st) = Panic).
  { apply goto_others_crash. apply Exists_exists in Hurl. destruct Hurl as (fv & Hfv & Hn). unfold here in Hfv. apply filter_In in Hfv.
    exists fv. tauto. }
  assert (Ht : pt_lt pt0 tp).
  { destruct Hps as (_ & p0 & Hp0 & Ho). destruct Hon as (On1 & _).
    assert (Hm : In (MTok (fst h)) (flat_map marks ps)) by (unfold ps; rewrite flat_map_app; apply in_or_app; right; cbn; auto).
    destruct (ordered_tok _ _ _ Ho Hm) as (X1 & _). pts. }
  destruct (no_template_at src _ tp Ht Hnr Htx) as (imps & Eq & Hi).
  destruct Hh as (H1 & H2 & H3). unfold goto_definition. rewrite H1. cbn [trees_of].
  rewrite H2, H3. fold src. fold src in Q. fold tp. rewrite Q. cbn [bind]. rewrite Ei.
  assert (goto_local uri tp (Some (snd h)) st = None) as ->.
  { destruct (knows_vars _ _ _ Hk) as (vs & Ev & ->). unfold goto_local. rewrite Ev.
    destruct (filter_latest (goto_visible tp (snd h)) (goto_sees tp (snd h)) vs (goto_visible_sees tp (snd h)))
      as [(-> & _)|(m & _ & (Hin & Hp & _))]; [reflexivity|]. exfalso. exact (Hno _ Hin Hp). }
  rewrite Eq. cbn [bind]. destruct (in_template imps) as [im|]; [rewrite Hi|]; cbn [bind]; now rewrite El.
Qed.
End Handlers.
