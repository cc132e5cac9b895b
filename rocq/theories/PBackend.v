(** * PBackend: proofs about the analysis of backend files. *)
From Verif Require Import Base RString Utf8 Rope Types Captures.
From Verif Require Import MDefinition MObjects MTemplates MSearchErrors MLspFiles.
From Verif Require Import SpecText SpecFiles SpecBackend PText POrder PFiles PObjects.

Implicit Types c : bcap.

(** ** Maps keyed by points *)
Lemma pt_eqb_spec p q : pt_eqb p q = true <-> p = q.
Proof.
  destruct p as [a x], q as [c d]. unfold pt_eqb. cbn [row col]. rewrite andb_true_iff, !N.eqb_eq.
  split; [intros (-> & ->); reflexivity|intros E; inversion E; auto].
Qed.
Lemma pget_same {V} p (v : V) m : pget p (pinsert p v m) = Some v.
Proof.
  assert (E : pt_eqb p p = true) by now apply pt_eqb_spec. unfold pget, pinsert.
  induction m as [|(k & w) m IH]; cbn [hm_insert hm_get]; [now rewrite E|].
  destruct (pt_eqb p k) eqn:Ek; cbn [hm_get]; [now rewrite E|now rewrite Ek].
Qed.
Lemma pget_other {V} p q (v : V) m : p <> q -> pget p (pinsert q v m) = pget p m.
Proof.
  intros H. assert (E : pt_eqb p q = false) by (destruct (pt_eqb p q) eqn:K; [apply pt_eqb_spec in K; congruence|reflexivity]).
  unfold pget, pinsert. induction m as [|(k & w) m IH]; cbn [hm_insert hm_get]; [now rewrite E|].
  destruct (pt_eqb q k) eqn:Ek; cbn [hm_get].
  - rewrite E. apply pt_eqb_spec in Ek. subst k. now rewrite E.
  - now rewrite IH.
Qed.
Lemma pinsert_keys {V} p (v : V) m :
  map fst (pinsert p v m) = map fst m /\ In p (map fst m) \/ map fst (pinsert p v m) = map fst m ++ [p] /\ ~ In p (map fst m).
Proof.
  unfold pinsert. induction m as [|(k & w) m IH]; cbn [hm_insert map fst]; [right; split; [reflexivity|intros []]|].
  destruct (pt_eqb p k) eqn:Ek.
  - apply pt_eqb_spec in Ek. subst k. left. cbn [map fst]. split; [reflexivity|now left].
  - cbn [map fst]. destruct IH as [(E & H)|(E & H)].
    + left. rewrite E. split; [reflexivity|now right].
    + right. rewrite E. split; [reflexivity|]. intros [K|K]; [|auto]. subst k.
      assert (pt_eqb p p = true) by now apply pt_eqb_spec. congruence.
Qed.
Lemma NoDup_snoc {A} (l : list A) x : NoDup l -> ~ In x l -> NoDup (l ++ [x]).
Proof.
  induction l as [|y l IH]; intros H Hx; [repeat constructor; intros []|]. inversion H; subst. cbn [app]. constructor.
  - rewrite in_app_iff. intros [K|[K|[]]]; [auto|]. subst. apply Hx. now left.
  - apply IH; [assumption|]. intros K. apply Hx. now right.
Qed.
Lemma pinsert_nodup {V} p (v : V) m : NoDup (map fst m) -> NoDup (map fst (pinsert p v m)).
Proof.
  intros H. destruct (pinsert_keys p v m) as [(-> & _)|(-> & K)]; [exact H|now apply NoDup_snoc].
Qed.
Lemma pget_In {V} p (v : V) m : NoDup (map fst m) -> (pget p m = Some v <-> In (p, v) m).
Proof.
  unfold pget. induction m as [|(k & w) m IH]; intros H; cbn [hm_get]; [split; [discriminate|intros []]|].
  inversion H; subst. destruct (pt_eqb p k) eqn:Ek.
  - apply pt_eqb_spec in Ek. subst k. split; [intros E; inversion E; now left|].
    intros [E|K]; [now inversion E|]. exfalso. apply H2. apply (in_map fst) in K. exact K.
  - rewrite (IH H3). split; [intros K; now right|]. intros [E|K]; [|exact K]. inversion E; subst.
    assert (pt_eqb p p = true) by now apply pt_eqb_spec. congruence.
Qed.

(** ** Python chains *)
Definition seg_of c : pyid := mkpy (n_id (bc_node c)) (n_start (bc_node c)) (n_end (bc_node c)) (bc_text c).
Definition at_point (p : point) (cs : list bcap) : list bcap := filter (starts_at p) cs.
Definition py_inv (done : list bcap) (m : list (point * list pyid)) : Prop :=
  NoDup (map fst m) /\
  forall p, pget p m = match at_point p done with [] => None | l => Some (map seg_of l) end.
Lemma starts_at_spec p c : starts_at p c = true <-> n_parent (bc_node c) = Some p.
Proof.
  unfold starts_at. destruct (n_parent (bc_node c)) as [q|]; [|split; discriminate].
  change ((row p =? row q) && (col p =? col q)) with (pt_eqb p q). rewrite pt_eqb_spec. split; congruence.
Qed.
Lemma at_point_snoc p done c : at_point p (done ++ [c]) = at_point p done ++ (if starts_at p c then [c] else []).
Proof. unfold at_point. now rewrite filter_app. Qed.
Lemma py_step_inv src done m c : py_inv done m -> covers src c ->
  exists m', py_step src m (as_capture c) = Ok (m', true) /\ py_inv (done ++ [c]) m'.
Proof.
  intros (Hn & Hg) Hc. unfold py_step. cbn [as_capture c_node].
  destruct (n_parent (bc_node c)) as [p|] eqn:Ep.
  - rewrite Hc. cbn [bind]. eexists. split; [reflexivity|]. split; [now apply pinsert_nodup|].
    intros q. rewrite at_point_snoc. destruct (starts_at q c) eqn:Es.
    + apply starts_at_spec in Es. assert (q = p) by congruence. subst q. rewrite pget_same, Hg.
      destruct (at_point p done) as [|x l]; [reflexivity|]. cbn [app]. f_equal.
      change (x :: l ++ [c]) with ((x :: l) ++ [c]). rewrite map_app. reflexivity.
    + rewrite app_nil_r. rewrite pget_other; [apply Hg|]. intros ->.
      assert (starts_at p c = true) by now apply starts_at_spec. congruence.
  - exists m. split; [reflexivity|]. split; [exact Hn|]. intros q. rewrite at_point_snoc.
    destruct (starts_at q c) eqn:Es; [apply starts_at_spec in Es; congruence|]. rewrite app_nil_r. apply Hg.
Qed.
Lemma py_run src cs : forall done m, py_inv done m -> Forall (covers src) cs ->
  exists m', run (py_step src) m (map as_capture cs) = Ok m' /\ py_inv (done ++ cs) m'.
Proof.
  induction cs as [|c cs IH]; intros done m Hi Hc; [exists m; rewrite app_nil_r; auto|].
  inversion Hc; subst. destruct (py_step_inv src done m c Hi H1) as (m' & E & Hi').
  cbn [map run]. rewrite E. destruct (IH (done ++ [c]) m' Hi' H2) as (m2 & E2 & Hi2).
  exists m2. split; [exact E2|]. now rewrite <- app_assoc in Hi2.
Qed.
Lemma join_dots_concat l : join_dots l = String.concat "." l.
Proof. induction l as [|x [|y l] IH]; [reflexivity|reflexivity|]. cbn [join_dots String.concat] in *. now rewrite IH. Qed.
Lemma shift_row_inj l p q : shift_row p l = shift_row q l -> p = q.
Proof. destruct p as [a b], q as [c d]. unfold shift_row. cbn [row col]. intros E. inversion E. f_equal. lia. Qed.
Lemma segments_only p cs : only_segments_at p cs -> segments_at p cs = at_point p cs.
Proof.
  unfold only_segments_at, segments_at, at_point. induction cs as [|c cs IH]; intros H; [reflexivity|]. cbn [filter].
  rewrite IH by (intros c' Hc'; apply H; now right).
  destruct (starts_at p c) eqn:E; [|now rewrite andb_false_r]. rewrite (H c (or_introl eq_refl) E). reflexivity.
Qed.
Lemma python_chains ms src l cs : concat ms = map as_capture cs -> Forall (covers src) cs ->
  exists ids, python_identifiers ms src l = Ok ids /\ NoDup (map py_start ids) /\
    forall p, only_segments_at p cs -> forall i, In i ids /\ py_start i = down l p <-> is_chain l p cs i.
Proof.
  intros E Hc. unfold python_identifiers. rewrite E.
  destruct (py_run src cs [] []) as (m & Em & Hn & Hg); [split; [constructor|reflexivity]|exact Hc|].
  rewrite Em. cbn [bind]. cbn [app] in Hg. eexists. split; [reflexivity|].
  assert (Hs : map py_start (py_merge l m) = map (fun p => shift_row p l) (map fst m)).
  { unfold py_merge. rewrite !map_map. reflexivity. }
  split.
  { rewrite Hs. clear -Hn. induction Hn as [|p ps H Hn IH]; [constructor|]. cbn [map]. constructor; [|exact IH].
    rewrite in_map_iff. intros (q & Eq & Hq). apply shift_row_inj in Eq. now subst. }
  intros p Hp i. unfold is_chain. rewrite (segments_only p cs Hp). change (down l p) with (shift_row p l). split.
  - intros (Hi & Es). unfold py_merge in Hi. apply in_map_iff in Hi. destruct Hi as ((q & segs) & Ei & Hq).
    cbn [fst snd] in Ei. assert (q = p) by (subst i; cbn [py_start] in Es; now apply shift_row_inj in Es). subst q.
    apply (pget_In p segs m Hn) in Hq. rewrite Hg in Hq.
    destruct (at_point p cs) as [|x t] eqn:Ea; [discriminate|]. inversion Hq as [Hq']. clear Hq.
    destruct (exists_last (l:=x :: t) ltac:(discriminate)) as (front & z & Ez). exists z, front. split; [exact Ez|].
    change (map seg_of (x :: t)) with (map seg_of (x :: t)) in Hq'.
    assert (Hseg : segs = map seg_of (x :: t)) by (rewrite <- Hq'; reflexivity). clear Hq'. rewrite <- Ei, Hseg, join_dots_concat, map_map.
    rewrite Ez at 1. rewrite map_app. cbn [map]. rewrite last_opt_app by discriminate. reflexivity.
  - intros (z & front & Ez & ->). cbn [py_start]. split; [|reflexivity]. unfold py_merge. apply in_map_iff.
    exists (p, map seg_of (at_point p cs)). split.
    + cbn [fst snd]. rewrite join_dots_concat, map_map. rewrite Ez at 1. rewrite map_app. cbn [map]. rewrite last_opt_app by discriminate. reflexivity.
    + apply (pget_In _ _ m Hn). rewrite Hg, Ez. destruct front; reflexivity.
Qed.

(** ** Backend definitions *)
Lemma strip_unquoted s : strip_quotes s = unquoted s.
Proof.
  unfold strip_quotes, unquoted. induction s as [|a s IH]; [reflexivity|]. cbn [remove_chars list_ascii_of_string filter].
  assert (E : (Ascii.eqb a dquote || Ascii.eqb a squote) = is_quote a).
  { unfold is_quote. destruct (Ascii.eqb_spec a dquote) as [->|Hd]; [reflexivity|]. destruct (Ascii.eqb_spec a squote) as [->|Hq]; [reflexivity|].
    symmetry. apply orb_false_iff. split; apply N.eqb_neq; intros K.
    - apply Hd. change 34 with (N_of_ascii dquote) in K. rewrite <- (ascii_N_embedding a), K. now rewrite ascii_N_embedding.
    - apply Hq. change 39 with (N_of_ascii squote) in K. rewrite <- (ascii_N_embedding a), K. now rewrite ascii_N_embedding. }
  rewrite E. destruct (is_quote a); [exact IH|]. cbn [negb string_of_list_ascii]. now rewrite IH.
Qed.
Lemma flat_all tp ms : flat_captures true tp ms = concat ms.
Proof.
  unfold flat_captures. induction ms as [|m ms IH]; [reflexivity|]. cbn [flat_map concat]. rewrite IH. f_equal.
  clear. induction m as [|x m IH]; [reflexivity|]. cbn [filter orb]. f_equal. exact IH.
Qed.
Lemma backend_run src cs : forall vars, Forall (covers src) cs ->
  run (backend_check src) vars (map as_capture cs) = Ok (vars ++ definitions_in cs).
Proof.
  unfold definitions_in. induction cs as [|c cs IH]; intros vars Hc; [cbn; now rewrite app_nil_r|].
  inversion Hc; subst. cbn [map run before_error]. unfold backend_check at 1. cbn [as_capture c_name c_node].
  unfold covers in H1.
  destruct (bc_name c) eqn:En; try (cbn [flat_map]; unfold defined at 1; rewrite En; cbn [app]; now apply IH).
  - cbn [flat_map]. now rewrite app_nil_r.
  - rewrite H1. cbn [bind flat_map]. unfold defined at 1. rewrite En. rewrite IH by assumption. rewrite <- app_assoc. reflexivity.
  - rewrite H1. cbn [bind flat_map]. unfold defined at 1. rewrite En. rewrite IH by assumption. rewrite <- app_assoc.
    rewrite strip_unquoted. reflexivity.
Qed.
Lemma definitions_exact ms tp src cs : concat ms = map as_capture cs -> Forall (covers src) cs ->
  backend_definition_query ms tp src true = Ok (definitions_in cs).
Proof. intros E Hc. unfold backend_definition_query. rewrite flat_all, E. exact (backend_run src cs [] Hc). Qed.

(** ** Template references *)
Lemma follows_snoc pre c :
  follows_loader (pre ++ [c]) = if is_loader c then true else if is_string c then false else follows_loader pre.
Proof.
  unfold follows_loader. rewrite filter_app. cbn [filter]. destruct (is_loader c) eqn:El; cbn [orb].
  - rewrite rev_app_distr. cbn [rev app]. exact El.
  - destruct (is_string c); [rewrite rev_app_distr; cbn [rev app]; exact El|]. now rewrite app_nil_r.
Qed.
Lemma loader_methods c : bc_name c = CMethodName -> str_mem (bc_text c) methods = is_loader c.
Proof. intros E. unfold is_loader. rewrite E. cbn. now rewrite orb_false_r. Qed.
Lemma references_run src cs : forall pre found, Forall (covers src) cs ->
  exists fl, run (bt_check src) (mkbt found (follows_loader pre)) (map as_capture cs) =
    Ok (mkbt (found ++ references pre cs) fl).
Proof.
  induction cs as [|c cs IH]; intros pre found Hc; [exists (follows_loader pre); cbn; now rewrite app_nil_r|].
  inversion Hc; subst. cbn [map run references]. unfold bt_check at 1. cbn [as_capture c_name c_node bt_in_method bt_templates].
  unfold covers in H1. pose proof (follows_snoc pre c) as Hf.
  destruct (bc_name c) eqn:En;
    try (unfold is_loader, is_string in *; rewrite En in *; cbn [andb app]; rewrite <- Hf; now apply IH).
  - assert (El : is_loader c = false) by (unfold is_loader; now rewrite En).
    assert (Es : is_string c = true) by (unfold is_string; now rewrite En). rewrite El, Es in Hf. rewrite Es. cbn [andb].
    destruct (follows_loader pre).
    + rewrite H1. cbn [bind]. rewrite <- Hf. destruct (IH (pre ++ [c]) (found ++ [mention JinjaTemplate c (unquoted (bc_text c))]) H2) as (fl & E).
      exists fl. rewrite <- app_assoc in E. rewrite <- E. rewrite strip_unquoted. reflexivity.
    + rewrite <- Hf. now apply IH.
  - assert (Es : is_string c = false) by (unfold is_string; now rewrite En). rewrite Es in *. cbn [andb app].
    rewrite H1. cbn [bind]. rewrite (loader_methods c En). destruct (is_loader c); rewrite <- Hf; now apply IH.
Qed.
Lemma references_exact ms tp src cs : concat ms = map as_capture cs -> Forall (covers src) cs ->
  exists s, backend_templates_query ms tp src true = Ok s /\ bt_templates s = references [] cs.
Proof.
  intros E Hc. unfold backend_templates_query. rewrite flat_all, E.
  destruct (references_run src cs [] [] Hc) as (fl & Er). eexists. split; [exact Er|reflexivity].
Qed.

(** ** What is written *)
Lemma substring_split s : forall a m n, String.substring a (m + n) s = (String.substring a m s ++ String.substring (a + m) n s)%string.
Proof.
  induction s as [|x s IH]; intros a m n.
  - destruct a, m, n; reflexivity.
  - destruct a as [|a].
    + destruct m as [|m]; [reflexivity|]. cbn [Nat.add String.substring append]. f_equal. exact (IH 0%nat m n).
    + cbn [Nat.add String.substring]. apply IH.
Qed.
Lemma written_app src a m z : a <= m -> m <= z -> written src a z = (written src a m ++ written src m z)%string.
Proof.
  intros H1 H2. unfold written. replace (N.to_nat (z - a)) with (N.to_nat (m - a) + N.to_nat (z - m))%nat by lia.
  rewrite substring_split. repeat f_equal. lia.
Qed.
Lemma covers_written src c : covers src c ->
  bc_text c = written src (n_sb (bc_node c)) (n_eb (bc_node c)) /\ n_sb (bc_node c) <= n_eb (bc_node c).
Proof.
  unfold covers, utf8_text, written. destruct (N.leb_spec (n_sb (bc_node c)) (n_eb (bc_node c))) as [Hl|]; [|discriminate].
  destruct (n_eb (bc_node c) <=? slen src); [|discriminate]. cbn [andb].
  intros H. split; [|exact Hl]. assert (K : forall (x y : option string), Ok x = Ok y -> x = y) by (intros; congruence).
  apply K in H. destruct (valid_utf8 _); congruence.
Qed.
Lemma dotted_written src front : forall c z, Forall (covers src) (c :: front ++ [z]) -> dotted src (c :: front ++ [z]) ->
  String.concat "." (map bc_text (c :: front ++ [z])) = written src (n_sb (bc_node c)) (n_eb (bc_node z)) /\
  n_sb (bc_node c) <= n_eb (bc_node z).
Proof.
  induction front as [|d front IH]; intros c z Hc Hd.
  - cbn [app] in *. inversion Hc as [|? ? Hc1 Hc2]; subst. inversion Hc2 as [|? ? Hc3 _]; subst.
    destruct (covers_written src c Hc1) as (E1 & L1). destruct (covers_written src z Hc3) as (E2 & L2).
    cbn [dotted] in Hd. destruct Hd as (A & B & _). cbn [map String.concat]. rewrite E1, E2. split; [|lia].
    rewrite (written_app src (n_sb (bc_node c)) (n_eb (bc_node c)) (n_eb (bc_node z))) by lia.
    rewrite (written_app src (n_eb (bc_node c)) (n_eb (bc_node c) + 1) (n_eb (bc_node z))) by lia. rewrite B, <- A. reflexivity.
  - cbn [app] in *. inversion Hc as [|? ? Hc1 Hc2]; subst. destruct (covers_written src c Hc1) as (E1 & L1).
    assert (Hc3 := Hc2). inversion Hc2 as [|? ? Hc4 _]; subst. destruct (covers_written src d Hc4) as (_ & L2).
    destruct Hd as (A & B & Hd). destruct (IH d z Hc3 Hd) as (E & L). split; [|lia].
    change (String.concat "." (map bc_text (c :: d :: front ++ [z]))) with
      (bc_text c ++ "." ++ String.concat "." (map bc_text (d :: front ++ [z])))%string.
    rewrite E, E1.
    rewrite (written_app src (n_sb (bc_node c)) (n_eb (bc_node c)) (n_eb (bc_node z))) by lia.
    rewrite (written_app src (n_eb (bc_node c)) (n_eb (bc_node c) + 1) (n_eb (bc_node z))) by lia. rewrite B, <- A. reflexivity.
Qed.
Lemma chain_written ms src l cs p ids i c rest :
  concat ms = map as_capture cs -> Forall (covers src) cs -> only_segments_at p cs ->
  segments_at p cs = c :: rest -> dotted src (c :: rest) ->
  python_identifiers ms src l = Ok ids -> In i ids -> py_start i = down l p ->
  exists z, In z (c :: rest) /\ py_end i = down l (n_end (bc_node z)) /\
    py_field i = written src (n_sb (bc_node c)) (n_eb (bc_node z)).
Proof.
  intros E Hc Ho Hs Hd Hi Hin Hst. destruct (python_chains ms src l cs E Hc) as (ids' & Hi' & _ & H).
  rewrite Hi in Hi'. assert (K : forall (x y : list pyid), Ok x = Ok y -> x = y) by (intros; congruence). apply K in Hi'. subst ids'.
  destruct (proj1 (H p Ho i) (conj Hin Hst)) as (z & front & Ez & ->). rewrite Hs in Ez.
  assert (Hcv : Forall (covers src) (c :: rest)).
  { rewrite <- Hs. unfold segments_at. apply Forall_forall. intros x Hx. apply filter_In in Hx. rewrite Forall_forall in Hc. now apply Hc. }
  exists z. cbn [py_end py_field]. rewrite Hs, Ez. split; [apply in_or_app; right; now left|]. split; [reflexivity|].
  destruct front as [|d front].
  - cbn [app] in *. inversion Ez; subst. inversion Hcv; subst. cbn [map String.concat]. now destruct (covers_written src z H2).
  - cbn [app] in *. inversion Ez; subst. now destruct (dotted_written src front d z Hcv Hd).
Qed.
Lemma unquoted_app s t : unquoted (s ++ t) = (unquoted s ++ unquoted t)%string.
Proof.
  unfold unquoted. induction s as [|a s IH]; [reflexivity|]. cbn [append list_ascii_of_string filter].
  destruct (negb (is_quote a)); cbn [string_of_list_ascii append]; now rewrite IH.
Qed.
Lemma unquoted_plain s : plain s -> unquoted s = s.
Proof.
  unfold unquoted, plain. induction s as [|a s IH]; intros H; [reflexivity|]. cbn [list_ascii_of_string filter].
  rewrite (H a) by now left. cbn [negb string_of_list_ascii]. rewrite IH; [reflexivity|]. intros x Hx. apply H. now right.
Qed.
Lemma unquoted_literal q s : is_quote q = true -> plain s -> unquoted (literal_of q s) = s.
Proof.
  intros Hq Hs. unfold literal_of. change (String q (s ++ String q EmptyString)) with (String q EmptyString ++ (s ++ String q EmptyString))%string.
  rewrite !unquoted_app, (unquoted_plain s Hs). assert (E : unquoted (String q EmptyString) = EmptyString) by (unfold unquoted; cbn [list_ascii_of_string filter]; now rewrite Hq).
  rewrite E. cbn [append]. clear. induction s as [|a s IH]; [reflexivity|]. cbn [append]. now rewrite IH.
Qed.
Lemma references_app pre a r : references pre (a ++ r) = references pre a ++ references (pre ++ a) r.
Proof.
  revert pre. induction a as [|x a IH]; intros pre; [cbn; now rewrite app_nil_r|]. cbn [app references].
  rewrite IH, <- !app_assoc. reflexivity.
Qed.
Lemma literal_named ms tp src pre m c post q s :
  concat ms = map as_capture (pre ++ m :: c :: post) -> Forall (covers src) (pre ++ m :: c :: post) ->
  is_loader m = true -> is_string c = true -> bc_text c = literal_of q s -> is_quote q = true -> plain s ->
  exists st, backend_templates_query ms tp src true = Ok st /\
    In (mkid (n_start (bc_node c)) (n_end (bc_node c)) s (0, pt0) JinjaTemplate []) (bt_templates st).
Proof.
  intros E Hc Hm Hs Ht Hq Hp. destruct (references_exact ms tp src _ E Hc) as (st & E1 & E2). exists st. split; [exact E1|].
  rewrite E2, references_app. apply in_or_app. right. cbn [references app]. apply in_or_app. right. apply in_or_app. left.
  rewrite Hs, follows_snoc, Hm. cbn [andb]. left. unfold mention. now rewrite Ht, unquoted_literal.
Qed.

(** ** The server *)
Section Server.
Context {T : ts}.
Implicit Types s : lsp_files T.
Lemma backend_variables F b uri (t : text) ig s s' d tr ds rs :
  file_ext uri = Some Backend ->
  t_parse T (ls_parser s) (encode t) (sget uri (ls_bt s)) = Some tr ->
  concat (t_captures T (QBackendDefs (ls_query s)) tr (encode t)) = map as_capture ds -> Forall (covers (encode t)) ds ->
  concat (t_captures T (QBackendTemplates (ls_query s)) tr (encode t)) = map as_capture rs -> Forall (covers (encode t)) rs ->
  did_open F b uri t ig s = Ok (s', d) ->
  sget uri (ls_vars s') = Some (definitions_in ds ++ references [] rs).
Proof.
  intros Hx Ht Ed Hd Er Hr H. unfold did_open in H. rewrite Hx in H.
  set (s2 := set_docs (sinsert uri t (ls_docs (delete_variables uri s))) (delete_variables uri s)) in *.
  assert (Hs2 : ls_bt s2 = ls_bt s /\ ls_query s2 = ls_query s /\ ls_parser s2 = ls_parser s).
  { destruct (delete_variables_docs uri s) as (D1 & D2 & D3 & D4). unfold s2. lsimp.
    repeat split; try assumption. unfold delete_variables. destruct (sget uri (ls_vars s)); reflexivity. }
  destruct Hs2 as (E1 & E2 & E3).
  assert (Ha : exists s3, add_variables uri Backend (encode t) (add_tree uri Backend (encode t) s2) = Ok s3 /\
                sget uri (ls_vars s3) = Some (definitions_in ds ++ references [] rs)).
  { unfold add_tree, parse. cbn [trees_of]. rewrite E1, E3, Ht. unfold add_variables. cbn [trees_of set_trees ls_bt].
    rewrite sget_sinsert_same. 
    match goal with |- context [ls_query ?x] => change (ls_query x) with (ls_query s2) end. rewrite E2.
    rewrite (definitions_exact _ pt0 _ _ Ed Hd). cbn [bind].
    destruct (references_exact _ pt0 _ _ Er Hr) as (st & Est & Eb). rewrite Est. cbn [bind]. rewrite Eb.
    eexists. split; [reflexivity|]. lsimp. apply sget_sinsert_same. }
  destruct Ha as (s3 & E & Hv).
  destruct (add_variables uri Backend (encode t) (add_tree uri Backend (encode t) s2)) as [s4|] eqn:E4; [|discriminate].
  inversion E; subst s4. cbn [bind] in H.
  assert (s' = s3) as ->; [|exact Hv].
  destruct ig; [inversion H; reflexivity|]. destruct (read_tree F b uri s3) as [v|]; [|discriminate]. cbn [bind] in H.
  destruct v; inversion H; reflexivity.
Qed.
End Server.
