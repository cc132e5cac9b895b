(** * PObjects: proofs about the objects query. *)
From Verif Require Import Base RString Utf8 Rope Types Captures MObjects MTemplates MSearchErrors MLspFiles SpecScope SpecObjects.
From Verif Require Import PText PFiles PScope PScope2.

(** ** Points *)
Ltac pts := unfold pt_le, pt_lt, pt_leb, pt_ltb, pt_eqb, pt0 in *; cbn [row col] in *; lia.

Lemma pt_eq a b : row a = row b -> col a = col b -> a = b.
Proof. destruct a, b; cbn; intros; now subst. Qed.
Lemma pt_le_leb a b : pt_le a b -> pt_leb a b = true.
Proof. pts. Qed.
Lemma pt_leb_le a b : pt_leb a b = true -> pt_le a b.
Proof. pts. Qed.
Lemma pt_lt_leb a b : pt_lt a b -> pt_leb b a = false.
Proof. pts. Qed.
Lemma pt_le_lt_trans a b c : pt_le a b -> pt_lt b c -> pt_lt a c.
Proof. pts. Qed.
Lemma pt_lt_le_trans a b c : pt_lt a b -> pt_le b c -> pt_lt a c.
Proof. pts. Qed.
Lemma pt_lt_le a b : pt_lt a b -> pt_le a b.
Proof. pts. Qed.
Lemma pt_eqb_neq a b : pt_lt a b -> pt_eqb a b = false.
Proof. pts. Qed.
Lemma pt_eqb_refl a : pt_eqb a a = true.
Proof. pts. Qed.

Lemma str_mem_built_in s : str_mem s valid_identifiers = true <-> built_in s.
Proof.
  unfold str_mem, built_in, valid_identifiers. rewrite existsb_exists. split.
  - intros (x & Hin & E). apply String.eqb_eq in E. now subst.
  - intros Hin. exists s. split; [exact Hin|apply String.eqb_refl].
Qed.
Lemma not_built_in s : ~ built_in s -> str_mem s valid_identifiers = false.
Proof.
  intros H. destruct (str_mem s valid_identifiers) eqn:E; [|reflexivity].
  now apply str_mem_built_in in E.
Qed.

(** ** Checking a list of captures without interruption *)
Fixpoint runc (src : string) (s : jobjects) (cs : list capture) : option jobjects :=
  match cs with
  | [] => Some s
  | c :: r => match obj_check src s c with Ok (s', Some _) => runc src s' r | _ => None end
  end.

Lemma runc_app src s a b :
  runc src s (a ++ b) = match runc src s a with Some s' => runc src s' b | None => None end.
Proof.
  revert s. induction a as [|c a IH]; intros s; cbn [app runc]; [reflexivity|].
  destruct (obj_check src s c) as [[s' [x|]]|]; auto.
Qed.

Lemma run_runc b src tp all rest c i e cs s s' :
  Forall (fun c => all = true \/ pt_le (n_start (c_node c)) tp) cs ->
  runc src s cs = Some s' ->
  run (obj_step b src tp all) (mkol s c i e) (cs ++ rest) =
  run (obj_step b src tp all) (mkol s' c i e) rest.
Proof.
  revert s. induction cs as [|x cs IH]; intros s HF H; cbn [app runc] in *.
  { now inversion H. }
  inversion HF as [|? ? Hx HF']; subst. cbn [run]. unfold obj_step at 1. cbn [l_objs l_continued l_my_id l_my_expr].
  assert (E : all || pt_leb (n_start (c_node x)) tp = true).
  { destruct Hx as [->|Hx]; [reflexivity|]. rewrite (pt_le_leb _ _ Hx). apply orb_true_r. }
  rewrite E. destruct (obj_check src s x) as [[s1 [a|]]|]; try discriminate.
  cbn [bind fst snd is_some is_none negb]. now apply IH.
Qed.

(** ** Pieces *)
(** Between two pieces no test is pending and the last dot and pipe lie
    strictly before the next token. *)
Definition settled (after : point) (s : jobjects) : Prop :=
  snd (os_test s) = false /\ pt_lt (snd (os_dot s)) after /\ pt_lt (snd (os_pipe s)) after.

Lemma settled_le p q s : settled p s -> pt_le p q -> settled q s.
Proof. intros (A & B & C) H. repeat split; eauto using pt_lt_le_trans. Qed.

Lemma check_id_new src s t st :
  reads src t -> str_mem (snd t) valid_identifiers = false ->
  n_start (fst t) = st -> pt_lt st (n_end (fst t)) ->
  pt_lt (snd (os_dot s)) st ->
  obj_check src s (cap CJustId (fst t)) =
  Ok (mkobjs (os_objects s ++ [mkobj (snd t) (loc t) (pt_eqb (snd (os_pipe s)) st) (snd (os_test s)) [] false])
        (os_dot s) (os_pipe s) (fst (os_test s), false) (os_expr s) (loc t), Some ANewObject).
Proof.
  intros [Hr _] Hb <- Hlt Hd. unfold obj_check, build_object; cbn [c_name c_node cap].
  rewrite Hr. cbn [bind].
  assert (E : (row (n_start (fst t)) =? row (snd (os_dot s))) &&
              (col (n_start (fst t)) =? col (snd (os_dot s))) = false) by pts.
  rewrite E. unfold new_object. rewrite Hb. cbn [bind fst snd].
  unfold is_hover, is_filter. cbn [os_ident os_pipe fst snd].
  rewrite (pt_le_leb (n_start (fst t)) (n_start (fst t))) by pts.
  rewrite (pt_le_leb (n_start (fst t)) (n_end (fst t))) by pts.
  reflexivity.
Qed.

Lemma check_id_builtin src s t :
  reads src t -> built_in (snd t) -> pt_lt (snd (os_dot s)) (n_start (fst t)) ->
  obj_check src s (cap CJustId (fst t)) = Ok (s, Some AInvalid).
Proof.
  intros [Hr _] Hb Hd. unfold obj_check, build_object; cbn [c_name c_node cap].
  rewrite Hr. cbn [bind].
  assert (E : (row (n_start (fst t)) =? row (snd (os_dot s))) &&
              (col (n_start (fst t)) =? col (snd (os_dot s))) = false) by pts.
  rewrite E. unfold new_object. rewrite (proj2 (str_mem_built_in _) Hb). reflexivity.
Qed.

Lemma check_field src s t os o :
  reads src t -> os_objects s = os ++ [o] -> snd (os_dot s) = n_start (fst t) ->
  obj_check src s (cap CJustId (fst t)) =
  Ok (mkobjs (os ++ [obj_add_field (snd t, loc t) o]) (os_dot s) (os_pipe s) (os_test s)
        (os_expr s) (loc t), Some AInvalid).
Proof.
  intros [Hr _] Ho Hd. unfold obj_check, build_object; cbn [c_name c_node cap].
  rewrite Hr. cbn [bind]. rewrite Hd, !N.eqb_refl. cbn [andb]. rewrite Ho.
  destruct (os ++ [o]) eqn:E; [now destruct os|]. rewrite <- E, update_last_snoc. reflexivity.
Qed.

Lemma check_op src s t :
  reads src t -> ~ (exists r, snd t = ("|" ++ r)%string) ->
  obj_check src s (cap CPipe (fst t)) = Ok (s, Some ANewFilter).
Proof.
  intros [Hr _] Hn. unfold obj_check; cbn [c_name c_node cap]. rewrite Hr. cbn [bind].
  destruct (starts_with (snd t) "|") eqn:E; [|reflexivity]. exfalso. apply Hn.
  unfold starts_with in E. destruct (snd t) as [|a r]; [discriminate|].
  cbn [String.prefix] in E. destruct (ascii_dec "|"%char a); [|discriminate]. subst. now exists r.
Qed.
Lemma check_pipe src s t :
  reads src t -> (exists r, snd t = ("|" ++ r)%string) ->
  obj_check src s (cap CPipe (fst t)) =
  Ok (mkobjs (os_objects s) (os_dot s) (loc t) (os_test s) (os_expr s) (os_ident s), Some ANewFilter).
Proof.
  intros [Hr _] [r E]. unfold obj_check; cbn [c_name c_node cap]. rewrite Hr. cbn [bind].
  rewrite E. cbn. destruct r; reflexivity.
Qed.

Definition add_fields (fs : list access) (o : jobject) : jobject :=
  mkobj (o_name o) (o_loc o) (o_is_filter o) (o_is_test o) (o_fields o ++ map field_of fs)
    (o_capture_first o).

(** Where the last segment of a chain lies. *)
Definition seg_after (i : point * point) (fs : list access) : point * point :=
  match last_opt fs with Some a => loc (a_name a) | None => i end.

Lemma last_opt_cons {A} (x : A) l : last_opt (x :: l) = match last_opt l with Some y => Some y | None => Some x end.
Proof.
  destruct l as [|a l]; [reflexivity|].
  change (last_opt (a :: l) = match last_opt (a :: l) with Some y => Some y | None => Some x end).
  destruct (last_opt (a :: l)) eqn:E; [reflexivity|]. now apply last_opt_none in E.
Qed.

Definition end_after (after : point) (fs : list access) : point :=
  match last_opt fs with Some a => n_end (fst (a_name a)) | None => after end.

Lemma ordered_accesses fs : forall after ms,
  ordered after (flat_map marks_access fs ++ ms) ->
  ordered after (flat_map marks_access fs) /\ ordered (end_after after fs) ms /\
  pt_le after (end_after after fs).
Proof.
  induction fs as [|a fs IH]; intros after ms H.
  - cbn. repeat split; [exact H|pts].
  - cbn [flat_map marks_access app ordered] in *. destruct H as (H1 & H2 & H3 & H4 & H5).
    destruct (IH _ _ H5) as (A & B & C).
    assert (E : end_after after (a :: fs) = end_after (n_end (fst (a_name a))) fs).
    { unfold end_after. rewrite last_opt_cons. destruct (last_opt fs); reflexivity. }
    rewrite E. repeat split; auto. pts.
Qed.

Lemma runc_accesses src fs : forall s os o after,
  Forall (access_ok src) fs -> ordered after (flat_map marks_access fs) ->
  os_objects s = os ++ [o] -> settled after s ->
  exists s',
    runc src s (flat_map cap_access fs) = Some s' /\
    os_objects s' = os ++ [add_fields fs o] /\
    settled (end_after after fs) s' /\
    os_ident s' = seg_after (os_ident s) fs /\ os_expr s' = os_expr s /\ os_pipe s' = os_pipe s.
Proof.
  induction fs as [|a fs IH]; intros s os o after HF Ho Eo Hs.
  - exists s. unfold add_fields, seg_after, end_after. cbn [map flat_map last_opt app runc].
    rewrite app_nil_r. destruct o. auto 10.
  - inversion HF as [|? ? (Hd & Hn & Hadj) HF']; subst.
    cbn [flat_map marks_access app ordered] in Ho. destruct Ho as (H1 & H2 & H3 & H4 & H5).
    cbn [flat_map]. unfold cap_access at 1.
    set (s1 := mkobjs (os_objects s) (n_start (a_dot a), n_end (a_dot a)) (os_pipe s) (os_test s)
                 (os_expr s) (os_ident s)).
    assert (Hop : forall s, obj_check src s (cap CPipe (a_dot a)) = Ok (s, Some ANewFilter)).
    { intros s0. apply (check_op src s0 (a_dot a, "."%string) Hd). intros [r Er]. discriminate. }
    assert (Hdo : obj_check src s (cap CDot (a_dot a)) = Ok (s1, Some ANewField)) by reflexivity.
    assert (Hdc : forall cs, runc src s ((if a_dot_first a then [cap CDot (a_dot a); cap CPipe (a_dot a)]
       else [cap CPipe (a_dot a); cap CDot (a_dot a)]) ++ cs) = runc src s1 cs).
    { intros cs. destruct (a_dot_first a); cbn [app runc].
      - now rewrite Hdo, Hop.
      - now rewrite Hop, Hdo. }
    rewrite <- !app_assoc, Hdc. cbn [app runc].
    rewrite (check_field src s1 (a_name a) os o Hn Eo Hadj).
    set (s2 := mkobjs _ _ _ _ _ _).
    destruct (IH s2 os (obj_add_field (snd (a_name a), loc (a_name a)) o) (n_end (fst (a_name a))) HF' H5 eq_refl)
      as (s' & R & Ob & Se & Id & Ex & Pi).
    { destruct Hs as (T1 & T2 & T3). unfold settled, s2, s1; cbn. repeat split; [exact T1| |].
      - rewrite Hadj. exact H4.
      - pts. }
    exists s'. split; [exact R|]. split.
    { rewrite Ob. unfold add_fields, obj_add_field; cbn. now rewrite <- app_assoc. }
    split.
    { unfold end_after in *. rewrite last_opt_cons. destruct (last_opt fs); exact Se. }
    split; [|split; [exact Ex|exact Pi]].
    rewrite Id. unfold seg_after. rewrite last_opt_cons. destruct (last_opt fs); reflexivity.
Qed.

(** ** One piece *)

Lemma pt_max_l a b : pt_le a (pt_max a b).
Proof. unfold pt_max. destruct (pt_leb a b) eqn:E; pts. Qed.
Lemma pt_max_r a b : pt_le b (pt_max a b).
Proof. unfold pt_max. destruct (pt_leb a b) eqn:E; pts. Qed.
Lemma ordered_app ms : forall after ms',
  ordered after (ms ++ ms') <-> ordered after ms /\ ordered (marks_end after ms) ms'.
Proof.
  induction ms as [|m ms IH]; intros after ms'; cbn [app ordered marks_end fold_left].
  - tauto.
  - destruct m; cbn [mark_end]; rewrite IH; unfold marks_end; tauto.
Qed.
Lemma ordered_end_le ms : forall after, ordered after ms -> pt_le after (marks_end after ms).
Proof.
  induction ms as [|m ms IH]; intros after H; cbn [marks_end fold_left].
  - pts.
  - destruct m; cbn [ordered mark_end] in *.
    + destruct H as (A & B & C). apply IH in C. unfold marks_end in C. pts.
    + apply IH in H. unfold marks_end in H. pose proof (pt_max_l after (n_start n)). pts.
Qed.
Lemma marks_end_accesses fs : forall after, marks_end after (flat_map marks_access fs) = end_after after fs.
Proof.
  induction fs as [|a fs IH]; intros after; [reflexivity|].
  cbn [flat_map marks_access app]. unfold marks_end in *. cbn [fold_left mark_end].
  rewrite IH. unfold end_after. rewrite last_opt_cons. destruct (last_opt fs); reflexivity.
Qed.

Lemma runc_nots src nots : forall s after,
  Forall (fun t => reads src t /\ built_in (snd t)) nots ->
  ordered after (map (fun t => MTok (fst t)) nots) -> pt_lt (snd (os_dot s)) after ->
  runc src s (map (fun t => cap CJustId (fst t)) nots) = Some s.
Proof.
  induction nots as [|t nots IH]; intros s after HF Ho Hd; [reflexivity|].
  inversion HF as [|? ? [Hr Hb] HF']; subst. cbn [map ordered] in Ho. destruct Ho as (A & B & C).
  cbn [map runc]. rewrite check_id_builtin; auto; [|pts]. apply (IH s (n_end (fst t))); auto. pts.
Qed.

Definition expr_info (n : node) : (point * point) * expr_range :=
  ((n_start n, n_end n), mkexpr (n_first n) (n_last n)).
Definition expr_step (e : (point * point) * expr_range) (p : piece) :=
  match p with PExpr n => expr_info n | _ => e end.
Definition expr_after (ps : list piece) : (point * point) * expr_range :=
  fold_left expr_step ps ((pt0, pt0), expr0).

Lemma runc_piece src p s after :
  piece_ok src p -> ordered after (marks p) -> settled after s ->
  exists s', runc src s (cap_piece p) = Some s' /\
    os_objects s' = os_objects s ++ uses p /\ settled (marks_end after (marks p)) s' /\
    os_expr s' = expr_step (os_expr s) p.
Proof.
  intros Hp Ho Hs. pose proof Hs as (T1 & T2 & T3).
  destruct p as [n|h fs|p name|kw nots name|t|t]; cbn [piece_ok cap_piece uses marks] in *.
  - (* expression *)
    eexists. split; [reflexivity|]. cbn. rewrite app_nil_r. split; [reflexivity|].
    split; [|reflexivity]. unfold marks_end; cbn [fold_left mark_end].
    apply (settled_le after); [exact Hs|apply pt_max_l].
  - (* chain *)
    destruct Hp as (Hr & Hb & HF). cbn [ordered] in Ho. destruct Ho as (A & B & C).
    cbn [runc]. rewrite (check_id_new src s h _ Hr (not_built_in _ Hb) eq_refl B ltac:(pts)).
    set (s1 := mkobjs _ _ _ _ _ _).
    assert (Hf : pt_eqb (snd (os_pipe s)) (n_start (fst h)) = false) by (apply pt_eqb_neq; pts).
    destruct (runc_accesses src fs s1 (os_objects s) (mkobj (snd h) (loc h) false false [] false)
                (n_end (fst h)) HF C) as (s' & R & Ob & Se & Id & Ex & Pi).
    { unfold s1; cbn. now rewrite Hf, T1. }
    { unfold settled, s1; cbn. repeat split; pts. }
    exists s'. split; [exact R|]. split; [rewrite Ob; reflexivity|]. split; [|rewrite Ex; reflexivity].
    unfold marks_end; cbn [fold_left mark_end]. fold (marks_end (n_end (fst h)) (flat_map marks_access fs)).
    now rewrite marks_end_accesses.
  - (* filter *)
    destruct Hp as (Hr & Hpi & Hadj & Hn & Hb). cbn [ordered] in Ho.
    destruct Ho as (A & B & C & D & _). cbn [runc]. rewrite check_pipe by assumption. cbn [runc].
    set (s1 := mkobjs _ _ _ _ _ _).
    rewrite (check_id_new src s1 name _ Hn (not_built_in _ Hb) eq_refl D) by (cbn; pts).
    eexists. split; [reflexivity|]. cbn. rewrite T1. unfold loc at 1; cbn.
    rewrite Hadj, pt_eqb_refl. split; [reflexivity|]. split; [|reflexivity].
    unfold settled; cbn. rewrite Hadj. repeat split; pts.
  - (* test *)
    destruct Hp as (HF & Hn & Hb). cbn [ordered] in Ho. destruct Ho as (A & B & C).
    apply ordered_app in C. destruct C as (C1 & C2). cbn [ordered] in C2. destruct C2 as (D & E & _).
    cbn [runc]. unfold obj_check at 1. cbn [cap c_name c_node].
    set (s1 := mkobjs _ _ _ _ _ _). rewrite runc_app.
    pose proof (ordered_end_le _ _ C1) as L.
    rewrite (runc_nots src nots s1 (n_end kw) HF C1) by (cbn; pts). cbn [runc].
    rewrite (check_id_new src s1 name _ Hn (not_built_in _ Hb) eq_refl E) by (cbn; pts).
    eexists. split; [reflexivity|]. cbn.
    rewrite (pt_eqb_neq (snd (os_pipe s)) (n_start (fst name))) by pts.
    split; [reflexivity|]. split; [|reflexivity].
    unfold marks_end. rewrite fold_left_app. cbn [fold_left mark_end].
    unfold settled; cbn. repeat split; pts.
  - (* built in *)
    destruct Hp as (Hr & Hb). cbn [ordered] in Ho. destruct Ho as (A & B & _).
    cbn [runc]. rewrite check_id_builtin; auto; [|pts]. exists s. split; [reflexivity|].
    rewrite app_nil_r. split; [reflexivity|]. split; [|reflexivity]. cbn. eapply settled_le; eauto. pts.
  - (* operator *)
    destruct Hp as (Hr & Hb & _). cbn [ordered] in Ho. destruct Ho as (A & B & _).
    cbn [runc]. rewrite check_op; auto. exists s. split; [reflexivity|].
    rewrite app_nil_r. split; [reflexivity|]. split; [|reflexivity]. cbn. eapply settled_le; eauto. pts.
Qed.

Lemma runc_pieces src ps : forall s after,
  Forall (piece_ok src) ps -> ordered after (flat_map marks ps) -> settled after s ->
  exists s', runc src s (cap_pieces ps) = Some s' /\
    os_objects s' = os_objects s ++ flat_map uses ps /\ settled (marks_end after (flat_map marks ps)) s' /\
    os_expr s' = fold_left expr_step ps (os_expr s).
Proof.
  induction ps as [|p ps IH]; intros s after HF Ho Hs.
  - exists s. cbn. rewrite app_nil_r. auto.
  - inversion HF as [|? ? Hp HF']; subst. cbn [flat_map] in Ho. apply ordered_app in Ho.
    destruct Ho as (O1 & O2). destruct (runc_piece src p s after Hp O1 Hs) as (s1 & R1 & E1 & S1 & X1).
    destruct (IH s1 _ HF' O2 S1) as (s2 & R2 & E2 & S2 & X2).
    exists s2. unfold cap_pieces in *. cbn [flat_map]. rewrite runc_app, R1. split; [exact R2|].
    rewrite E2, E1, <- app_assoc. split; [reflexivity|]. split.
    + unfold marks_end in *. now rewrite fold_left_app.
    + cbn [fold_left]. now rewrite X2, X1.
Qed.

Lemma settled0 p : pt_lt pt0 p -> settled p jobjects0.
Proof. intros H. unfold settled; cbn. auto. Qed.

(** C17. *)
Lemma objects_exact b src ms tp ps :
  pieces_ok src ps -> concat ms = cap_pieces ps ->
  exists s, objects_query b ms tp src true = Ok s /\ os_objects s = flat_map uses ps.
Proof.
  intros (HF & p0 & Hp0 & Ho) E.
  destruct (runc_pieces src ps jobjects0 p0 HF Ho (settled0 _ Hp0)) as (s & R & Eo & _).
  exists s. split; [|exact Eo]. unfold objects_query. rewrite E. rewrite <- (app_nil_r (cap_pieces ps)).
  unfold oloop0. rewrite (run_runc b src tp true [] false 0 _ (cap_pieces ps) jobjects0 s).
  - reflexivity.
  - apply Forall_forall. auto.
  - exact R.
Qed.

Lemma objects_until b src ms tp ps tail :
  pieces_ok src ps -> concat ms = cap_pieces ps ++ tail -> stops tail ->
  exists s, objects_query b ms tp src true = Ok s /\ os_objects s = flat_map uses ps.
Proof.
  intros (HF & p0 & Hp0 & Ho) E Ht.
  destruct (runc_pieces src ps jobjects0 p0 HF Ho (settled0 _ Hp0)) as (s & R & Eo & _).
  exists s. split; [|exact Eo]. unfold objects_query. rewrite E.
  unfold oloop0. rewrite (run_runc b src tp true tail false 0 _ (cap_pieces ps) jobjects0 s).
  - destruct Ht as [->|(c & r & -> & Hc)]; [reflexivity|]. cbn [run]. unfold obj_step. cbn [orb].
    unfold obj_check. rewrite Hc. reflexivity.
  - apply Forall_forall. auto.
  - exact R.
Qed.

(** ** No panic (C18) *)
Definition texts_ok (src : string) (cs : list capture) : Prop := Forall (text_ok src) cs.

Definition idle (tp : point) (s : jobjects) : Prop :=
  os_objects s = [] ->
  os_ident s = (pt0, pt0) /\
  (os_pipe s = (pt0, pt0) \/ (fst (os_pipe s) <> pt0 /\ pt_le (fst (os_pipe s)) tp)).

Lemma obj_check_ok src s c : text_ok src c -> exists r, obj_check src s c = Ok r.
Proof.
  intros H. unfold obj_check, build_object. unfold text_ok in H.
  destruct (c_name c); cbn [bind]; eauto;
    (destruct (utf8_text (c_node c) src) as [[v|]|] eqn:E; [| |congruence]); cbn [bind]; eauto;
    destruct ((row (n_start (c_node c)) =? row (snd (os_dot s))) &&
              (col (n_start (c_node c)) =? col (snd (os_dot s)))); cbn [bind]; eauto;
    destruct (os_objects s); cbn [bind]; eauto.
Qed.

Lemma new_object_grows s v st en s' a :
  new_object s v st en = (s', a) -> s' = s \/ os_objects s' <> [].
Proof.
  unfold new_object. destruct (str_mem v valid_identifiers); intros H; inversion H; [now left|].
  right. cbn. destruct (os_objects s); discriminate.
Qed.

Lemma obj_check_idle src tp s c s' a :
  (c_name c = CPipe -> n_start (c_node c) <> pt0) -> pt_le (n_start (c_node c)) tp ->
  idle tp s -> obj_check src s c = Ok (s', a) -> idle tp s'.
Proof.
  intros Hn Hle Hi H He. unfold obj_check in H.
  destruct (c_name c) eqn:Ec; try (inversion H; subst; now apply Hi).
  - (* identifier *)
    unfold build_object in H. destruct (utf8_text (c_node c) src) as [[v|]|]; [| |discriminate];
      cbn [bind fst snd] in H.
    + destruct ((_ =? _) && (_ =? _)).
      * destruct (os_objects s) eqn:Eo; cbn [bind] in H.
        -- destruct (new_object s v _ _) as [s1 a1] eqn:En. inversion H; subst.
           apply new_object_grows in En. destruct En as [->|En]; [now apply Hi|easy].
        -- inversion H; subst. cbn [os_objects] in He. destruct l; discriminate.
      * cbn [bind] in H. destruct (new_object s v _ _) as [s1 a1] eqn:En. inversion H; subst.
        apply new_object_grows in En. destruct En as [->|En]; [now apply Hi|easy].
    + inversion H; subst. now apply Hi.
  - (* pipe *)
    destruct (utf8_text (c_node c) src) as [[v|]|]; [| |discriminate]; cbn [bind] in H;
      inversion H; subst; try now apply Hi.
    destruct (starts_with v "|"); [|now apply Hi].
    cbn in *. destruct (Hi He) as (A & _). split; [exact A|]. right. auto.
Qed.

Lemma obj_check_nonempty src s c s' a :
  os_objects s <> [] -> obj_check src s c = Ok (s', a) -> os_objects s' <> [].
Proof.
  intros Hn H. unfold obj_check in H. destruct (c_name c); try (inversion H; subst; exact Hn).
  - unfold build_object in H. destruct (utf8_text (c_node c) src) as [[v|]|]; [| |discriminate];
      cbn [bind fst snd] in H.
    + destruct ((_ =? _) && (_ =? _)).
      * destruct (os_objects s) as [|o l] eqn:Eo; [easy|]. cbn [bind] in H. inversion H; subst.
        cbn [os_objects]. destruct l; discriminate.
      * cbn [bind] in H. destruct (new_object s v _ _) as [s1 a1] eqn:En. inversion H; subst.
        apply new_object_grows in En. destruct En as [->|En]; [exact Hn|exact En].
    + inversion H; subst. exact Hn.
  - destruct (utf8_text (c_node c) src) as [[v|]|]; [| |discriminate]; cbn [bind] in H;
      inversion H; subst; try exact Hn. destruct (starts_with v "|"); exact Hn.
Qed.

Lemma usize_sub_nonempty {A} b (l : list A) :
  l <> [] -> usize_sub b (N.of_nat (length l)) 1 = Ok (N.of_nat (length l) - 1).
Proof.
  intros H. unfold usize_sub. destruct l; [easy|]. cbn [length].
  assert (E : 1 <=? N.of_nat (S (length l)) = true) by lia. now rewrite E.
Qed.

Lemma update_nth_length {A} n f : forall (l : list A), length (update_nth n f l) = length l.
Proof. induction n; intros [|x l]; cbn; auto. Qed.

Lemma finish_lookahead_ok b l s : os_objects s <> [] -> exists s', finish_lookahead b l s = Ok s'.
Proof.
  intros H. unfold finish_lookahead.
  set (s1 := match nth_error _ _ with Some o => _ | None => _ end).
  assert (H1 : os_objects s1 <> []).
  { unfold s1. destruct (nth_error _ _); [|exact H]. cbn. intros E.
    apply H. apply length_zero_iff_nil. rewrite <- (update_nth_length (N.to_nat (l_my_id l)) obj_capture_first), E. reflexivity. }
  rewrite usize_sub_nonempty by exact H1. cbn [bind].
  destruct (negb _); eauto.
Qed.

Lemma objects_no_panic b src tp all cs :
  texts_ok src cs -> Forall (fun c => c_name c = CPipe -> n_start (c_node c) <> pt0) cs ->
  forall l, (all = true \/ idle tp (l_objs l)) ->
    (l_continued l = true -> os_objects (l_objs l) <> []) ->
  exists l', run (obj_step b src tp all) l cs = Ok l'.
Proof.
  induction cs as [|c cs IH]; intros HT HP l Hi Hc; [cbn; eauto|].
  inversion HT as [|? ? Ht HT']; inversion HP as [|? ? Hp HP']; subst.
  cbn [run]. unfold obj_step. cbn zeta.
  destruct (all || pt_leb (n_start (c_node c)) tp) eqn:En.
  - destruct (obj_check_ok src (l_objs l) c Ht) as [[s' a] E]. rewrite E. cbn [bind fst snd].
    destruct (is_some a); [|eauto]. apply IH; auto.
    + destruct Hi as [Hi|Hi]; [now left|]. apply orb_true_iff in En. destruct En as [En|En]; [now left|].
      right. cbn. eapply obj_check_idle; eauto. now apply pt_leb_le.
    + cbn. intros Hl. eapply obj_check_nonempty; eauto.
  - apply orb_false_iff in En. destruct En as [-> Elt]. destruct Hi as [Hi|Hi]; [discriminate|].
    destruct (pt_leb tp (n_start (c_node c))) eqn:Ele; [|pts].
    destruct (is_filter (l_objs l) || _) eqn:Ef; [eauto|]. apply orb_false_iff in Ef. destruct Ef as [Ef _].
    destruct (l_continued l) eqn:Eco; cbn [negb].
    + destruct (obj_check_ok src (l_objs l) c Ht) as [[s' a] E]. rewrite E. cbn [bind fst snd].
      assert (Hne : os_objects s' <> []) by (eapply obj_check_nonempty; eauto).
      destruct (finish_lookahead_ok b l s' Hne) as [s2 E2]. rewrite E2. cbn [bind].
      destruct a as [[]|]; eauto; apply IH; auto; right; intros X; cbn in X; now destruct (Hne X).
    + destruct (is_hover (l_objs l) tp) eqn:Eh; [|eauto].
      assert (Hne : os_objects (l_objs l) <> []).
      { intros X. destruct (Hi X) as (Id & Pi). unfold is_hover, os_full_range in Eh. rewrite Id, X in Eh.
        cbn [last_opt fst snd] in Eh. unfold is_filter in Ef. rewrite Id in Ef. cbn [fst] in Ef.
        assert (tp = pt0).
        { unfold to_range2, range0, to_point in Eh. cbn in Eh. destruct tp as [r cc].
          unfold pt_leb, pt0 in Eh; cbn in Eh. assert (r = 0 /\ cc = 0) by lia. now intuition subst. }
        subst tp. destruct Pi as [Pi|[Pi1 Pi2]].
        - rewrite Pi in Ef. cbn in Ef. discriminate.
        - apply Pi1. apply pt_eq; pts. }
      rewrite usize_sub_nonempty by exact Hne. cbn [bind]. apply IH; auto.
Qed.
Lemma objects_query_no_panic b ms tp src all :
  texts_ok src (concat ms) -> Forall (fun c => c_name c = CPipe -> n_start (c_node c) <> pt0) (concat ms) ->
  exists s, objects_query b ms tp src all = Ok s.
Proof.
  intros HT HP. unfold objects_query.
  destruct (objects_no_panic b src tp all (concat ms) HT HP oloop0) as [l E].
  - right. unfold oloop0, idle; cbn. auto.
  - discriminate.
  - rewrite E. cbn. eauto.
Qed.

(** ** Nothing behind the cursor is selected (C19) *)
Lemma update_last_Forall {A} (P : A -> Prop) f l :
  Forall P l -> (forall x, P x -> P (f x)) -> Forall P (update_last f l).
Proof.
  intros H Hf. induction H as [|x l Hx Hl IH]; [constructor|]. cbn [update_last].
  destruct l; constructor; auto.
Qed.
Lemma update_last_length {A} (f : A -> A) l : length (update_last f l) = length l.
Proof. induction l as [|x [|y l] IH]; cbn in *; auto. Qed.
Lemma update_nth_Forall {A} (P : A -> Prop) f n : forall l,
  Forall P l -> (forall x, P x -> P (f x)) -> Forall P (update_nth n f l).
Proof.
  induction n as [|n IH]; intros [|x l] H Hf; cbn; auto; inversion H; subst; constructor; auto.
Qed.

(** An identifier adds at most one object, at the end. *)
Lemma obj_check_adds src s c s' a (P : jobject -> Prop) :
  (forall f o, P o -> P (obj_add_field f o)) ->
  obj_check src s c = Ok (s', a) -> Forall P (os_objects s) ->
  (Forall P (os_objects s') /\ length (os_objects s') = length (os_objects s)) \/
  (a = Some ANewObject /\ exists o, os_objects s' = os_objects s ++ [o] /\ fst (o_loc o) = n_start (c_node c)).
Proof.
  intros Hf H HF. unfold obj_check in H. destruct (c_name c); try (inversion H; subst; left; split; [exact HF|reflexivity]).
  - unfold build_object in H. destruct (utf8_text (c_node c) src) as [[v|]|]; [| |discriminate];
      cbn [bind fst snd] in H.
    + assert (Hnew : forall r, Ok (new_object s v (n_start (c_node c)) (n_end (c_node c))) = Ok r ->
         (Forall P (os_objects (fst r)) /\ length (os_objects (fst r)) = length (os_objects s)) \/
         (snd r = ANewObject /\ exists o, os_objects (fst r) = os_objects s ++ [o] /\ fst (o_loc o) = n_start (c_node c))).
      { intros r Hr. inversion Hr; subst. unfold new_object. destruct (str_mem v valid_identifiers); [now left|].
        right. split; [reflexivity|]. eexists. split; reflexivity. }
      assert (HU : forall f, Forall P (update_last (obj_add_field f) (os_objects s)) /\
                      length (update_last (obj_add_field f) (os_objects s)) = length (os_objects s)).
      { intros f. split; [apply update_last_Forall; auto|]. apply update_last_length. }
      destruct ((_ =? _) && (_ =? _)).
      * destruct (os_objects s) as [|o l]; cbn [bind] in H.
        -- destruct (Hnew _ eq_refl) as [[A B]|[A B]]; inversion H; subst; [left|right]; auto.
           rewrite A. auto.
        -- inversion H; subst. left. apply HU.
      * cbn [bind] in H. destruct (Hnew _ eq_refl) as [[A B]|[A B]]; inversion H; subst; [left|right]; auto.
        rewrite A. auto.
    + inversion H; subst. now left.
  - destruct (utf8_text (c_node c) src) as [[v|]|]; [| |discriminate]; cbn [bind] in H;
      inversion H; subst; left; auto. destruct (starts_with v "|"); auto.
Qed.

Lemma finish_lookahead_Forall b l s s' (P : jobject -> Prop) :
  (forall o, P o -> P (obj_capture_first o)) ->
  finish_lookahead b l s = Ok s' -> Forall P (os_objects s) -> Forall P (os_objects s').
Proof.
  intros Hf H HF. unfold finish_lookahead in H.
  set (s1 := match nth_error _ _ with Some o => _ | None => _ end) in *.
  assert (H1 : Forall P (os_objects s1)).
  { unfold s1. destruct (nth_error _ _); [|exact HF]. cbn. apply update_nth_Forall; auto. }
  destruct (usize_sub _ _ _) as [n|]; [|discriminate]. cbn [bind] in H.
  destruct (negb _); inversion H; subst; [|exact H1]. cbn.
  apply Forall_forall. intros x Hx. rewrite Forall_forall in H1. apply H1.
  destruct (os_objects s1) as [|y r]; [destruct Hx|].
  rewrite (app_removelast_last (l := y :: r) y) by discriminate. apply in_or_app. now left.
Qed.

Lemma finish_lookahead_pops b l s s' (P : jobject -> Prop) o os :
  (forall o, P o -> P (obj_capture_first o)) ->
  finish_lookahead b l s = Ok s' -> os_objects s = os ++ [o] -> Forall P os ->
  l_my_id l <> N.of_nat (length os) -> Forall P (os_objects s').
Proof.
  intros Hf H Eo HF Hid. unfold finish_lookahead in H.
  set (s1 := match nth_error _ _ with Some o => _ | None => _ end) in *.
  assert (H1 : exists o', os_objects s1 = update_nth (N.to_nat (l_my_id l)) obj_capture_first os ++ [o']).
  { unfold s1. destruct (nth_error _ _) eqn:En; [|].
    - cbn. rewrite Eo. assert (Hlt : (N.to_nat (l_my_id l) < length (os_objects s))%nat).
      { apply nth_error_Some. congruence. }
      rewrite Eo, app_length in Hlt. cbn in Hlt.
      assert (Hlt2 : (N.to_nat (l_my_id l) < length os)%nat) by lia.
      exists o. clear - Hlt2. revert os Hlt2. induction (N.to_nat (l_my_id l)) as [|n IH]; intros [|x os] H; cbn in *; try lia; auto.
      rewrite IH by lia. reflexivity.
    - rewrite Eo. exists o. f_equal. apply nth_error_None in En. rewrite Eo, app_length in En. cbn in En.
      clear - En. revert os En. induction (N.to_nat (l_my_id l)) as [|n IH]; intros [|x os] H; cbn in *; try lia; auto.
      rewrite <- IH by lia. reflexivity. }
  destruct H1 as (o' & E1). rewrite E1, app_length, update_nth_length in H. cbn [length] in H.
  destruct (usize_sub _ _ _) as [n|] eqn:Eu; [|discriminate]. cbn [bind] in H.
  assert (n = N.of_nat (length os)).
  { unfold usize_sub in Eu. destruct (1 <=? _) eqn:E; [|lia]. inversion Eu. lia. }
  subst n. assert (En : l_my_id l =? N.of_nat (length os) = false) by lia. rewrite En in H. cbn [negb] in H.
  inversion H; subst. cbn. rewrite removelast_last. apply update_nth_Forall; auto.
Qed.

Definition before (tp : point) (o : jobject) : Prop := pt_le (fst (o_loc o)) tp.

Definition id_fits (l : oloop) : Prop :=
  l_continued l = true ->
  l_my_id l < N.of_nat (length (os_objects (l_objs l))) \/ l_my_id l = two64 - 1.

Lemma objects_before b src tp : forall cs l l',
  Forall (before tp) (os_objects (l_objs l)) -> id_fits l ->
  N.of_nat (length (os_objects (l_objs l))) + N.of_nat (length cs) < two64 - 1 ->
  run (obj_step b src tp false) l cs = Ok l' -> Forall (before tp) (os_objects (l_objs l')).
Proof.
  induction cs as [|c cs IH]; intros l l' HB Hm Hlen H; cbn [run] in H.
  { inversion H; subst; exact HB. }
  cbn [length] in Hlen.
  destruct (obj_step b src tp false l c) as [[l1 go]|] eqn:E; [|discriminate].
  assert (Hl1 : Forall (before tp) (os_objects (l_objs l1)) /\
    (go = true -> id_fits l1 /\
       N.of_nat (length (os_objects (l_objs l1))) + N.of_nat (length cs) < two64 - 1)).
  { unfold obj_step in E. cbn zeta in E. cbn [orb] in E.
    destruct (pt_leb (n_start (c_node c)) tp) eqn:En.
    - destruct (obj_check src (l_objs l) c) as [[s' a]|] eqn:Ec; [|discriminate]. cbn [bind fst snd] in E.
      inversion E; subst. unfold id_fits in *. cbn [l_objs l_continued l_my_id].
      destruct (obj_check_adds _ _ _ _ _ (before tp) ltac:(auto) Ec HB) as [[A B]|[A (o & B & C)]].
      + split; [exact A|]. intros _. rewrite B. split; [exact Hm|lia].
      + rewrite B. split.
        * apply Forall_app. split; [exact HB|]. constructor; [|constructor]. unfold before. rewrite C. now apply pt_leb_le.
        * intros _. rewrite app_length. cbn [length]. split; [|lia]. intros X. destruct (Hm X); [left; lia|now right].
    - destruct (pt_leb tp (n_start (c_node c))); [|inversion E; subst; split; [exact HB|]; intros _; split; [exact Hm|lia]].
      destruct (is_filter (l_objs l) || _); [inversion E; subst; split; [exact HB|discriminate]|].
      destruct (l_continued l) eqn:Eco; cbn [negb] in E.
      + destruct (obj_check src (l_objs l) c) as [[s' a]|] eqn:Ec; [|discriminate]. cbn [bind fst snd] in E.
        destruct (obj_check_adds _ _ _ _ _ (before tp) ltac:(auto) Ec HB) as [[A B]|[A (o & B & C)]].
        * assert (Hfin : forall s2, finish_lookahead b l s' = Ok s2 -> Forall (before tp) (os_objects s2)).
          { intros s2 Hs2. eapply finish_lookahead_Forall; eauto. }
          assert (Hgo : Ok (mkol s' true (l_my_id l) (l_my_expr l), true) = Ok (l1, go) ->
             Forall (before tp) (os_objects (l_objs l1)) /\ (go = true -> id_fits l1 /\
               N.of_nat (length (os_objects (l_objs l1))) + N.of_nat (length cs) < two64 - 1)).
          { intros X. inversion X; subst. unfold id_fits in *. cbn [l_objs l_continued l_my_id].
            split; [exact A|]. intros _. rewrite B. split; [auto|lia]. }
          assert (Hst : (s2 <- finish_lookahead b l s';; Ok (mkol s2 true (l_my_id l) (l_my_expr l), false)) = Ok (l1, go) ->
             Forall (before tp) (os_objects (l_objs l1)) /\ (go = true -> id_fits l1 /\
               N.of_nat (length (os_objects (l_objs l1))) + N.of_nat (length cs) < two64 - 1)).
          { intros X. destruct (finish_lookahead b l s') as [s2|]; [|discriminate]. cbn [bind] in X.
            inversion X; subst. cbn [l_objs]. split; [now apply Hfin|discriminate]. }
          destruct a as [[]|]; try (apply Hst; exact E); try (apply Hgo; exact E).
          inversion E; subst. cbn [l_objs]. split; [exact A|discriminate].
        * subst a. destruct (finish_lookahead b l s') as [s2|] eqn:Ef; [|discriminate]. cbn [bind] in E.
          inversion E; subst. cbn [l_objs]. split; [|discriminate].
          eapply (finish_lookahead_pops b l s' s2 (before tp) o (os_objects (l_objs l))); eauto.
          destruct (Hm Eco); lia.
      + destruct (is_hover (l_objs l) tp); [|inversion E; subst; split; [exact HB|discriminate]].
        destruct (usize_sub b _ 1) as [n|] eqn:Eu; [|discriminate]. cbn [bind] in E. inversion E; subst.
        unfold id_fits. cbn [l_objs l_continued l_my_id]. split; [exact HB|]. intros _. split; [|lia]. intros _.
        unfold usize_sub in Eu. destruct (1 <=? _) eqn:E1.
        * inversion Eu. left. lia.
        * destruct b; [discriminate|]. inversion Eu. right.
          assert (N.of_nat (length (os_objects (l_objs l))) = 0) by lia. lia. }
  destruct Hl1 as (A & B). destruct go; [|inversion H; subst; exact A].
  destruct (B eq_refl) as (B1 & B2). eapply IH; eauto.
Qed.

Lemma objects_query_before b ms tp src s o :
  N.of_nat (length (concat ms)) < two64 - 1 ->
  objects_query b ms tp src false = Ok s -> In o (os_objects s) -> pt_le (fst (o_loc o)) tp.
Proof.
  intros Hlen H Hin. unfold objects_query in H.
  destruct (run _ oloop0 (concat ms)) as [l|] eqn:E; [|discriminate]. cbn in H. inversion H; subst.
  assert (X : Forall (before tp) (os_objects (l_objs l))).
  { eapply objects_before; [| | |exact E].
    - constructor.
    - unfold id_fits; discriminate.
    - cbn [oloop0 l_objs jobjects0 os_objects length]. lia. }
  rewrite Forall_forall in X. now apply X.
Qed.

(** ** What the look-ahead behind the cursor can do (C19) *)
Definition same_head (o o' : jobject) : Prop :=
  o_name o' = o_name o /\ o_loc o' = o_loc o /\ o_is_filter o' = o_is_filter o /\
  o_is_test o' = o_is_test o.

Definition rest_ok (src : string) (tp : point) (c : capture) : Prop :=
  text_ok src c /\ behind tp c /\
  (c_name c = CJustId -> pt_le (n_start (c_node c)) (n_end (c_node c))).

(** A field read from one of the captures [cs]. *)
Definition field_from (cs : list capture) (f : field) : Prop :=
  exists c, In c cs /\ c_name c = CJustId /\ snd f = (n_start (c_node c), n_end (c_node c)).
Definition looked (rest : list capture) (s s' : jobjects) (os : list jobject) (o : jobject) : Prop :=
  exists o' extra, os_objects s' = os ++ [o'] /\ same_head o o' /\
    o_fields o' = o_fields o ++ extra /\ Forall (field_from rest) extra /\
    (os_ident s' = os_ident s \/ os_ident s' = o_loc o) /\ os_expr s' = os_expr s.

Lemma looked_refl cs s os o : os_objects s = os ++ [o] -> looked cs s s os o.
Proof.
  intros E. exists o, []. rewrite app_nil_r. unfold same_head. auto 10.
Qed.

Lemma nth_error_snoc {A} (l : list A) x : nth_error (l ++ [x]) (length l) = Some x.
Proof. induction l; auto. Qed.
Lemma nth_error_snoc2 {A} (l : list A) x y : nth_error ((l ++ [x]) ++ [y]) (length l) = Some x.
Proof. induction l; auto. Qed.
Lemma update_nth_snoc {A} f (l : list A) x : update_nth (length l) f (l ++ [x]) = l ++ [f x].
Proof. induction l; cbn; auto. now rewrite IHl. Qed.
Lemma update_nth_snoc2 {A} f (l : list A) x y :
  update_nth (length l) f ((l ++ [x]) ++ [y]) = (l ++ [f x]) ++ [y].
Proof. induction l; cbn; auto. now rewrite IHl. Qed.

Lemma finish_same b l s os o :
  os_objects s = os ++ [o] -> l_my_id l = N.of_nat (length os) ->
  finish_lookahead b l s = Ok (set_objects (set_ident s (o_loc o)) (os ++ [obj_capture_first o])).
Proof.
  intros E Hid. unfold finish_lookahead. rewrite Hid, Nnat.Nat2N.id, E, nth_error_snoc, update_nth_snoc.
  cbn [os_objects set_objects]. rewrite usize_sub_nonempty by (destruct os; discriminate). cbn [bind].
  rewrite app_length. cbn [length].
  replace (N.of_nat (length os) =? N.of_nat (length os + 1) - 1) with true by lia. reflexivity.
Qed.
Lemma finish_new b l s os o x :
  os_objects s = (os ++ [o]) ++ [x] -> l_my_id l = N.of_nat (length os) ->
  finish_lookahead b l s =
  Ok (set_expr (set_objects (set_ident s (o_loc o)) (os ++ [obj_capture_first o])) (l_my_expr l)).
Proof.
  intros E Hid. unfold finish_lookahead. rewrite Hid, Nnat.Nat2N.id, E, nth_error_snoc2, update_nth_snoc2.
  cbn [os_objects set_objects]. rewrite usize_sub_nonempty by (destruct os; discriminate). cbn [bind].
  rewrite !app_length. cbn [length].
  replace (N.of_nat (length os) =? N.of_nat (length os + 1 + 1) - 1) with false by lia.
  cbn [negb]. now rewrite removelast_last.
Qed.

(** Captures other than identifiers and expressions leave objects, identifier
    and expression alone. *)
Lemma obj_check_quiet src s c s' a :
  c_name c <> CJustId -> c_name c <> CExpr -> obj_check src s c = Ok (s', a) ->
  os_objects s' = os_objects s /\ os_ident s' = os_ident s /\ os_expr s' = os_expr s.
Proof.
  intros H1 H2 H. unfold obj_check in H. destruct (c_name c); try congruence;
    try (inversion H; subst; auto; fail).
  destruct (utf8_text (c_node c) src) as [[v|]|]; [| |discriminate]; cbn [bind] in H;
    inversion H; subst; auto. destruct (starts_with v "|"); auto.
Qed.
Lemma obj_check_quiet_action src s c s' a :
  c_name c <> CJustId -> c_name c <> CExpr -> obj_check src s c = Ok (s', Some a) -> a <> ANewObject /\ a <> AExpression.
Proof.
  intros H1 H2 H. unfold obj_check in H. destruct (c_name c); try congruence;
    try (inversion H; subst; split; discriminate).
  destruct (utf8_text (c_node c) src) as [[v|]|]; [| |discriminate]; cbn [bind] in H;
    inversion H; subst; split; discriminate.
Qed.

Lemma lookahead b src tp os o : forall rest s cont id e,
  Forall (rest_ok src tp) rest -> os_objects s = os ++ [o] ->
  pt_le (fst (os_ident s)) tp -> pt_le tp (snd (os_ident s)) ->
  (cont = true -> id = N.of_nat (length os) /\ e = os_expr s) ->
  exists l', run (obj_step b src tp false) (mkol s cont id e) rest = Ok l' /\ looked rest s (l_objs l') os o.
Proof.
  induction rest as [|c rest IH]; intros s cont id e HF Eo Hi1 Hi2 Hc.
  { eexists. split; [reflexivity|]. now apply looked_refl. }
  inversion HF as [|? ? (Ht & Hb & Hle) HF']; subst.
  assert (Hlift : forall s1, os_objects s1 = os_objects s -> os_ident s1 = os_ident s -> os_expr s1 = os_expr s ->
     exists l', run (obj_step b src tp false) (mkol s1 cont id e) rest = Ok l' /\ looked (c :: rest) s (l_objs l') os o).
  { intros s1 A1 A2 A3. destruct (IH s1 cont id e HF') as (l' & R & L); rewrite ?A1, ?A2, ?A3; auto.
    exists l'. split; [exact R|]. destruct L as (o' & ex & B1 & B2 & B3 & B4 & B5 & B6).
    rewrite A2 in B5. rewrite A3 in B6. exists o', ex.
    repeat (split; [assumption|]). split; [|auto]. eapply Forall_impl; [|exact B4].
    intros f (x & X1 & X2 & X3). exists x. cbn. auto. }
  cbn [run]. unfold obj_step at 1. cbn [l_objs l_continued l_my_id l_my_expr orb].
  destruct (pt_leb (n_start (c_node c)) tp) eqn:En.
  - (* at the cursor *)
    assert (N1 : c_name c <> CJustId).
    { intros X. unfold behind in Hb. rewrite X in Hb. apply pt_lt_leb in Hb. congruence. }
    assert (N2 : c_name c <> CExpr).
    { intros X. unfold behind in Hb. rewrite X in Hb. apply pt_lt_leb in Hb. congruence. }
    destruct (obj_check_ok src s c Ht) as [[s1 a] Ec]. rewrite Ec. cbn [bind fst snd].
    destruct (obj_check_quiet _ _ _ _ _ N1 N2 Ec) as (A1 & A2 & A3).
    destruct (is_some a); [now apply Hlift|].
    eexists. split; [reflexivity|]. cbn [l_objs]. exists o, []. rewrite app_nil_r, A1, A2, A3.
    unfold same_head. auto 10.
  - destruct (pt_leb tp (n_start (c_node c))) eqn:Ele; [|pts].
    destruct (is_filter s || _) eqn:Ef.
    { eexists. split; [reflexivity|]. now apply looked_refl. }
    apply orb_false_iff in Ef. destruct Ef as [_ Ef].
    assert (N2 : c_name c <> CExpr) by (intros X; now rewrite X in Ef).
    destruct cont; cbn [negb].
    + destruct (Hc eq_refl) as (-> & ->).
      destruct (obj_check_ok src s c Ht) as [[s1 a] Ec]. rewrite Ec. cbn [bind fst snd].
      set (l0 := mkol s true (N.of_nat (length os)) (os_expr s)).
      destruct (c_name c) eqn:Ek; try congruence.
      2:{ (* identifier *)
        unfold obj_check in Ec. rewrite Ek in Ec. unfold build_object in Ec.
        assert (Hnew : forall v, 
           let r := new_object s v (n_start (c_node c)) (n_end (c_node c)) in
           exists l', (match (match snd r with
                     | ANewObject | AInvalid | AExpression =>
                         s' <- finish_lookahead b l0 (fst r);; Ok (mkol s' true (N.of_nat (length os)) (os_expr s), false)
                     | _ => Ok (mkol (fst r) true (N.of_nat (length os)) (os_expr s), true) end) with
             | Ok (s', true) => run (obj_step b src tp false) s' rest
             | Ok (s', false) => Ok s'
             | Panic => Panic end) = Ok l' /\ looked (c :: rest) s (l_objs l') os o).
        { intros v r. unfold r, new_object. destruct (str_mem v valid_identifiers); cbn [fst snd].
          - rewrite (finish_same b l0 s os o Eo eq_refl). cbn [bind]. eexists. split; [reflexivity|].
            exists (obj_capture_first o), []. rewrite app_nil_r. cbn. unfold same_head. auto 10.
          - set (s2 := mkobjs _ _ _ _ _ _).
            rewrite (finish_new b l0 s2 os o _ ltac:(unfold s2; cbn; rewrite Eo; reflexivity) eq_refl). cbn [bind].
            eexists. split; [reflexivity|].
            exists (obj_capture_first o), []. rewrite app_nil_r. cbn. unfold same_head. auto 10. }
        unfold text_ok in Ht. rewrite Ek in Ht.
        destruct (utf8_text (c_node c) src) as [[v|]|] eqn:Eu; [| |congruence]; cbn [bind] in Ec.
        - destruct ((_ =? _) && (_ =? _)).
          + destruct (os_objects s) as [|x l] eqn:Es; [now destruct os|]. rewrite <- Es in Ec.
            cbn [bind fst snd] in Ec. inversion Ec; subst s1 a.
            set (s2 := mkobjs _ _ _ _ _ _).
            rewrite (finish_same b l0 s2 os (obj_add_field (v, (n_start (c_node c), n_end (c_node c))) o)
                       ltac:(unfold s2; cbn; rewrite Es, Eo, update_last_snoc; reflexivity) eq_refl).
            cbn [bind]. eexists. split; [reflexivity|].
            exists (obj_capture_first (obj_add_field (v, (n_start (c_node c), n_end (c_node c))) o)),
                   [(v, (n_start (c_node c), n_end (c_node c)))].
            cbn. unfold same_head. repeat (split; [now auto|]). split; [|auto].
            constructor; [|constructor]. exists c. cbn. auto.
          + cbn [bind] in Ec. destruct (Hnew v) as (l' & R & L). exists l'. split; [|exact L].
            inversion Ec; subst s1 a. exact R.
        - inversion Ec; subst s1 a. rewrite (finish_same b l0 s os o Eo eq_refl). cbn [bind].
          eexists. split; [reflexivity|].
          exists (obj_capture_first o), []. rewrite app_nil_r. cbn. unfold same_head. auto 10. }
      all: destruct (obj_check_quiet src s c s1 a ltac:(congruence) ltac:(congruence) Ec) as (A1 & A2 & A3).
      all: assert (Hstop : exists l', Ok (mkol s1 true (N.of_nat (length os)) (os_expr s)) = Ok l' /\ looked (c :: rest) s (l_objs l') os o)
        by (eexists; split; [reflexivity|]; cbn [l_objs]; exists o, []; rewrite app_nil_r, A1, A2, A3;
            unfold same_head; auto 10).
      all: assert (Hinv : exists l', (match (s' <- finish_lookahead b l0 s1;; Ok (mkol s' true (N.of_nat (length os)) (os_expr s), false)) with
             | Ok (s', true) => run (obj_step b src tp false) s' rest
             | Ok (s', false) => Ok s'
             | Panic => Panic end) = Ok l' /\ looked (c :: rest) s (l_objs l') os o)
        by (rewrite (finish_same b l0 s1 os o ltac:(congruence) eq_refl); cbn [bind];
            eexists; split; [reflexivity|]; exists (obj_capture_first o), []; rewrite app_nil_r;
            cbn; unfold same_head; auto 10).
      all: destruct a as [[]|]; auto.
    + unfold is_hover. rewrite (pt_le_leb _ _ Hi1), (pt_le_leb _ _ Hi2). cbn [andb orb].
      rewrite usize_sub_nonempty by (rewrite Eo; destruct os; discriminate). cbn [bind].
      destruct (IH s true (N.of_nat (length (os_objects s)) - 1) (os_expr s) HF' Eo Hi1 Hi2) as (l' & R & L).
      { intros _. split; [|reflexivity]. rewrite Eo, app_length. cbn [length]. lia. }
      exists l'. split; [exact R|]. destruct L as (o' & ex & B1 & B2 & B3 & B4 & B5 & B6). exists o', ex.
      repeat (split; [assumption|]). split; [|auto]. eapply Forall_impl; [|exact B4].
      intros f (x & X1 & X2 & X3). exists x. cbn. auto.
Qed.

(** ** Selecting the use under the cursor *)
Lemma select b ms tp src cs1 cs2 s1 os o :
  concat ms = cs1 ++ cs2 -> runc src jobjects0 cs1 = Some s1 ->
  Forall (fun c => pt_le (n_start (c_node c)) tp) cs1 -> Forall (rest_ok src tp) cs2 ->
  os_objects s1 = os ++ [o] -> pt_le (fst (os_ident s1)) tp -> pt_le tp (snd (os_ident s1)) ->
  exists s, objects_query b ms tp src false = Ok s /\ looked cs2 s1 s os o.
Proof.
  intros E R H1 H2 Eo A B. unfold objects_query, oloop0. rewrite E.
  rewrite (run_runc b src tp false cs2 false 0 _ cs1 jobjects0 s1).
  - destruct (lookahead b src tp os o cs2 s1 false 0 ((pt0, pt0), expr0) H2 Eo A B) as (l' & Rl & L).
    { discriminate. }
    rewrite Rl. cbn. eauto.
  - eapply Forall_impl; [|exact H1]. auto.
  - exact R.
Qed.

(** Every capture of a piece sits on one of its marks. *)
Lemma cap_access_marks a c : In c (cap_access a) ->
  exists m, In (MTok m) (marks_access a) /\ c_node c = m /\
    (c_name c = CJustId -> c_node c = fst (a_name a)) /\ c_name c <> CExpr.
Proof.
  unfold cap_access. destruct (a_dot_first a); cbn; intros [<-|[<-|[<-|[]]]]; cbn;
    eexists; (split; [|split; [reflexivity|]]); [now auto|split; congruence|..]; now auto.
Qed.
Lemma cap_piece_marks p c : In c (cap_piece p) ->
  (c_name c <> CExpr /\ In (MTok (c_node c)) (marks p)) \/ (c_name c = CExpr /\ In (MExpr (c_node c)) (marks p)).
Proof.
  destruct p as [n|h fs|p name|kw nots name|t|t]; cbn [cap_piece marks]; intros H.
  - destruct H as [<-|[]]. right. cbn. auto.
  - destruct H as [<-|H]; [left; cbn; split; [discriminate|auto]|]. left.
    apply in_flat_map in H. destruct H as (a & Ha & Hc). destruct (cap_access_marks a c Hc) as (m & A & B & _ & D).
    split; [exact D|]. right. apply in_flat_map. exists a. rewrite B. auto.
  - left. destruct H as [<-|[<-|[]]]; cbn; (split; [discriminate|auto]).
  - left. destruct H as [<-|H]; [cbn; split; [discriminate|auto]|]. apply in_app_iff in H.
    destruct H as [H|[<-|[]]].
    + apply in_map_iff in H. destruct H as (t & <- & Ht). cbn. split; [discriminate|]. right.
      apply in_or_app. left. apply in_map_iff. exists t. auto.
    + cbn. split; [discriminate|]. right. apply in_or_app. right. cbn. auto.
  - left. destruct H as [<-|[]]; cbn; (split; [discriminate|auto]).
  - left. destruct H as [<-|[]]; cbn; (split; [discriminate|auto]).
Qed.
Lemma cap_pieces_marks ps c : In c (cap_pieces ps) ->
  (c_name c <> CExpr /\ In (MTok (c_node c)) (flat_map marks ps)) \/
  (c_name c = CExpr /\ In (MExpr (c_node c)) (flat_map marks ps)).
Proof.
  unfold cap_pieces. intros H. apply in_flat_map in H. destruct H as (p & Hp & Hc).
  destruct (cap_piece_marks p c Hc) as [[A B]|[A B]]; [left|right]; (split; [exact A|]); apply in_flat_map; eauto.
Qed.

(** Marks lie between the two ends of an ordered sequence. *)
Lemma ordered_tok ms : forall after n, ordered after ms -> In (MTok n) ms ->
  pt_le after (n_start n) /\ pt_lt (n_start n) (n_end n) /\ pt_le (n_end n) (marks_end after ms).
Proof.
  induction ms as [|m ms IH]; intros after n Ho Hin; [destruct Hin|].
  destruct Hin as [->|Hin].
  - cbn [ordered] in Ho. destruct Ho as (A & B & C). split; [exact A|]. split; [exact B|].
    apply (ordered_end_le ms _ C).
  - destruct m as [m|m]; cbn [ordered] in Ho.
    + destruct Ho as (A & B & C). destruct (IH _ _ C Hin) as (D & E & F).
      split; [pts|]. split; [exact E|exact F].
    + destruct (IH _ _ Ho Hin) as (D & E & F). pose proof (pt_max_l after (n_start m)).
      split; [pts|]. split; [exact E|exact F].
Qed.
Lemma ordered_expr ms : forall after n, ordered after ms -> In (MExpr n) ms ->
  pt_le (n_start n) (marks_end after ms).
Proof.
  induction ms as [|m ms IH]; intros after n Ho Hin; [destruct Hin|].
  destruct Hin as [->|Hin].
  - cbn [ordered] in Ho. pose proof (ordered_end_le _ _ Ho) as L. pose proof (pt_max_r after (n_start n)).
    unfold marks_end in *. cbn [fold_left mark_end]. pts.
  - destruct m; cbn [ordered] in Ho.
    + destruct Ho as (A & B & C). exact (IH _ _ C Hin).
    + exact (IH _ _ Ho Hin).
Qed.
Lemma pieces_start_before ps after tp :
  ordered after (flat_map marks ps) -> pt_le (marks_end after (flat_map marks ps)) tp ->
  Forall (fun c => pt_le (n_start (c_node c)) tp) (cap_pieces ps).
Proof.
  intros Ho Ht. apply Forall_forall. intros c Hc. destruct (cap_pieces_marks ps c Hc) as [[_ B]|[_ B]].
  - destruct (ordered_tok _ _ _ Ho B) as (A1 & A2 & A3). pts.
  - pose proof (ordered_expr _ _ _ Ho B). pts.
Qed.

Lemma reads_text src t : reads src t -> utf8_text (fst t) src <> Panic.
Proof. intros [H _]. rewrite H. discriminate. Qed.
Lemma access_texts src fs : Forall (access_ok src) fs -> texts_ok src (flat_map cap_access fs).
Proof.
  intros H. apply Forall_forall. intros c Hc. apply in_flat_map in Hc. destruct Hc as (a & Ha & Hc).
  rewrite Forall_forall in H. destruct (H a Ha) as (A & B & _). apply reads_text in A, B. cbn in A.
  unfold cap_access in Hc. unfold text_ok.
  destruct (a_dot_first a); cbn in Hc; destruct Hc as [<-|[<-|[<-|[]]]]; cbn; auto.
Qed.
Lemma piece_texts src p : piece_ok src p -> texts_ok src (cap_piece p).
Proof.
  destruct p as [n|h fs|p name|kw nots name|t|t]; cbn [piece_ok cap_piece]; intros H.
  - repeat constructor.
  - destruct H as (A & _ & B). constructor; [cbn; now apply reads_text|now apply access_texts].
  - destruct H as (A & _ & _ & B & _). constructor; [cbn; now apply reads_text|].
    constructor; [cbn; now apply reads_text|constructor].
  - destruct H as (A & B & _). constructor; [exact I|]. apply Forall_app. split.
    + apply Forall_forall. intros c Hc. apply in_map_iff in Hc. destruct Hc as (t & <- & Ht).
      rewrite Forall_forall in A. cbn. apply reads_text, A, Ht.
    + constructor; [cbn; now apply reads_text|constructor].
  - destruct H as (A & _). constructor; [cbn; now apply reads_text|constructor].
  - destruct H as (A & _). constructor; [cbn; now apply reads_text|constructor].
Qed.
Lemma pieces_texts src ps : Forall (piece_ok src) ps -> texts_ok src (cap_pieces ps).
Proof.
  intros H. unfold cap_pieces. induction H as [|p ps Hp Hps IH]; [constructor|]. cbn [flat_map].
  apply Forall_app. split; [now apply piece_texts|exact IH].
Qed.

Lemma rest_ok_pieces src tp ps after :
  Forall (piece_ok src) ps -> ordered after (flat_map marks ps) -> Forall (behind tp) (cap_pieces ps) ->
  Forall (rest_ok src tp) (cap_pieces ps).
Proof.
  intros Hp Ho Hb. pose proof (pieces_texts src ps Hp) as Ht. apply Forall_forall. intros c Hc.
  rewrite Forall_forall in Hb. unfold texts_ok in Ht. rewrite Forall_forall in Ht.
  split; [auto|]. split; [auto|]. intros Ek.
  destruct (cap_pieces_marks ps c Hc) as [[_ B]|[B _]]; [|congruence].
  destruct (ordered_tok _ _ _ Ho B) as (A1 & A2 & A3). pts.
Qed.
Lemma rest_ok_accesses src tp fs after :
  Forall (access_ok src) fs -> ordered after (flat_map marks_access fs) -> pt_le tp after ->
  Forall (rest_ok src tp) (flat_map cap_access fs).
Proof.
  intros Hf Ho Ht. pose proof (access_texts src fs Hf) as HT. unfold texts_ok in HT.
  rewrite Forall_forall in HT. apply Forall_forall. intros c Hc. split; [auto|].
  apply in_flat_map in Hc. destruct Hc as (a & Ha & Hc).
  destruct (cap_access_marks a c Hc) as (m & _ & _ & Hid & Hne).
  assert (Hd : In (MTok (a_dot a)) (flat_map marks_access fs)) by (apply in_flat_map; exists a; cbn; auto).
  assert (Hn : In (MTok (fst (a_name a))) (flat_map marks_access fs)) by (apply in_flat_map; exists a; cbn; auto).
  destruct (ordered_tok _ _ _ Ho Hd) as (D1 & D2 & D3).
  destruct (ordered_tok _ _ _ Ho Hn) as (N1 & N2 & N3).
  rewrite Forall_forall in Hf. destruct (Hf a Ha) as (_ & _ & Hadj).
  split.
  - unfold behind. destruct (c_name c) eqn:Ek; auto; [|congruence]. rewrite (Hid eq_refl), <- Hadj. pts.
  - intros Ek. rewrite (Hid Ek). pts.
Qed.

(** C19: the cursor is on a segment of a chain. *)

Lemma last_opt_In {A} (l : list A) x : last_opt l = Some x -> In x l.
Proof.
  induction l as [|y l IH]; [discriminate|]. rewrite last_opt_cons. destruct (last_opt l); intros H; inversion H; subst.
  - right. auto.
  - now left.
Qed.
Lemma segment_start h fs : pt_lt (n_start (fst h)) (n_end (fst h)) ->
  ordered (n_end (fst h)) (flat_map marks_access fs) ->
  pt_le (n_start (fst h)) (n_start (fst (segment h fs))).
Proof.
  intros Hlt Ho. unfold segment. destruct (last_opt fs) as [a|] eqn:El; [|pts]. apply last_opt_In in El.
  assert (Hm : In (MTok (fst (a_name a))) (flat_map marks_access fs)) by (apply in_flat_map; exists a; cbn; auto).
  destruct (ordered_tok _ _ _ Ho Hm) as (X1 & X2 & X3). pts.
Qed.
Lemma select_chain b ms tp src pre h fs1 fs2 post :
  pieces_ok src (pre ++ PChain h (fs1 ++ fs2) :: post) ->
  concat ms = cap_pieces (pre ++ PChain h (fs1 ++ fs2) :: post) ->
  on_tok tp (segment h fs1) -> Forall (behind tp) (cap_pieces post) ->
  exists s o extra, objects_query b ms tp src false = Ok s /\
    os_objects s = flat_map uses pre ++ [o] /\
    o_name o = snd h /\ o_loc o = loc h /\ o_is_filter o = false /\ o_is_test o = false /\
    o_fields o = map field_of fs1 ++ extra /\
    Forall (field_from (flat_map cap_access fs2 ++ cap_pieces post)) extra /\
    Forall (rest_ok src tp) (flat_map cap_access fs2 ++ cap_pieces post) /\
    os_expr s = expr_after pre /\
    (os_ident s = loc (segment h fs1) \/ os_ident s = loc h).
Proof.
  intros (HF & p0 & Hp0 & Ho) E (On1 & On2) Hpost.
  apply Forall_app in HF. destruct HF as (HFpre & HF). inversion HF as [|? ? Hch HFpost]; subst.
  cbn [piece_ok] in Hch. destruct Hch as (Hr & Hb & Hfs). apply Forall_app in Hfs. destruct Hfs as (Hfs1 & Hfs2).
  rewrite flat_map_app in Ho. apply ordered_app in Ho. destruct Ho as (O1 & O2).
  cbn [flat_map marks] in O2. rewrite flat_map_app in O2.
  set (a1 := marks_end p0 (flat_map marks pre)) in *.
  change (ordered a1 (([MTok (fst h)] ++ (flat_map marks_access fs1 ++ flat_map marks_access fs2)) ++ flat_map marks post)) in O2.
  rewrite <- !app_assoc in O2. apply ordered_app in O2. destruct O2 as (Oh & O2).
  cbn [ordered] in Oh. destruct Oh as (Oh1 & Oh2 & _).
  unfold marks_end in O2 at 1; cbn [fold_left mark_end] in O2.
  apply ordered_accesses in O2. destruct O2 as (Of1 & O2 & Ofle).
  set (a2 := end_after (n_end (fst h)) fs1) in *.
  pose proof O2 as O2'. apply ordered_accesses in O2'. destruct O2' as (Of2 & Opost & _).
  assert (Ea2 : a2 = n_end (fst (segment h fs1))).
  { unfold a2, end_after, segment. destruct (last_opt fs1); reflexivity. }
  destruct (runc_pieces src pre jobjects0 p0 HFpre O1 (settled0 _ Hp0)) as (s0 & R0 & Eo0 & S0 & X0).
  fold a1 in S0. cbn [jobjects0 os_objects app] in Eo0.
  (* the processed part of the chain *)
  destruct (runc_piece src (PChain h fs1) s0 a1) as (s1 & R1 & Eo1 & S1 & Ex1).
  { cbn. auto. }
  { cbn [marks]. cbn [ordered]. auto. }
  { exact S0. }
  assert (Id1 : os_ident s1 = loc (segment h fs1)).
  { cbn [cap_piece runc] in R1.
    rewrite (check_id_new src s0 h _ Hr (not_built_in _ Hb) eq_refl Oh2) in R1
      by (destruct S0 as (_ & D & _); pts).
    set (sh := mkobjs _ _ _ _ _ _) in R1. destruct S0 as (T1 & T2 & T3).
    destruct (runc_accesses src fs1 sh (os_objects s0)
       (mkobj (snd h) (loc h) (pt_eqb (snd (os_pipe s0)) (n_start (fst h))) (snd (os_test s0)) [] false)
       (n_end (fst h)) Hfs1 Of1 eq_refl) as (s' & R & _ & _ & Id & _).
    { unfold settled, sh; cbn. repeat split; pts. }
    rewrite R in R1. inversion R1; subst. rewrite Id. unfold seg_after, segment. cbn.
    destruct (last_opt fs1); reflexivity. }
  assert (Ecaps : concat ms = (cap_pieces pre ++ cap_piece (PChain h fs1)) ++ (flat_map cap_access fs2 ++ cap_pieces post)).
  { rewrite E. unfold cap_pieces. rewrite flat_map_app. cbn [flat_map cap_piece]. rewrite flat_map_app.
    cbn [app]. rewrite <- !app_assoc. reflexivity. }
  assert (Hle1 : pt_le (n_start (fst h)) (n_start (fst (segment h fs1)))) by (eapply segment_start; eauto).
  destruct (select b ms tp src _ _ s1 (flat_map uses pre) (mkobj (snd h) (loc h) false false (map field_of fs1) false) Ecaps)
    as (s & Q & L).
  - rewrite runc_app, R0. exact R1.
  - apply Forall_app. split.
    + apply (pieces_start_before pre p0 tp O1). fold a1. pts.
    + apply Forall_forall. intros c Hc. cbn [cap_piece] in Hc.
      destruct Hc as [<-|Hc]; [cbn; pts|].
      apply in_flat_map in Hc. destruct Hc as (a & Ha & Hc).
      destruct (cap_access_marks a c Hc) as (m & Hm & Em & _ & _). rewrite Em.
      assert (Hin : In (MTok m) (flat_map marks_access fs1)) by (apply in_flat_map; exists a; auto).
      (* every mark of fs1 starts no later than the last segment *)
      assert (Hlast : pt_le (n_start m) (n_start (fst (segment h fs1)))).
      { clear - Hin Of1 Oh2. unfold segment. revert Of1 Hin. generalize (n_end (fst h)). induction fs1 as [|x l IH]; intros p Ho Hin; [destruct Hin|].
        rewrite last_opt_cons. cbn [flat_map marks_access app ordered] in Ho. destruct Ho as (A & B & C & D & F).
        destruct (last_opt l) as [y|] eqn:El.
        - assert (Hy : In (MTok (fst (a_name y))) (flat_map marks_access l)).
          { apply in_flat_map. exists y. split; [|cbn; auto]. clear - El. revert y El. induction l as [|z l IH]; intros y El; [discriminate|].
            rewrite last_opt_cons in El. destruct (last_opt l); inversion El; subst; [right; auto|now left]. }
          destruct (ordered_tok _ _ _ F Hy) as (Y1 & Y2 & Y3).
          cbn [flat_map marks_access app] in Hin. destruct Hin as [Hin|[Hin|Hin]].
          + inversion Hin; subst. pts.
          + inversion Hin; subst. pts.
          + eapply IH; eauto.
        - destruct l as [|z l]; [|now apply last_opt_none in El]. cbn in Hin.
          destruct Hin as [Hin|[Hin|[]]]; inversion Hin; subst; pts. }
      pts.
  - apply Forall_app. split.
    + apply (rest_ok_accesses src tp fs2 a2 Hfs2 Of2). rewrite Ea2. exact On2.
    + eapply rest_ok_pieces; eauto.
  - rewrite Eo1, Eo0. reflexivity.
  - rewrite Id1. exact On1.
  - rewrite Id1. exact On2.
  - destruct L as (o & ex & L1 & L2 & L3 & L4 & L5 & L6). exists s, o, ex.
    destruct L2 as (N1 & N2 & N3 & N4). cbn [o_name o_loc o_is_filter o_is_test o_fields] in *. rewrite Id1 in L5.
    do 8 (split; [assumption|]). split.
    + apply Forall_app. split.
      * apply (rest_ok_accesses src tp fs2 a2 Hfs2 Of2). rewrite Ea2. exact On2.
      * eapply rest_ok_pieces; eauto.
    + split; [|exact L5]. rewrite L6, Ex1. cbn [expr_step]. exact X0.
Qed.

(** The name a filter or test piece ends with. *)
Definition named (p : piece) (name : tok) : Prop :=
  match p with PFilter _ n | PTest _ _ n => n = name | _ => False end.

Lemma runc_named src p name s s' after :
  named p name -> piece_ok src p -> ordered after (marks p) -> settled after s ->
  runc src s (cap_piece p) = Some s' -> os_ident s' = loc name.
Proof.
  intros Hn Hp Ho Hs R.
  assert (exists cs, cap_piece p = cs ++ [cap CJustId (fst name)]) as (cs & E).
  { destruct p; cbn in Hn; try contradiction; subst; cbn [cap_piece].
    - now exists [cap CPipe (fst p)].
    - now exists (cap CIs kw :: map (fun t => cap CJustId (fst t)) nots). }
  destruct p as [n|h fs|pi nm|kw nots nm|t|t]; cbn in Hn; try contradiction; subst nm.
  - cbn [piece_ok] in Hp. destruct Hp as (Hr & Hpi & Hadj & Hn & Hb). cbn [marks ordered] in Ho.
    destruct Ho as (A & B & C & D & _). destruct Hs as (T1 & T2 & T3).
    cbn [cap_piece runc] in R. rewrite check_pipe in R by assumption. cbn [runc] in R.
    rewrite (check_id_new src _ name _ Hn (not_built_in _ Hb) eq_refl D) in R by (cbn; pts).
    inversion R; subst. reflexivity.
  - cbn [piece_ok] in Hp. destruct Hp as (HF & Hn & Hb). cbn [marks ordered] in Ho. destruct Ho as (A & B & C).
    destruct Hs as (T1 & T2 & T3).
    apply ordered_app in C. destruct C as (C1 & C2). cbn [ordered] in C2. destruct C2 as (D & F & _).
    cbn [cap_piece runc] in R. unfold obj_check at 1 in R. cbn [cap c_name c_node] in R.
    set (s1 := mkobjs _ _ _ _ _ _) in R. rewrite runc_app in R.
    pose proof (ordered_end_le _ _ C1) as L.
    rewrite (runc_nots src nots s1 (n_end kw) HF C1) in R by (cbn; pts). cbn [runc] in R.
    rewrite (check_id_new src s1 name _ Hn (not_built_in _ Hb) eq_refl F) in R by (cbn; pts).
    inversion R; subst. reflexivity.
Qed.

Lemma select_named b ms tp src pre p name o post :
  pieces_ok src (pre ++ p :: post) -> concat ms = cap_pieces (pre ++ p :: post) ->
  named p name -> uses p = [o] -> on_tok tp name -> Forall (behind tp) (cap_pieces post) ->
  exists s o', objects_query b ms tp src false = Ok s /\
    os_objects s = flat_map uses pre ++ [o'] /\ same_head o o' /\ os_ident s = loc name.
Proof.
  intros (HF & p0 & Hp0 & Ho) E Hn Hu (On1 & On2) Hpost.
  apply Forall_app in HF. destruct HF as (HFpre & HF). inversion HF as [|? ? Hp HFpost]; subst.
  rewrite flat_map_app in Ho. apply ordered_app in Ho. destruct Ho as (O1 & O2).
  cbn [flat_map] in O2. apply ordered_app in O2. destruct O2 as (Op & Opost).
  set (a1 := marks_end p0 (flat_map marks pre)) in *.
  destruct (runc_pieces src pre jobjects0 p0 HFpre O1 (settled0 _ Hp0)) as (s0 & R0 & Eo0 & S0 & X0).
  fold a1 in S0. cbn [jobjects0 os_objects app] in Eo0.
  destruct (runc_piece src p s0 a1 Hp Op S0) as (s1 & R1 & Eo1 & S1 & Ex1).
  pose proof (runc_named src p name s0 s1 a1 Hn Hp Op S0 R1) as Id1.
  assert (Hname : In (MTok (fst name)) (marks p) /\ forall n, In (MTok n) (marks p) -> pt_le (n_start n) (n_start (fst name))).
  { destruct p as [n|h fs|pi nm|kw nots nm|t|t]; cbn in Hn; try contradiction; subst nm; cbn [marks] in *.
    - split; [cbn; auto|]. cbn [ordered] in Op. destruct Op as (A & B & C & D & _).
      intros n [X|[X|[]]]; inversion X; subst; pts.
    - split; [right; apply in_or_app; right; cbn; auto|]. cbn [ordered] in Op. destruct Op as (A & B & C).
      apply ordered_app in C. destruct C as (C1 & C2). cbn [ordered] in C2. destruct C2 as (D & F & _).
      pose proof (ordered_end_le _ _ C1) as L. intros n [X|X].
      + inversion X; subst. pts.
      + apply in_app_iff in X. destruct X as [X|[X|[]]]; [|inversion X; subst; pts].
        destruct (ordered_tok _ _ _ C1 X) as (Y1 & Y2 & Y3). pts. }
  destruct Hname as (Hin & Hmax). destruct (ordered_tok _ _ _ Op Hin) as (X1 & X2 & X3).
  destruct (select b ms tp src (cap_pieces pre ++ cap_piece p) (cap_pieces post) s1 (flat_map uses pre) o) as (s & Q & L).
  - rewrite E. unfold cap_pieces. rewrite flat_map_app. cbn [flat_map]. now rewrite <- app_assoc.
  - rewrite runc_app, R0. exact R1.
  - apply Forall_app. split.
    + apply (pieces_start_before pre p0 tp O1). fold a1. pts.
    + apply Forall_forall. intros c Hc. destruct (cap_piece_marks p c Hc) as [[_ M]|[_ M]].
      * specialize (Hmax _ M). pts.
      * exfalso. destruct p as [n|h fs|pi nm|kw nots nm|t|t]; cbn in Hn; try contradiction; cbn [marks] in M.
        -- destruct M as [M|[M|[]]]; discriminate.
        -- destruct M as [M|M]; [discriminate|]. apply in_app_iff in M. destruct M as [M|[M|[]]]; [|discriminate].
           apply in_map_iff in M. destruct M as (t & M & _). discriminate.
  - eapply rest_ok_pieces; eauto.
  - rewrite Eo1, Eo0, Hu. reflexivity.
  - rewrite Id1. exact On1.
  - rewrite Id1. exact On2.
  - destruct L as (o' & ex & L1 & L2 & L3 & L4 & L5 & L6). exists s, o'. rewrite Id1 in L5.
    repeat (split; [assumption|]). destruct L5 as [L5|L5]; [exact L5|].
    rewrite L5. destruct p; cbn in Hn; try contradiction; subst; cbn in Hu; inversion Hu; reflexivity.
Qed.

(** *** Hover *)
Lemma last_opt_app {A} (a b : list A) : b <> [] -> last_opt (a ++ b) = last_opt b.
Proof.
  intros H. destruct (snoc_or_nil b) as [->|(b' & x & ->)]; [easy|].
  now rewrite app_assoc, !last_opt_snoc.
Qed.
Lemma as_u32_small n : n < two32 -> as_u32 n = n.
Proof. intros H. unfold as_u32. now apply N.mod_small. Qed.
Lemma to_range2_small a b p : small a -> small b -> to_range2 (to_range (a, b)) p = pt_leb a p && pt_leb p b.
Proof.
  intros (A1 & A2) (B1 & B2). unfold to_range2, to_range, to_position2, to_point. cbn [fst snd rstart rend line character].
  rewrite !as_u32_small by assumption. destruct a, b; reflexivity.
Qed.
Lemma full_range_covers o tp :
  small (fst (o_loc o)) -> pt_le (fst (o_loc o)) tp -> pt_le tp (last_field_end o) -> small (last_field_end o) ->
  to_range2 (obj_full_range o) tp = true.
Proof.
  intros A B C D. unfold obj_full_range. rewrite to_range2_small by assumption.
  now rewrite (pt_le_leb _ _ B), (pt_le_leb _ _ C).
Qed.

Lemma pieces_segment src pre h fs1 fs2 post :
  pieces_ok src (pre ++ PChain h (fs1 ++ fs2) :: post) ->
  pt_le (n_start (fst h)) (n_start (fst (segment h fs1))).
Proof.
  intros (_ & p0 & _ & Ho). rewrite flat_map_app in Ho. apply ordered_app in Ho. destruct Ho as (_ & Ho).
  cbn [flat_map marks app ordered] in Ho. destruct Ho as (_ & H2 & H3).
  rewrite flat_map_app, <- app_assoc in H3. apply ordered_app in H3. destruct H3 as (H3 & _).
  now apply segment_start.
Qed.
Lemma segment_captured pre h fs1 fs2 post :
  In (cap CJustId (fst (segment h fs1))) (cap_pieces (pre ++ PChain h (fs1 ++ fs2) :: post)).
Proof.
  unfold cap_pieces. rewrite flat_map_app. apply in_or_app. right. cbn [flat_map cap_piece app].
  unfold segment. destruct (last_opt fs1) as [a|] eqn:El; [|now left]. right. apply in_or_app. left.
  rewrite flat_map_app. apply in_or_app. left. apply in_flat_map. apply last_opt_In in El. exists a.
  split; [exact El|]. unfold cap_access. apply in_or_app. right. cbn. auto.
Qed.

Lemma last_opt_map {A B} (f : A -> B) l : last_opt (map f l) = option_map f (last_opt l).
Proof.
  induction l as [|x l IH]; [reflexivity|]. cbn [map]. rewrite !last_opt_cons, IH. destruct (last_opt l); reflexivity.
Qed.


(** Where the selected chain ends. *)
Lemma selected_end tp src h fs1 o ex rest :
  o_loc o = loc h -> o_fields o = map field_of fs1 ++ ex -> Forall (field_from rest) ex ->
  Forall (rest_ok src tp) rest -> all_small rest -> small (n_end (fst (segment h fs1))) ->
  pt_le tp (n_end (fst (segment h fs1))) ->
  pt_le tp (last_field_end o) /\ small (last_field_end o).
Proof.
  intros N2 N5 N6 N7 Hsm S1 On. unfold last_field_end. rewrite N5.
  destruct (snoc_or_nil ex) as [->|(ex' & f & ->)].
  - rewrite app_nil_r, last_opt_map. unfold segment in *. destruct (last_opt fs1); cbn [option_map].
    + cbn. auto.
    + rewrite N2. cbn. auto.
  - rewrite last_opt_app by (destruct ex'; discriminate). rewrite last_opt_snoc.
    apply Forall_app in N6. destruct N6 as (_ & N6). inversion N6 as [|? ? (c & C1 & C2 & C3) _]; subst.
    rewrite C3. cbn [snd fst]. rewrite Forall_forall in N7. destruct (N7 c C1) as (_ & Hb & Hle).
    unfold behind in Hb. rewrite C2 in Hb. specialize (Hle C2). unfold all_small in Hsm. rewrite Forall_forall in Hsm.
    destruct (Hsm c C1). split; [pts|assumption].
Qed.

Lemma hover_chain {T} b (st : lsp_files T) uri pos tr t pre h fs1 fs2 post :
  file_ext uri = Some Template -> sget uri (ls_tt st) = Some tr -> sget uri (ls_docs st) = Some t ->
  let src := rope_content t in
  let tp := point_of pos in
  let ps := pre ++ PChain h (fs1 ++ fs2) :: post in
  pieces_ok src ps -> concat (t_captures T QObjects tr src) = cap_pieces ps ->
  on_tok tp (segment h fs1) -> Forall (behind tp) (cap_pieces post) -> all_small (cap_pieces ps) ->
  exists i, hover b uri pos st = Ok (Some (i, CtIdentifier)) /\
    id_name i = snd h /\ id_start i = n_start (fst h) /\ id_end i = n_end (fst h) /\
    exists extra, id_fields i = map field_of fs1 ++ extra.
Proof.
  intros He Ht Hd src tp ps Hps E Hon Hb Hsm.
  destruct (select_chain b _ tp src pre h fs1 fs2 post Hps E Hon Hb)
    as (s & o & ex & Q & Eo & N1 & N2 & N3 & N4 & N5 & N6 & N7 & N8 & N9).
  exists (id_of_obj o). unfold hover. rewrite He, Ht, Hd. fold src. fold tp. rewrite Q. cbn [bind].
  assert (Hh : is_hover s tp = true).
  { unfold is_hover. destruct N9 as [N9|N9].
    - rewrite N9. destruct Hon as (A & B). unfold loc; cbn [fst snd].
      now rewrite (pt_le_leb _ _ A), (pt_le_leb _ _ B).
    - apply orb_true_iff. right. unfold os_full_range. rewrite Eo, last_opt_snoc.
      pose proof (pieces_segment _ _ _ _ _ _ Hps) as Hle.
      pose proof Hsm as Hsm0. unfold all_small in Hsm0. rewrite Forall_forall in Hsm0.
      destruct (Hsm0 _ (segment_captured pre h fs1 fs2 post)) as (Sa & Sb). cbn in Sa, Sb.
      destruct (Hsm0 _ (segment_captured pre h [] (fs1 ++ fs2) post)) as (Sc & Sd). cbn in Sc, Sd.
      destruct Hon as (On1 & On2).
      destruct (selected_end tp src h fs1 o ex _ N2 N5 N6 N7) as (L1 & L2); auto.
      { unfold all_small, ps, cap_pieces in *. rewrite flat_map_app in Hsm. apply Forall_app in Hsm. destruct Hsm as (_ & Hsm).
        cbn [flat_map cap_piece] in Hsm. apply Forall_app in Hsm. destruct Hsm as (Hsm & Hsm2).
        inversion Hsm as [|? ? _ Hsm3]; subst. rewrite flat_map_app in Hsm3. apply Forall_app in Hsm3.
        apply Forall_app. split; [apply Hsm3|exact Hsm2]. }
      apply full_range_covers; auto; rewrite N2; cbn; [exact Sc|pts]. }
  rewrite Hh. unfold get_last_id. rewrite Eo, last_opt_snoc, N3, N4. split; [reflexivity|].
  cbn. rewrite N2. cbn. eauto.
Qed.

Lemma hover_named {T} b (st : lsp_files T) uri pos tr t pre p name o post :
  file_ext uri = Some Template -> sget uri (ls_tt st) = Some tr -> sget uri (ls_docs st) = Some t ->
  let src := rope_content t in
  let tp := point_of pos in
  let ps := pre ++ p :: post in
  pieces_ok src ps -> concat (t_captures T QObjects tr src) = cap_pieces ps ->
  named p name -> uses p = [o] -> on_tok tp name -> Forall (behind tp) (cap_pieces post) ->
  exists i, hover b uri pos st =
      Ok (Some (i, if o_is_filter o then CtFilter else if o_is_test o then CtTest else CtIdentifier)) /\
    id_name i = snd name /\ id_start i = n_start (fst name) /\ id_end i = n_end (fst name).
Proof.
  intros He Ht Hd src tp ps Hps E Hn Hu Hon Hb.
  destruct (select_named b _ tp src pre p name o post Hps E Hn Hu Hon Hb) as (s & o' & Q & Eo & (N1 & N2 & N3 & N4) & Id).
  exists (id_of_obj o'). unfold hover. rewrite He, Ht, Hd. fold src. fold tp. rewrite Q. cbn [bind].
  assert (Hh : is_hover s tp = true).
  { unfold is_hover. rewrite Id. destruct Hon as (A & B). unfold loc; cbn [fst snd].
    now rewrite (pt_le_leb _ _ A), (pt_le_leb _ _ B). }
  rewrite Hh. unfold get_last_id. rewrite Eo, last_opt_snoc, N3, N4. split; [reflexivity|].
  cbn. rewrite N1, N2. destruct p; cbn in Hn; try contradiction; subst; cbn in Hu; inversion Hu; subst; cbn; auto.
Qed.

(** ** What completion offers (C20, C21, C59, C60) *)

(** The pipe the query ends with is one of the pipes it saw. *)
Definition is_pipe (src : string) (c : capture) : Prop :=
  c_name c = CPipe /\ exists v, utf8_text (c_node c) src = Ok (Some v) /\ starts_with v "|" = true.
Definition pipe_from (src : string) (cs : list capture) (s s' : jobjects) : Prop :=
  os_pipe s' = os_pipe s \/
  exists c, In c cs /\ is_pipe src c /\ os_pipe s' = (n_start (c_node c), n_end (c_node c)).

Lemma obj_check_pipe src s c s' a : obj_check src s c = Ok (s', a) ->
  os_pipe s' = os_pipe s \/
  (is_pipe src c /\ os_pipe s' = (n_start (c_node c), n_end (c_node c))).
Proof.
  intros H. unfold obj_check in H. destruct (c_name c) eqn:Ek; try (inversion H; subst; auto; fail).
  - unfold build_object, new_object in H.
    destruct (utf8_text (c_node c) src) as [[v|]|]; [| |discriminate]; cbn [bind] in H;
      [|inversion H; subst; auto].
    destruct (_ && _); [destruct (os_objects s)|]; try destruct (str_mem v valid_identifiers);
      cbn in H; inversion H; subst; auto.
  - destruct (utf8_text (c_node c) src) as [[v|]|] eqn:Eu; [| |discriminate]; cbn [bind] in H;
      inversion H; subst; auto. destruct (starts_with v "|") eqn:Es; auto.
    right. split; [|reflexivity]. unfold is_pipe. eauto.
Qed.
Lemma finish_pipe b l s s' : finish_lookahead b l s = Ok s' -> os_pipe s' = os_pipe s.
Proof.
  intros H. unfold finish_lookahead in H.
  destruct (nth_error _ _); cbn [set_objects set_ident os_objects] in H;
    match type of H with bind ?x _ = _ => destruct x end; cbn [bind] in H; try discriminate;
    destruct (negb _); inversion H; reflexivity.
Qed.
Lemma run_pipe b src tp all : forall cs l l',
  run (obj_step b src tp all) l cs = Ok l' -> pipe_from src cs (l_objs l) (l_objs l').
Proof.
  induction cs as [|c cs IH]; intros l l' H.
  { cbn in H. inversion H; subst. now left. }
  assert (Hlift : forall l1, (os_pipe (l_objs l1) = os_pipe (l_objs l) \/
              (is_pipe src c /\ os_pipe (l_objs l1) = (n_start (c_node c), n_end (c_node c)))) ->
            forall l2, pipe_from src cs (l_objs l1) (l_objs l2) -> pipe_from src (c :: cs) (l_objs l) (l_objs l2)).
  { intros l1 Hs l2 [E|(x & Hx & E & E2)].
    - unfold pipe_from. rewrite E. destruct Hs as [E'|(E' & E2)]; [now left|].
      right. exists c. rewrite <- E2. cbn. auto.
    - right. exists x. cbn. auto. }
  assert (Hstop : forall l1, (os_pipe (l_objs l1) = os_pipe (l_objs l) \/
              (is_pipe src c /\ os_pipe (l_objs l1) = (n_start (c_node c), n_end (c_node c)))) ->
            pipe_from src (c :: cs) (l_objs l) (l_objs l1)).
  { intros l1 Hs. apply (Hlift l1 Hs l1). now left. }
  cbn [run] in H. destruct (obj_step b src tp all l c) as [[l1 k]|] eqn:Es; [|discriminate].
  assert (Hs : os_pipe (l_objs l1) = os_pipe (l_objs l) \/
              (is_pipe src c /\ os_pipe (l_objs l1) = (n_start (c_node c), n_end (c_node c)))).
  { unfold obj_step in Es. destruct (all || _).
    - destruct (obj_check src (l_objs l) c) as [[s1 a]|] eqn:Ec; [|discriminate]. cbn [bind fst snd] in Es.
      inversion Es; subst. cbn [l_objs]. eapply obj_check_pipe; eauto.
    - destruct (pt_leb tp _); [|inversion Es; subst; auto].
      destruct (is_filter _ || _); [inversion Es; subst; auto|].
      destruct (negb _).
      + destruct (is_hover _ _); [|inversion Es; subst; auto].
        destruct (usize_sub _ _ _); cbn [bind] in Es; inversion Es; subst; auto.
      + destruct (obj_check src (l_objs l) c) as [[s1 a]|] eqn:Ec; [|discriminate]. cbn [bind fst snd] in Es.
        pose proof (obj_check_pipe _ _ _ _ _ Ec) as Hp.
        assert (Hf : forall s', finish_lookahead b l s1 = Ok s' -> os_pipe s' = os_pipe (l_objs l) \/
              (is_pipe src c /\ os_pipe s' = (n_start (c_node c), n_end (c_node c)))).
        { intros s' Hf. now rewrite (finish_pipe _ _ _ _ Hf). }
        destruct a as [[]|]; try (inversion Es; subst; exact Hp);
          destruct (finish_lookahead b l s1) as [s'|]; cbn [bind] in Es; inversion Es; subst;
          cbn [l_objs]; now apply Hf. }
  destruct k.
  - exact (Hlift l1 Hs l' (IH _ _ H)).
  - inversion H; subst. now apply Hstop.
Qed.
Lemma query_pipe_free b ms tp src all s :
  objects_query b ms tp src all = Ok s -> pt_lt pt0 tp ->
  Forall (fun c => is_pipe src c -> pt_lt tp (n_start (c_node c)) \/ pt_lt (n_end (c_node c)) tp) (concat ms) ->
  in_pipe s tp = false.
Proof.
  intros H H0 HF. unfold objects_query in H. destruct (run _ oloop0 (concat ms)) as [l|] eqn:E; [|discriminate].
  cbn in H. inversion H; subst. apply run_pipe in E. unfold in_pipe.
  destruct E as [E|(c & Hc & Hp & E)]; rewrite E.
  - cbn [oloop0 l_objs jobjects0 os_pipe fst snd]. pts.
  - rewrite Forall_forall in HF. specialize (HF c Hc Hp). cbn [fst snd]. pts.
Qed.

(** *** The typed prefix *)
Definition splits_char (q : string) : bool :=
  match q with EmptyString => false | String a _ => is_cont a end.
Lemma substring_app p q : String.substring 0 (String.length p) (p ++ q) = p.
Proof.
  induction p as [|a p IH].
  - cbn. destruct q; reflexivity.
  - cbn [String.length append String.substring]. now rewrite IH.
Qed.
Lemma boundary_app p q : is_char_boundary (p ++ q) (String.length p) = negb (splits_char q).
Proof.
  induction p as [|a p IH]; [destruct q; reflexivity|]. exact IH.
Qed.
Lemma length_app p q : String.length (p ++ q) = (String.length p + String.length q)%nat.
Proof. induction p; cbn; auto. Qed.
Lemma slen_app p q : slen (p ++ q) = slen p + slen q.
Proof. unfold slen. rewrite length_app. lia. Qed.
Lemma get_to_app p q : splits_char q = false -> get_to (p ++ q) (slen p) = Some p.
Proof.
  intros H. unfold get_to, slen. rewrite Nnat.Nat2N.id, boundary_app, H. cbn [negb]. now rewrite substring_app.
Qed.
Lemma append_nil_r s : (s ++ "")%string = s.
Proof. induction s; cbn; congruence. Qed.

Lemma typed_prefix b tp i p q :
  id_name i = (p ++ q)%string -> splits_char q = false ->
  col (id_end i) = col (id_start i) + slen (id_name i) ->
  col tp = col (id_start i) + slen p -> p <> EmptyString ->
  completion_start b tp i = Ok (Some p).
Proof.
  intros En Hq He Ht Hp. unfold completion_start.
  assert (Hpos : 0 < slen p) by (destruct p; [easy|unfold slen; cbn [String.length]; lia]).
  rewrite En in *. rewrite slen_app in *.
  replace (0 <? col tp) with true by lia.
  replace (slen p + slen q =? 0) with false by lia.
  unfold usize_sub. replace (col tp - 1 <=? col (id_end i)) with true by lia. cbn [bind].
  destruct (N.eq_dec (slen q) 0) as [Z|Z].
  - replace (col (id_end i) - (col tp - 1) =? 1) with true by lia. rewrite orb_true_r.
    destruct q; [now rewrite append_nil_r|unfold slen in Z; cbn [String.length] in Z; lia].
  - replace (col (id_end i) - (col tp - 1) =? 0) with false by lia.
    replace (col (id_end i) - (col tp - 1) =? 1) with false by lia. cbn [orb].
    replace (slen p + slen q <? col (id_end i) - (col tp - 1)) with false by lia.
    replace (slen p + slen q - (col (id_end i) - (col tp - 1)) + 1) with (slen p) by lia.
    now rewrite get_to_app.
Qed.

(** A quoted name: the identifier's range includes the quotes, its name does not. *)
Lemma typed_prefix_quoted b tp i p q :
  id_name i = (p ++ q)%string ->
  col (id_end i) = col (id_start i) + slen (id_name i) + 2 ->
  col tp = col (id_start i) + 1 + slen p ->
  completion_start b tp i =
  Ok (if slen p <=? 1 then Some (id_name i) else get_to (id_name i) (slen p - 1)).
Proof.
  intros En He Ht. unfold completion_start. rewrite En in *. rewrite slen_app in *.
  replace (0 <? col tp) with true by lia.
  destruct (slen p + slen q =? 0) eqn:Z.
  { replace (slen p <=? 1) with true by lia.
    destruct p, q; try (unfold slen in Z; cbn [String.length] in Z; lia). reflexivity. }
  unfold usize_sub. replace (col tp - 1 <=? col (id_end i)) with true by lia. cbn [bind].
  replace (col (id_end i) - (col tp - 1) =? 0) with false by lia.
  replace (col (id_end i) - (col tp - 1) =? 1) with false by lia. cbn [orb].
  destruct (slen p <=? 1) eqn:E.
  - now replace (slen p + slen q <? col (id_end i) - (col tp - 1)) with true by lia.
  - replace (slen p + slen q <? col (id_end i) - (col tp - 1)) with false by lia.
    now replace (slen p + slen q - (col (id_end i) - (col tp - 1)) + 1) with (slen p - 1) by lia.
Qed.

(** *** Cursor on the first segment of a chain *)

(** The expression a piece sequence is in at its end. *)
Lemma expr_after_no p2 : Forall (fun p => match p with PExpr _ => False | _ => True end) p2 ->
  forall e, fold_left expr_step p2 e = e.
Proof. induction 1 as [|p ps Hp _ IH]; intros e; [reflexivity|]. cbn [fold_left]. destruct p; try contradiction; apply IH. Qed.
Lemma expr_after_in pre n p2 : Forall (fun p => match p with PExpr _ => False | _ => True end) p2 ->
  expr_after (pre ++ PExpr n :: p2) = expr_info n.
Proof. intros H. unfold expr_after. rewrite fold_left_app. cbn [fold_left expr_step]. now apply expr_after_no. Qed.

(** Pipes of well-ordered pieces. *)
Lemma pieces_pipe_ends ps after tp src : ordered after (flat_map marks ps) ->
  pt_lt (marks_end after (flat_map marks ps)) tp ->
  Forall (fun c => is_pipe src c -> pt_lt tp (n_start (c_node c)) \/ pt_lt (n_end (c_node c)) tp) (cap_pieces ps).
Proof.
  intros Ho Ht. apply Forall_forall. intros c Hc (Hn & _). right.
  destruct (cap_pieces_marks ps c Hc) as [[_ B]|[B _]]; [|congruence].
  destruct (ordered_tok _ _ _ Ho B) as (A1 & A2 & A3). pts.
Qed.
Lemma accesses_no_pipe src fs : Forall (access_ok src) fs -> Forall (fun c => ~ is_pipe src c) (flat_map cap_access fs).
Proof.
  intros H. apply Forall_forall. intros c Hc (Hn & v & Hv & Hs). apply in_flat_map in Hc. destruct Hc as (a & Ha & Hc).
  rewrite Forall_forall in H. destruct (H a Ha) as ((A & _) & B & _). cbn in A.
  unfold cap_access in Hc. destruct (a_dot_first a); cbn in Hc; destruct Hc as [<-|[<-|[<-|[]]]]; cbn in *; try discriminate;
    rewrite A in Hv; inversion Hv; subst v; discriminate.
Qed.

Lemma complete_chain b ms tp src pre n p2 h fs post :
  let ps := (pre ++ PExpr n :: p2) ++ PChain h fs :: post in
  pieces_ok src ps -> concat ms = cap_pieces ps ->
  Forall (fun p => match p with PExpr _ => False | _ => True end) p2 ->
  pt_lt (n_start (fst h)) tp -> pt_le tp (n_end (fst h)) ->
  Forall (fun c => pt_lt tp (n_start (c_node c))) (cap_pieces post) ->
  pt_lt tp (n_end n) -> pt_le (snd (n_first n)) (n_start (fst h)) ->
  exists s o extra, objects_query b ms tp src false = Ok s /\
    os_objects s = flat_map uses (pre ++ PExpr n :: p2) ++ [o] /\ o_loc o = loc h /\
    o_fields o = extra /\ Forall (field_from (flat_map cap_access fs ++ cap_pieces post)) extra /\
    obj_completion b s tp =
      (st <- completion_start b tp (id_new (snd h) (n_start (fst h)) (n_end (fst h)));;
       Ok (match st with
           | None => None
           | Some p => Some (CtIncompleteIdentifier p (to_range (n_start (fst h), last_field_end o)),
                             pt_eqb (fst (n_last n)) (snd (n_last n)))
           end)).
Proof.
  intros ps Hps E Hp2 Hlt Hle Hpost Hin Hfirst.
  assert (Hb : Forall (behind tp) (cap_pieces post)).
  { eapply Forall_impl; [|exact Hpost]. intros c Hc. unfold behind. destruct (c_name c); auto. }
  destruct (select_chain b ms tp src (pre ++ PExpr n :: p2) h [] fs post Hps E) as
    (s & o & ex & Q & Eo & N1 & N2 & N3 & N4 & N5 & N6 & N7 & N8 & N9); auto.
  { split; [cbn; pts|exact Hle]. }
  exists s, o, ex. do 5 (split; [assumption|]).
  assert (Id : os_ident s = loc h) by (destruct N9; assumption).
  rewrite (expr_after_in pre n p2 Hp2) in N8.
  destruct Hps as (HF & p0 & Hp0 & Ho). pose proof Ho as Ho0.
  unfold ps in Ho. rewrite flat_map_app in Ho. apply ordered_app in Ho. destruct Ho as (O1 & O2).
  pose proof (ordered_end_le _ _ O1) as L1.
  cbn [flat_map marks app ordered] in O2. destruct O2 as (O2 & O3 & _).
  assert (P0 : pt_lt pt0 tp) by pts.
  assert (Hin1 : In (MExpr n) (flat_map marks (pre ++ PExpr n :: p2))).
  { rewrite flat_map_app. apply in_or_app. right. cbn. auto. }
  pose proof (ordered_expr _ _ _ O1 Hin1) as X2.
  assert (Hpipe : in_pipe s tp = false).
  { eapply query_pipe_free; [exact Q|exact P0|]. rewrite E. unfold ps, cap_pieces.
    rewrite flat_map_app. apply Forall_app. split.
    - eapply pieces_pipe_ends; [exact O1|]. pts.
    - cbn [flat_map cap_piece app]. constructor; [intros (X & _); discriminate|]. apply Forall_app. split.
      + unfold ps in HF. apply Forall_app in HF. destruct HF as (_ & HF). inversion HF as [|? ? Hch _]; subst.
        destruct Hch as (_ & _ & Hfs). eapply Forall_impl; [|exact (accesses_no_pipe src fs Hfs)]. intros c Hc Hc'. contradiction.
      + eapply Forall_impl; [|exact Hpost]. intros c Hc _. now left. }
  assert (Hexpr : in_expr s tp = true).
  { unfold in_expr. rewrite N8, Id. unfold expr_info, loc; cbn [fst snd]. 
    assert (A : pt_leb (n_start n) tp = true) by (apply pt_le_leb; pts).
    assert (B : pt_ltb tp (n_end n) = true) by pts.
    assert (C : pt_ltb (n_start (fst h)) tp = true) by pts.
    now rewrite A, B, C. }
  unfold obj_completion. rewrite Hpipe, Hexpr, N8. unfold should_autoclose. rewrite N8. unfold expr_info. cbn [snd fst e_begin e_end].
  assert (D : pt_eqb tp (snd (n_first n)) = false) by pts. rewrite D. cbn [andb].
  rewrite Id. unfold loc; cbn [fst snd].
  assert (F : pt_ltb (n_end (fst h)) tp = false) by pts. rewrite F.
  unfold is_ident. rewrite Id. unfold loc; cbn [fst snd].
  assert (G : pt_leb (n_start (fst h)) tp = true) by pts. rewrite G, (pt_le_leb _ _ Hle). cbn [andb].
  rewrite Eo, last_opt_snoc, N1.
  unfold os_full_range. rewrite Eo, last_opt_snoc. unfold obj_full_range. rewrite N2. unfold loc; cbn [fst snd].
  match goal with |- bind ?x _ = _ => destruct x as [[v|]|] end; reflexivity.
Qed.

(** *** When the reported range is the segment's own (C59) *)
Definition quiet (c : capture) : Prop := c_name c = CPipe \/ c_name c = CIs.

Lemma runs_of_quiet ps : exists qs rest, cap_pieces ps = qs ++ rest /\ Forall quiet qs /\
  match rest with [] => True | c :: _ => c_name c = CJustId \/ c_name c = CExpr end.
Proof.
  induction ps as [|p ps (qs & rest & E & Q & R)].
  { exists [], []. cbn. auto. }
  unfold cap_pieces in *. cbn [flat_map]. rewrite E.
  destruct p as [n|h fs|p name|kw nots name|t|t]; cbn [cap_piece].
  - exists [], (cap CExpr n :: qs ++ rest). cbn. auto.
  - exists [], (cap CJustId (fst h) :: flat_map cap_access fs ++ qs ++ rest). cbn. auto.
  - exists [cap CPipe (fst p)], (cap CJustId (fst name) :: qs ++ rest). split; [reflexivity|].
    split; [constructor; [now left|constructor]|cbn; auto].
  - exists [cap CIs kw], ((map (fun t => cap CJustId (fst t)) nots ++ [cap CJustId (fst name)]) ++ qs ++ rest).
    split; [reflexivity|]. split; [constructor; [now right|constructor]|].
    destruct nots; cbn; auto.
  - exists [], (cap CJustId (fst t) :: qs ++ rest). cbn. auto.
  - exists (cap CPipe (fst t) :: qs), rest. split; [reflexivity|]. split; [constructor; [now left|exact Q]|exact R].
Qed.

(** The look-ahead leaves the fields of the selected object alone when the next
    identifier is not an attribute. *)
Definition keeps (r : res oloop) (os : list jobject) (o : jobject) : Prop :=
  exists l' o', r = Ok l' /\ os_objects (l_objs l') = os ++ [o'] /\ o_fields o' = o_fields o.
Lemma lookahead_keeps b src tp os o e rest : forall qs s,
  Forall quiet qs -> Forall (text_ok src) (qs ++ rest) ->
  Forall (fun c => pt_lt tp (n_start (c_node c))) (qs ++ rest) ->
  match rest with [] => True | c :: _ => c_name c = CJustId \/ c_name c = CExpr end ->
  os_objects s = os ++ [o] -> pt_le (snd (os_dot s)) tp ->
  keeps (run (obj_step b src tp false) (mkol s true (N.of_nat (length os)) e) (qs ++ rest)) os o.
Proof.
  induction qs as [|c qs IH]; intros s HQ HT HL HR Eo Hd.
  - destruct rest as [|c rest].
    { eexists _, o. split; [reflexivity|]. auto. }
    cbn [app run] in *. inversion HL as [|? ? Hc HL']; subst. inversion HT as [|? ? Ht _]; subst.
    unfold obj_step. cbn [l_objs l_continued l_my_id l_my_expr orb negb].
    rewrite (pt_lt_leb _ _ Hc). rewrite (pt_le_leb _ _ (pt_lt_le _ _ Hc)).
    destruct (is_filter s || _) eqn:Ef.
    { eexists _, o. split; [reflexivity|]. auto. }
    apply orb_false_iff in Ef. destruct Ef as [_ Ef].
    destruct HR as [HR|HR]; rewrite HR in Ef; [|discriminate].
    unfold text_ok in Ht. rewrite HR in Ht. unfold obj_check, build_object. rewrite HR.
    destruct (utf8_text (c_node c) src) as [[v|]|]; [| |congruence]; cbn [bind fst snd].
    + replace ((row (n_start (c_node c)) =? row (snd (os_dot s))) && (col (n_start (c_node c)) =? col (snd (os_dot s)))) with false by pts.
      cbn [bind]. unfold new_object. destruct (str_mem v valid_identifiers); cbn [fst snd].
      * rewrite (finish_same b (mkol s true (N.of_nat (length os)) e) s os o Eo eq_refl). cbn [bind].
        eexists _, _. split; [reflexivity|]. cbn. split; reflexivity.
      * set (s2 := mkobjs _ _ _ _ _ _).
        rewrite (finish_new b (mkol s true (N.of_nat (length os)) e) s2 os o _ ltac:(unfold s2; cbn; rewrite Eo; reflexivity) eq_refl). cbn [bind].
        eexists _, _. split; [reflexivity|]. cbn. split; reflexivity.
    + rewrite (finish_same b (mkol s true (N.of_nat (length os)) e) s os o Eo eq_refl). cbn [bind].
      eexists _, _. split; [reflexivity|]. cbn. split; reflexivity.
  - cbn [app run] in *. inversion HL as [|? ? Hc HL']; subst. inversion HT as [|? ? Ht HT']; subst.
    inversion HQ as [|? ? Hq HQ']; subst.
    unfold obj_step at 1. cbn [l_objs l_continued l_my_id l_my_expr orb negb].
    rewrite (pt_lt_leb _ _ Hc). rewrite (pt_le_leb _ _ (pt_lt_le _ _ Hc)).
    destruct (is_filter s || _) eqn:Ef.
    { eexists _, o. split; [reflexivity|]. auto. }
    unfold text_ok in Ht. unfold obj_check. destruct Hq as [Hq|Hq]; rewrite Hq in *.
    + destruct (utf8_text (c_node c) src) as [[v|]|]; [| |congruence]; cbn [bind fst snd].
      * destruct (starts_with v "|"); now apply IH.
      * eexists _, o. split; [reflexivity|]. auto.
    + cbn [bind fst snd]. now apply IH.
Qed.
Lemma first_skipped b src tp os o c cs s i e :
  pt_lt tp (n_start (c_node c)) -> os_objects s = os ++ [o] ->
  pt_le (fst (os_ident s)) tp -> pt_le tp (snd (os_ident s)) ->
  (c_name c = CExpr \/
   keeps (run (obj_step b src tp false) (mkol s true (N.of_nat (length os)) (os_expr s)) cs) os o) ->
  keeps (run (obj_step b src tp false) (mkol s false i e) (c :: cs)) os o.
Proof.
  intros Hc Eo A B H. cbn [run]. unfold obj_step at 1. cbn [l_objs l_continued l_my_id l_my_expr orb negb].
  rewrite (pt_lt_leb _ _ Hc). rewrite (pt_le_leb _ _ (pt_lt_le _ _ Hc)).
  destruct (is_filter s || _) eqn:Ef.
  { eexists _, o. split; [reflexivity|]. auto. }
  destruct H as [H|H].
  { apply orb_false_iff in Ef. rewrite H in Ef. now destruct Ef. }
  unfold is_hover. rewrite (pt_le_leb _ _ A), (pt_le_leb _ _ B). cbn [andb orb].
  rewrite usize_sub_nonempty by (rewrite Eo; destruct os; discriminate). cbn [bind].
  rewrite Eo, app_length. cbn [length]. replace (N.of_nat (length os + 1) - 1) with (N.of_nat (length os)) by lia.
  exact H.
Qed.

Lemma head_alone b ms tp src pre h post s :
  pieces_ok src (pre ++ PChain h [] :: post) -> concat ms = cap_pieces (pre ++ PChain h [] :: post) ->
  pt_le (n_start (fst h)) tp -> pt_le tp (n_end (fst h)) -> plain_start post ->
  Forall (fun c => pt_lt tp (n_start (c_node c))) (cap_pieces post) ->
  objects_query b ms tp src false = Ok s ->
  exists o, os_objects s = flat_map uses pre ++ [o] /\ o_fields o = [].
Proof.
  intros (HF & p0 & Hp0 & Ho) E Hs He Hpl Hpost Q.
  apply Forall_app in HF. destruct HF as (HFpre & HF). inversion HF as [|? ? Hch HFpost]; subst.
  rewrite flat_map_app in Ho. apply ordered_app in Ho. destruct Ho as (O1 & O2).
  cbn [flat_map] in O2. apply ordered_app in O2. destruct O2 as (Op & Opost).
  set (a1 := marks_end p0 (flat_map marks pre)) in *.
  destruct (runc_pieces src pre jobjects0 p0 HFpre O1 (settled0 _ Hp0)) as (s0 & R0 & Eo0 & S0 & X0).
  fold a1 in S0. cbn [jobjects0 os_objects app] in Eo0.
  pose proof Hch as Hch'. cbn [piece_ok] in Hch. destruct Hch as (Hr & Hb & _).
  pose proof Op as Op'. cbn [marks flat_map ordered] in Op. destruct Op as (Oh1 & Oh2 & _).
  destruct (runc_piece src (PChain h []) s0 a1 Hch' Op' S0) as (s1 & R1 & Eo1 & S1 & Ex1).
  assert (Id1 : os_ident s1 = loc h /\ os_dot s1 = os_dot s0).
  { cbn [cap_piece runc flat_map] in R1.
    rewrite (check_id_new src s0 h _ Hr (not_built_in _ Hb) eq_refl Oh2) in R1
      by (destruct S0 as (_ & D & _); pts).
    inversion R1; subst. auto. }
  destruct Id1 as (Id1 & Dot1).
  unfold objects_query, oloop0 in Q.
  assert (Ecaps : concat ms = (cap_pieces pre ++ cap_piece (PChain h [])) ++ cap_pieces post).
  { rewrite E. unfold cap_pieces. rewrite flat_map_app. cbn [flat_map]. now rewrite <- app_assoc. }
  rewrite Ecaps in Q.
  rewrite (run_runc b src tp false _ false 0 _ _ jobjects0 s1) in Q.
  - assert (K : keeps (run (obj_step b src tp false) (mkol s1 false 0 (pt0, pt0, expr0)) (cap_pieces post))
                  (flat_map uses pre) (mkobj (snd h) (loc h) false false [] false)).
    { assert (Eo : os_objects s1 = flat_map uses pre ++ [mkobj (snd h) (loc h) false false [] false])
        by (rewrite Eo1, Eo0; reflexivity).
      assert (A : pt_le (fst (os_ident s1)) tp) by (rewrite Id1; exact Hs).
      assert (B : pt_le tp (snd (os_ident s1))) by (rewrite Id1; exact He).
      assert (D : pt_le (snd (os_dot s1)) tp).
      { rewrite Dot1. destruct S0 as (_ & D & _). pts. }
      pose proof (pieces_texts src post HFpost) as HT.
      destruct post as [|p post].
      { eexists _, _. split; [reflexivity|]. split; [exact Eo|reflexivity]. }
      destruct (runs_of_quiet post) as (qs & rest & Eq & Q1 & Q2).
      unfold cap_pieces, texts_ok in *. cbn [flat_map] in Hpost, HT |- *. rewrite Eq in *.
      apply Forall_app in HT. apply Forall_app in Hpost. destruct HT as (HTp & HT). destruct Hpost as (HLp & HL).
      destruct p as [n|y ys|pp name|kw nots name|t|t]; cbn [cap_piece app] in *;
        inversion HLp as [|? ? Hc HLr]; subst; inversion HTp as [|? ? Htc HTr]; subst.
      - apply first_skipped; auto.
      - cbn [plain_start] in Hpl. destruct ys; [|contradiction]. cbn [flat_map app].
        apply first_skipped; auto. right. apply lookahead_keeps; auto.
      - apply first_skipped; auto. right. inversion HLr; subst. inversion HTr; subst.
        apply (lookahead_keeps b src tp _ _ _ (cap CJustId (fst name) :: qs ++ rest) [] s1); cbn [app]; auto.
      - apply first_skipped; auto. right.
        apply (lookahead_keeps b src tp _ _ _ ((map (fun t => cap CJustId (fst t)) nots ++ [cap CJustId (fst name)]) ++ qs ++ rest) [] s1); cbn [app]; auto.
        + apply Forall_app; auto.
        + apply Forall_app; auto.
        + destruct nots; cbn; auto.
      - apply first_skipped; auto. right. apply lookahead_keeps; auto.
      - apply first_skipped; auto. right. apply lookahead_keeps; auto. }
    destruct K as (l' & o' & K1 & K2 & K3). rewrite K1 in Q. cbn in Q. inversion Q; subst. eauto.
  - apply Forall_app. split.
    + eapply Forall_impl; [|apply (pieces_start_before pre p0 tp O1); fold a1; pts]. auto.
    + constructor; [right; cbn; pts|constructor].
  - rewrite runc_app, R0. exact R1.
Qed.

(** *** Cursor between tokens *)
Definition closed (p : point) (s : jobjects) : Prop :=
  pt_le (snd (os_ident s)) p /\ Forall (fun o => pt_le (last_field_end o) p) (os_objects s).
Lemma obj_check_closed src s c s' a p :
  (c_name c = CJustId -> pt_le (n_end (c_node c)) p) -> closed p s -> obj_check src s c = Ok (s', a) -> closed p s'.
Proof.
  intros Hc (A & B) H. unfold obj_check in H. destruct (c_name c) eqn:Ek; try (inversion H; subst; split; auto; fail).
  - specialize (Hc eq_refl). unfold build_object in H.
    destruct (utf8_text (c_node c) src) as [[v|]|]; [| |discriminate]; cbn [bind] in H;
      [|inversion H; subst; split; auto].
    assert (Hn : closed p (fst (new_object s v (n_start (c_node c)) (n_end (c_node c))))).
    { unfold new_object. destruct (str_mem v valid_identifiers); [split; auto|].
      split; [exact Hc|]. cbn. apply Forall_app. split; [exact B|]. constructor; [exact Hc|constructor]. }
    destruct (_ && _).
    + destruct (os_objects s) as [|x l] eqn:Eo; cbn [bind fst snd] in H; inversion H; subst; [exact Hn|].
      split; [exact Hc|]. cbn [os_objects]. apply (update_last_Forall _ _ (x :: l)); [exact B|].
      intros o Ho. unfold last_field_end, obj_add_field. cbn [o_fields]. rewrite last_opt_snoc. exact Hc.
    + cbn [bind fst snd] in H. inversion H; subst. exact Hn.
  - destruct (utf8_text (c_node c) src) as [[v|]|]; [| |discriminate]; cbn [bind] in H; inversion H; subst;
      [|split; auto]. destruct (starts_with v "|"); split; auto.
Qed.
Lemma runc_closed src p : forall cs s s',
  Forall (fun c => c_name c = CJustId -> pt_le (n_end (c_node c)) p) cs -> closed p s ->
  runc src s cs = Some s' -> closed p s'.
Proof.
  induction cs as [|c cs IH]; intros s s' HF Hs R; cbn [runc] in R.
  - now inversion R; subst.
  - inversion HF; subst. destruct (obj_check src s c) as [[s1 [a|]]|] eqn:E; try discriminate.
    apply (IH s1 s'); [assumption| |exact R]. exact (obj_check_closed _ _ _ _ _ _ H1 Hs E).
Qed.
Lemma as_u32_le n : as_u32 n <= n.
Proof. unfold as_u32. apply N.mod_le. discriminate. Qed.
Lemma closed_no_hover p s tp : closed p s -> pt_lt p tp -> is_hover s tp = false.
Proof.
  intros (A & B) Hp. unfold is_hover. apply orb_false_iff. split.
  - apply andb_false_iff. right. pts.
  - unfold os_full_range. destruct (last_opt (os_objects s)) as [o|] eqn:El.
    + apply last_opt_In in El. rewrite Forall_forall in B. specialize (B o El).
      unfold to_range2, obj_full_range, to_range, to_position2, to_point. cbn [rstart rend line character fst snd].
      apply andb_false_iff. right.
      pose proof (as_u32_le (row (last_field_end o))). pose proof (as_u32_le (col (last_field_end o))).
      pts.
    + unfold range0, to_range2, pos0, to_point; cbn [rstart rend line character]. apply andb_false_iff. right. pts.
Qed.
Lemma query_gap b ms tp src cs1 cs2 s1 p :
  concat ms = cs1 ++ cs2 -> runc src jobjects0 cs1 = Some s1 ->
  Forall (fun c => pt_le (n_start (c_node c)) tp) cs1 ->
  Forall (fun c => c_name c = CJustId -> pt_le (n_end (c_node c)) p) cs1 -> pt_lt p tp ->
  match cs2 with [] => True | c :: _ => pt_lt tp (n_start (c_node c)) end ->
  objects_query b ms tp src false = Ok s1 /\ pt_lt (snd (os_ident s1)) tp.
Proof.
  intros E R H1 H2 Hp H3.
  assert (C : closed p s1).
  { eapply runc_closed; eauto. split; [cbn; pts|constructor]. }
  split; [|destruct C; pts].
  unfold objects_query, oloop0. rewrite E.
  rewrite (run_runc b src tp false cs2 false 0 _ cs1 jobjects0 s1); [| |exact R].
  2:{ eapply Forall_impl; [|exact H1]. auto. }
  destruct cs2 as [|c cs2]; [reflexivity|]. cbn [run]. unfold obj_step. cbn [l_objs l_continued orb negb].
  rewrite (pt_lt_leb _ _ H3), (pt_le_leb _ _ (pt_lt_le _ _ H3)), (closed_no_hover _ _ _ C Hp).
  destruct (is_filter s1 || _); reflexivity.
Qed.
Lemma pieces_id_ends ps after : ordered after (flat_map marks ps) ->
  Forall (fun c => c_name c = CJustId -> pt_le (n_end (c_node c)) (marks_end after (flat_map marks ps))) (cap_pieces ps).
Proof.
  intros Ho. apply Forall_forall. intros c Hc Hn. destruct (cap_pieces_marks ps c Hc) as [[_ B]|[B _]]; [|congruence].
  destruct (ordered_tok _ _ _ Ho B) as (A1 & A2 & A3). pts.
Qed.



Lemma ends_before_run src ps p :
  ends_before src ps p -> exists s, runc src jobjects0 (cap_pieces ps) = Some s /\
    os_objects s = flat_map uses ps /\ snd (os_test s) = false /\ pt_lt (snd (os_dot s)) p /\
    pt_lt (snd (os_pipe s)) p /\ os_expr s = expr_after ps /\
    Forall (fun c => pt_le (n_start (c_node c)) p) (cap_pieces ps) /\
    Forall (fun c => c_name c = CJustId -> pt_le (n_end (c_node c)) p) (cap_pieces ps) /\ pt_lt pt0 p.
Proof.
  intros (HF & p0 & Hp0 & Ho & Hp). destruct (runc_pieces src ps jobjects0 p0 HF Ho (settled0 _ Hp0)) as (s & R & Eo & (S1 & S2 & S3) & X).
  exists s. split; [exact R|]. split; [exact Eo|]. split; [exact S1|]. split; [pts|]. split; [pts|]. split; [exact X|].
  pose proof (ordered_end_le _ _ Ho) as Hle.
  split; [now apply (pieces_start_before ps p0)|]. split; [|pts].
  eapply Forall_impl; [|exact (pieces_id_ends ps p0 Ho)]. intros c H1 H2. specialize (H1 H2). pts.
Qed.

Lemma inside_expr src ps p tp s :
  ends_before src ps p -> pt_le p tp -> inside ps tp -> os_expr s = expr_after ps ->
  pt_lt (fst (os_ident s)) tp -> in_expr s tp = true.
Proof.
  intros (HF & p0 & Hp0 & Ho & Hp) Ht (pre & n & p2 & -> & Hp2 & Hn) E Hi.
  rewrite (expr_after_in pre n p2 Hp2) in E. unfold in_expr. rewrite E. unfold expr_info. cbn [fst snd].
  assert (Hin : In (MExpr n) (flat_map marks (pre ++ PExpr n :: p2))).
  { rewrite flat_map_app. apply in_or_app. right. cbn. auto. }
  pose proof (ordered_expr _ _ _ Ho Hin) as X2.
  rewrite (pt_le_leb (n_start n) tp) by pts.
  replace (pt_ltb tp (n_end n)) with true by pts.
  now replace (pt_ltb (fst (os_ident s)) tp) with true by pts.
Qed.
Lemma fold_expr_in ps : forall e, fold_left expr_step ps e = e \/ exists n, In (PExpr n) ps /\ fold_left expr_step ps e = expr_info n.
Proof.
  induction ps as [|p ps IH]; intros e; [now left|]. cbn [fold_left].
  destruct (IH (expr_step e p)) as [E|(n & Hn & E)].
  - rewrite E. destruct p; try (now left). right. eexists. split; [now left|reflexivity].
  - right. exists n. split; [now right|exact E].
Qed.
Lemma outside_expr ps tp s : outside ps tp -> os_expr s = expr_after ps -> in_expr s tp = false.
Proof.
  intros Ho E. unfold in_expr. rewrite E. unfold expr_after.
  destruct (fold_expr_in ps ((pt0, pt0), expr0)) as [->|(n & Hn & ->)].
  - replace (pt_leb pt0 tp && pt_ltb tp pt0) with false by pts. reflexivity.
  - unfold expr_info. specialize (Ho n Hn). replace (pt_leb (n_start n) tp && pt_ltb tp (n_end n)) with false by pts.
    reflexivity.
Qed.


(** In the white space after complete pieces. *)
Lemma complete_gap b ms tp src ps cs2 p :
  ends_before src ps p -> pt_lt p tp -> concat ms = cap_pieces ps ++ cs2 -> before_all tp cs2 ->
  exists s, objects_query b ms tp src false = Ok s /\
    (inside ps tp -> exists a, obj_completion b s tp = Ok (Some (CtIdentifier, a))) /\
    (outside ps tp -> obj_completion b s tp = Ok None).
Proof.
  intros He Hp E Hc. destruct (ends_before_run src ps p He) as (s & R & Eo & S1 & S2 & S3 & X & F1 & F2 & P0).
  destruct (query_gap b ms tp src _ _ s p E R) as (Q & Hi); auto.
  { eapply Forall_impl; [|exact F1]. intros c H. pts. }
  assert (Hi' : pt_le (fst (os_ident s)) (snd (os_ident s)) \/ True) by now right.
  exists s. split; [exact Q|].
  assert (Hpi : in_pipe s tp = false) by (unfold in_pipe; apply andb_false_iff; right; pts).
  split.
  - intros Hin. unfold obj_completion. rewrite Hpi.
    destruct (in_expr s tp) eqn:Ei.
    + destruct (pt_eqb tp _ && pt_eqb tp _); [eauto|]. replace (pt_ltb (snd (os_ident s)) tp) with true by pts. eauto.
    + exfalso. (* the identifier lies before its own end *)
      assert (Hst : pt_lt (fst (os_ident s)) tp).
      { clear - R F1 F2 Hp P0 Hi. 
        assert (G : forall cs s0 s', Forall (fun c => pt_le (n_start (c_node c)) p) cs -> pt_le (fst (os_ident s0)) p ->
                   runc src s0 cs = Some s' -> pt_le (fst (os_ident s')) p).
        { induction cs as [|c cs IH]; intros s0 s' HF H0 HR; cbn [runc] in HR.
          - now inversion HR; subst.
          - inversion HF as [|? ? Hc1 HF1]; subst. destruct (obj_check src s0 c) as [[s1 [a|]]|] eqn:Ec; try discriminate.
            apply (IH s1); auto. clear - Hc1 H0 Ec. unfold obj_check in Ec. destruct (c_name c) eqn:Ek; try (inversion Ec; subst; auto; fail).
            + unfold build_object, new_object in Ec.
              destruct (utf8_text (c_node c) src) as [[v|]|]; [| |discriminate]; cbn [bind] in Ec; [|inversion Ec; subst; auto].
              destruct (_ && _); [destruct (os_objects s0)|]; try destruct (str_mem v valid_identifiers);
                cbn in Ec; inversion Ec; subst; auto.
            + destruct (utf8_text (c_node c) src) as [[v|]|]; [| |discriminate]; cbn [bind] in Ec; inversion Ec; subst.
              destruct (starts_with v "|"); auto. }
        specialize (G _ jobjects0 s F1 ltac:(cbn; pts) R). pts. }
      rewrite (inside_expr src ps p tp s He (pt_lt_le _ _ Hp) Hin X Hst) in Ei. discriminate.
  - intros Hout. unfold obj_completion. rewrite Hpi, (outside_expr ps tp s Hout X). unfold is_test. now rewrite S1.
Qed.

(** On a pipe (with the white space that follows it). *)
Lemma complete_pipe b ms tp src ps p rest :
  ends_before src ps (n_start (fst p)) -> reads src p -> (exists r, snd p = ("|" ++ r)%string) ->
  pt_lt (n_start (fst p)) tp -> pt_le tp (n_end (fst p)) ->
  concat ms = cap_pieces ps ++ cap CPipe (fst p) :: rest ->
  (before_all tp rest \/
   exists t rest', rest = cap CJustId (fst t) :: rest' /\ reads src t /\ n_start (fst t) = n_end (fst p) /\
     pt_lt (n_start (fst t)) (n_end (fst t)) /\ before_all tp rest') ->
  exists s a, objects_query b ms tp src false = Ok s /\ obj_completion b s tp = Ok (Some (CtFilter, a)).
Proof.
  intros He Hr Hpi H1 H2 E Hrest.
  destruct (ends_before_run src ps _ He) as (s & R & Eo & S1 & S2 & S3 & X & F1 & F2 & P0).
  assert (Hdone : forall s', os_pipe s' = loc p -> exists a, obj_completion b s' tp = Ok (Some (CtFilter, a))).
  { intros s' Es. unfold obj_completion, in_pipe. rewrite Es. unfold loc; cbn [fst snd].
    rewrite (pt_le_leb _ _ (pt_lt_le _ _ H1)), (pt_le_leb _ _ H2). cbn. eauto. }
  set (s1 := mkobjs (os_objects s) (os_dot s) (loc p) (os_test s) (os_expr s) (os_ident s)).
  assert (R1 : runc src jobjects0 (cap_pieces ps ++ [cap CPipe (fst p)]) = Some s1).
  { rewrite runc_app, R. cbn [runc]. now rewrite check_pipe. }
  assert (F1' : Forall (fun c => pt_le (n_start (c_node c)) tp) (cap_pieces ps ++ [cap CPipe (fst p)])).
  { apply Forall_app. split; [eapply Forall_impl; [|exact F1]; intros c H; pts|]. constructor; [cbn; pts|constructor]. }
  assert (F2' : Forall (fun c => c_name c = CJustId -> pt_le (n_end (c_node c)) (n_start (fst p))) (cap_pieces ps ++ [cap CPipe (fst p)])).
  { apply Forall_app. split; [exact F2|]. constructor; [discriminate|constructor]. }
  assert (E1 : concat ms = (cap_pieces ps ++ [cap CPipe (fst p)]) ++ rest) by (rewrite E, <- app_assoc; reflexivity).
  assert (Hb : before_all tp rest -> exists s a, objects_query b ms tp src false = Ok s /\ obj_completion b s tp = Ok (Some (CtFilter, a))).
  { intros Hb. destruct (query_gap b ms tp src _ _ s1 _ E1 R1 F1' F2' H1 Hb) as (Q & _).
    destruct (Hdone s1 eq_refl) as (a & Ha). eauto. }
  destruct Hrest as [Hrest|(t & rest' & -> & Ht & Hst & Hlt & Hrest)]; [auto|].
  (* the name after the pipe *)
  destruct (pt_leb (n_start (fst t)) tp) eqn:Et.
  2:{ apply Hb. cbn. pts. }
  apply pt_leb_le in Et. assert (Etp : n_start (fst t) = tp) by (rewrite Hst in *; apply pt_eq; pts).
  assert (Q : exists s', objects_query b ms tp src false = Ok s' /\ os_pipe s' = loc p).
  { unfold objects_query, oloop0. rewrite E1.
    rewrite (run_runc b src tp false _ false 0 _ _ jobjects0 s1); [| |exact R1].
    2:{ eapply Forall_impl; [|exact F1']. auto. }
    cbn [run]. unfold obj_step at 1. cbn [l_objs l_continued l_my_id l_my_expr orb cap c_node].
    rewrite (pt_le_leb _ _ Et).
    destruct (str_mem (snd t) valid_identifiers) eqn:Eb.
    - assert (Hd1 : pt_lt (snd (os_dot s1)) (n_start (fst t))) by (rewrite Etp; cbn; pts).
      rewrite (check_id_builtin src s1 t Ht (proj1 (str_mem_built_in _) Eb) Hd1).
      cbn [bind fst snd is_some is_none negb].
      + destruct rest' as [|c rest']; [eexists; split; reflexivity|]. cbn [run]. unfold obj_step at 1. cbn [l_objs l_continued orb negb].
        cbn in Hrest. rewrite (pt_lt_leb _ _ Hrest), (pt_le_leb _ _ (pt_lt_le _ _ Hrest)).
        assert (C : closed (n_start (fst p)) s1).
        { apply (runc_closed src _ _ jobjects0 s1 F2'); [|exact R1]. split; [cbn; pts|constructor]. }
        rewrite (closed_no_hover _ _ _ C H1). destruct (is_filter s1 || _); eexists; split; reflexivity.
    - rewrite (check_id_new src s1 t _ Ht Eb eq_refl Hlt) by (rewrite Etp; cbn; pts).
      cbn [bind fst snd is_some is_none negb].
      destruct rest' as [|c rest']; [eexists; split; reflexivity|]. cbn [run]. unfold obj_step at 1. cbn [l_objs l_continued orb negb].
      cbn in Hrest. rewrite (pt_lt_leb _ _ Hrest), (pt_le_leb _ _ (pt_lt_le _ _ Hrest)).
      unfold is_filter at 1. cbn [os_pipe os_ident s1 loc fst snd]. rewrite Hst, pt_eqb_refl. cbn [orb].
      eexists; split; reflexivity. }
  destruct Q as (s' & Q & Es). destruct (Hdone s' Es) as (a & Ha). eauto.
Qed.

(** After [is]. *)
Lemma complete_is b ms tp src ps kw rest :
  ends_before src ps (n_start kw) -> pt_lt (n_start kw) (n_end kw) -> pt_le (n_end kw) tp ->
  concat ms = cap_pieces ps ++ cap CIs kw :: rest -> before_all tp rest ->
  exists s, objects_query b ms tp src false = Ok s /\
    (inside ps tp -> exists a, obj_completion b s tp = Ok (Some (CtIdentifier, a))) /\
    (outside ps tp -> obj_completion b s tp = Ok (if row tp =? row (n_end kw) then Some (CtTest, false) else None)).
Proof.
  intros He Hk Ht E Hrest.
  destruct (ends_before_run src ps _ He) as (s & R & Eo & S1 & S2 & S3 & X & F1 & F2 & P0).
  set (s1 := mkobjs (os_objects s) (os_dot s) (os_pipe s) ((n_start kw, n_end kw), true) (os_expr s) (os_ident s)).
  assert (R1 : runc src jobjects0 (cap_pieces ps ++ [cap CIs kw]) = Some s1) by (rewrite runc_app, R; reflexivity).
  assert (E1 : concat ms = (cap_pieces ps ++ [cap CIs kw]) ++ rest) by (rewrite E, <- app_assoc; reflexivity).
  assert (F2' : Forall (fun c => c_name c = CJustId -> pt_le (n_end (c_node c)) (n_start kw)) (cap_pieces ps ++ [cap CIs kw])).
  { apply Forall_app. split; [exact F2|]. constructor; [discriminate|constructor]. }
  destruct (query_gap b ms tp src _ _ s1 (n_start kw) E1 R1) as (Q & Hi); auto.
  { apply Forall_app. split; [eapply Forall_impl; [|exact F1]; intros c H; pts|]. constructor; [cbn; pts|constructor]. }
  { pts. }
  exists s1. split; [exact Q|].
  assert (Hpi : in_pipe s1 tp = false) by (unfold in_pipe; apply andb_false_iff; right; cbn; pts).
  split.
  - intros Hin. unfold obj_completion. rewrite Hpi.
    destruct (complete_gap b [cap_pieces ps] tp src ps [] (n_start kw) He) as (s' & Q' & Hc & _).
    { pts. } { cbn. now rewrite app_nil_r. } { exact I. }
    assert (s' = s).
    { unfold objects_query, oloop0 in Q'. cbn [concat] in Q'. 
      rewrite (run_runc b src tp false [] false 0 _ _ jobjects0 s) in Q'; [| |exact R].
      - cbn in Q'. now inversion Q'.
      - eapply Forall_impl; [|exact F1]. intros c H. right. pts. }
    subst s'. destruct (Hc Hin) as (a & Ha). unfold obj_completion in Ha.
    assert (Hps : in_pipe s tp = false) by (unfold in_pipe; apply andb_false_iff; right; pts).
    rewrite Hps in Ha.
    change (in_expr s1 tp) with (in_expr s tp). destruct (in_expr s tp).
    + destruct (pt_eqb tp _ && pt_eqb tp _); [eauto|]. replace (pt_ltb (snd (os_ident s1)) tp) with true by pts. eauto.
    + exfalso. unfold is_test in Ha. rewrite S1 in Ha. discriminate.
  - intros Hout. unfold obj_completion. rewrite Hpi, (outside_expr ps tp s1 Hout X). unfold is_test.
    cbn [s1 os_test fst snd]. rewrite (pt_le_leb _ _ Ht). cbn [andb]. destruct (row tp =? _); reflexivity.
Qed.

(** *** The completion request *)
Lemma snip_run_clean cs : forall s, Forall (fun c => c_name c <> CErrorBlock) cs -> sn_error s = false ->
  exists s', run snip_check s cs = Ok s' /\ sn_error s' = false.
Proof.
  induction cs as [|c cs IH]; intros s HF Hs; [eexists; split; [reflexivity|exact Hs]|].
  inversion HF; subst. cbn [run]. unfold snip_check at 1. destruct (c_name c); try congruence; apply IH; auto.
Qed.
Lemma cname_error c : c_name c = CErrorBlock \/ c_name c <> CErrorBlock.
Proof. destruct (c_name c); (now left) || (right; discriminate). Qed.
Lemma flat_captures_concat all tp ms :
  flat_captures all tp ms = filter (fun c => all || pt_leb (n_start (c_node c)) tp) (concat ms).
Proof. unfold flat_captures. induction ms as [|m ms IH]; cbn; [reflexivity|]. now rewrite IH, filter_app. Qed.
Lemma snip_run_exact lim cs : forall s, sn_error s = false ->
  exists s', run snip_check s (filter (fun c => pt_leb (n_start (c_node c)) lim) cs) = Ok s' /\
    (sn_error s' = true -> exists n, first_error lim cs n /\ sn_end s' = n_end n) /\
    (forall n, first_error lim cs n -> sn_error s' = true /\ sn_end s' = n_end n).
Proof.
  induction cs as [|c cs IH]; intros s Hs.
  { exists s. split; [reflexivity|]. split; [congruence|]. intros n (a & c & z & H & _). destruct a; discriminate. }
  assert (Skip : c_name c <> CErrorBlock \/ pt_lt lim (n_start (c_node c)) -> forall n, first_error lim (c :: cs) n <-> first_error lim cs n).
  { intros Hc n. split.
    - intros (a & d & z & H1 & H2 & H3 & H4 & H5). destruct a as [|x a]; inversion H1; subst.
      + exfalso. destruct Hc as [Hc|Hc]; [now apply Hc|pts].
      + exists a, d, z. split; [reflexivity|]. split; [exact H2|]. split; [reflexivity|]. split; [exact H4|].
        intros y Hy. apply H5. now right.
    - intros (a & d & z & -> & H2 & H3 & H4 & H5). exists (c :: a), d, z. split; [reflexivity|]. split; [exact H2|]. split; [exact H3|].
      split; [exact H4|]. intros y [<-|Hy]; [intros Hk|now apply H5]. destruct Hc as [Hc|Hc]; [now apply Hc in Hk|exact Hc]. }
  cbn [filter]. destruct (pt_leb (n_start (c_node c)) lim) eqn:El.
  - destruct (cname_error c) as [Ek|Ek].
    + cbn [run]. unfold snip_check at 1. rewrite Ek. eexists. split; [reflexivity|]. cbn [sn_error sn_end].
      assert (F : first_error lim (c :: cs) (c_node c)).
      { exists [], c, cs. split; [reflexivity|]. split; [exact Ek|]. split; [reflexivity|]. split; [pts|intros d []]. }
      split; [intros _; exists (c_node c); now split|].
      intros n (a & d & z & H1 & H2 & H3 & H4 & H5). split; [reflexivity|]. destruct a as [|x a]; inversion H1; subst; [reflexivity|].
      exfalso. specialize (H5 _ (or_introl eq_refl) Ek). pts.
    + assert (exists s1, snip_check s c = Ok (s1, true) /\ sn_error s1 = false) as (s1 & E1 & E2).
      { unfold snip_check. destruct (c_name c); try congruence; eexists; (split; [reflexivity|exact Hs]). }
      cbn [run]. rewrite E1. destruct (IH s1 E2) as (s' & R & A & B). exists s'. split; [exact R|].
      split; [intros H; destruct (A H) as (n & H1 & H2); exists n; split; [apply Skip; auto|exact H2]|].
      intros n H. apply B. apply Skip in H; auto.
  - assert (L : pt_lt lim (n_start (c_node c))) by pts. destruct (IH s Hs) as (s' & R & A & B). exists s'. split; [exact R|].
    split; [intros H; destruct (A H) as (n & H1 & H2); exists n; split; [apply Skip; auto|exact H2]|].
    intros n H. apply B. apply Skip in H; auto.
Qed.
Lemma snippets_exact b tp ms :
  exists s, snippets_query ms tp false = Ok s /\
    match to_complete b s tp with
    | Ok (Some _) => exists n, first_error (mkpt (row tp) (col tp + 2)) (concat ms) n /\ pt_le tp (n_end n)
    | Ok None => clean_before tp ms
    | Panic => False
    end.
Proof.
  unfold snippets_query. rewrite flat_captures_concat.
  destruct (snip_run_exact (mkpt (row tp) (col tp + 2)) (concat ms) (mksnip pt0 pt0 pt0 false) eq_refl) as (s & R & A & B).
  exists s. split; [exact R|]. unfold to_complete. destruct (sn_error s) eqn:Ee; cbn [andb].
  - destruct (A eq_refl) as (n & H1 & H2). destruct (pt_leb tp (sn_end s)) eqn:El.
    + exists n. split; [exact H1|]. rewrite <- H2. pts.
    + rewrite andb_false_r. intros m Hm. destruct (B m Hm) as (_ & Hm2). rewrite <- Hm2. pts.
  - intros m Hm. destruct (B m Hm) as (Hm2 & _). congruence.
Qed.
Lemma flat_captures_In all tp ms c : In c (flat_captures all tp ms) ->
  In c (concat ms) /\ (all = true \/ pt_le (n_start (c_node c)) tp).
Proof.
  unfold flat_captures. intros H. apply in_flat_map in H. destruct H as (m & Hm & Hc).
  apply filter_In in Hc. destruct Hc as (Hc & Hb). split; [apply in_concat; eauto|].
  apply orb_true_iff in Hb. destruct Hb as [Hb|Hb]; [now left|right; now apply pt_leb_le].
Qed.
Lemma snippets_clean b tp ms : clean_before tp ms ->
  exists s, snippets_query ms tp false = Ok s /\ to_complete b s tp = Ok None.
Proof.
  intros H. destruct (snippets_exact b tp ms) as (s & E & C). exists s. split; [exact E|].
  destruct (to_complete b s tp) as [[r|]|]; [|reflexivity|destruct C].
  destruct C as (n & H1 & H2). specialize (H n H1). exfalso. pts.
Qed.
Lemma clean_nil tp ms : concat ms = [] -> clean_before tp ms.
Proof. intros E n (a & c & z & H & _). rewrite E in H. destruct a; discriminate. Qed.
Lemma completion_in_template {T} b (st : lsp_files T) uri pos ctx tr t s c :
  ctx = Some TkInvoked \/ ctx = Some TkTriggerCharacter ->
  file_ext uri = Some Template -> sget uri (ls_tt st) = Some tr -> sget uri (ls_docs st) = Some t ->
  clean_before (point_of pos) (t_captures T QSnippets tr (rope_content t)) ->
  objects_query b (t_captures T QObjects tr (rope_content t)) (point_of pos) (rope_content t) false = Ok s ->
  obj_completion b s (point_of pos) = Ok (Some c) ->
  completion b uri pos ctx st = Ok (Some c).
Proof.
  intros Hctx He Ht Hd Hc Q O. unfold completion.
  destruct (snippets_clean b _ _ Hc) as (sn & Es & En).
  assert (Hcan : (match ctx with Some TkTriggerCharacter | Some TkInvoked => true | _ => false end) = true)
    by (destruct Hctx as [->| ->]; reflexivity).
  rewrite Hcan. cbn [negb]. rewrite He. cbn [trees_of]. rewrite Ht, Hd, Es. cbn [bind].
  rewrite En. cbn [andb bind is_some is_none negb]. rewrite Q. cbn [bind]. rewrite O. reflexivity.
Qed.
