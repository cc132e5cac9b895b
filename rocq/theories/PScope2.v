(** * PScope2: from the run of the analysis to the names and extents it reports. *)
From Verif Require Import Base RString Utf8 Types Captures MDefinition SpecScope PScope.

(** ** Order on points *)
Lemma pt_le_refl p : pt_le p p.
Proof. right. split; [reflexivity|lia]. Qed.
Lemma pt_le_trans p q r : pt_le p q -> pt_le q r -> pt_le p r.
Proof. unfold pt_le. lia. Qed.

(** ** Every keyword pushed is either closed once or left open *)
Fixpoint set_kws (t : tpl) : list N :=
  match t with
  | TNil => []
  | TExpr _ r | TOther _ _ _ r | TBranch _ _ _ _ r => set_kws r
  | TSet kw _ _ _ _ r => n_id kw :: set_kws r
  | TBlock _ _ _ body _ r => set_kws body ++ set_kws r
  | TBlockSet _ _ _ _ _ _ r => []
  end.
Lemma opened_cons h l : opened h l = hd 0 (opened h l) :: tl (opened h l).
Proof.
  unfold opened. destruct l; [|reflexivity]. cbn [app].
  destruct (rev (ifs (header_es h))); reflexivity.
Qed.
Lemma straight_branching t : straight t -> branching t.
Proof.
  induction t as [| | | | |h b e body IHb et r IHr|]; cbn; try tauto.
  intros (H1 & H2 & H3 & H4). repeat split; auto.
  destruct h; auto; cbn [header_es] in H1; clear -H1.
  all: match goal with H : no_if (flat_map snd ?l) |- _ => induction l as [|b l IH] end; constructor.
  all: cbn [flat_map] in H1; apply Forall_app in H1; destruct H1 as (Ha & Hb); auto.
Qed.
Lemma straight_leaks t : straight t -> leaks t = [].
Proof.
  induction t as [|es r IH|es b e r IH|kw x es b e r IH|kw es b e r IH
                 |h b e body IHb et r IHr|]; cbn [straight leaks]; try tauto.
  - intros (H1 & H2). now rewrite (IH H2), ifs_none.
  - intros (H1 & H2). now rewrite (IH H2), ifs_none.
  - intros (H1 & H2). now rewrite (IH H2), ifs_none.
  - intros (H1 & H2 & H3 & H4). unfold opened. rewrite (IHb H2), (IHr H4), (ifs_none _ H1). reflexivity.
Qed.

Lemma closes_perm t : branching t ->
  Permutation (map fst (closes t) ++ leaks t ++ set_kws t) (keyword_ids t).
Proof.
  intros Hb. apply (Permutation_count_occ N.eq_dec). intros k.
  induction t as [|es r IH|es b e r IH|kw x es b e r IH|kw es b e r IH
                 |h b e body IHb et r IHr|];
    cbn [branching closes leaks set_kws keyword_ids] in *; try tauto.
  - specialize (IH Hb). rewrite !count_occ_app in *. rewrite count_occ_rev. lia.
  - specialize (IH Hb). rewrite !count_occ_app in *. rewrite count_occ_rev. lia.
  - specialize (IH Hb). rewrite !count_occ_app in *. cbn [count_occ].
    destruct (N.eq_dec (n_id kw) k); rewrite count_occ_app, count_occ_rev; lia.
  - specialize (IH Hb). rewrite !count_occ_app in *. cbn [count_occ].
    destruct (N.eq_dec (n_id (fst kw)) k); rewrite count_occ_app, count_occ_rev; lia.
  - destruct Hb as (Hh & Hbb & Hne & Hbr). specialize (IHb Hbb). specialize (IHr Hbr).
    rewrite map_app. cbn [map fst].
    assert (E : (count_occ N.eq_dec (opened h (leaks body)) k =
                 count_occ N.eq_dec [hd 0%N (opened h (leaks body))] k +
                 count_occ N.eq_dec (tl (opened h (leaks body))) k)%nat).
    { rewrite (opened_cons h (leaks body)) at 1.
      rewrite <- count_occ_app. reflexivity. }
    unfold opened in E at 1. rewrite (ifs_none _ Hne).
    change (?x :: map fst (closes r)) with ([x] ++ map fst (closes r)).
    change (header_kw h :: ?l) with ([header_kw h] ++ l).
    rewrite !count_occ_app in *. rewrite count_occ_rev in E.
    cbn [app]. rewrite ?count_occ_app in *. cbn [count_occ] in *. lia.
Qed.

(** ** Looking a scope up *)
Definition look (l : list (N * point)) (root : point) (k : N) : point :=
  match find (fun p => fst p =? k) l with Some p => snd p | None => root end.
Lemma scope_end_look scopes root k : scope_end_of scopes root k = look (map idend scopes) root k.
Proof.
  unfold scope_end_of, look. induction scopes as [|s l IH]; [reflexivity|]. cbn.
  destruct (s_id s =? k); [reflexivity|exact IH].
Qed.
Lemma look_in l root k e : NoDup (map fst l) -> In (k, e) l -> look l root k = e.
Proof.
  unfold look. induction l as [|[k' e'] l IH]; [contradiction|]. cbn.
  intros Hn [E|Hin]; inversion Hn as [|? ? Hn1 Hn2]; subst.
  - inversion E; subst. now rewrite N.eqb_refl.
  - destruct (N.eqb_spec k' k) as [->|]; [|auto].
    exfalso. apply Hn1. change k with (fst (k, e)). now apply in_map.
Qed.
Lemma look_out l root k : ~ In k (map fst l) -> look l root k = root.
Proof.
  unfold look. induction l as [|[k' e'] l IH]; [reflexivity|]. cbn. intros H.
  destruct (N.eqb_spec k' k) as [->|]; [exfalso; auto|]. apply IH. auto.
Qed.

(** ** Reading the definitions off *)
Section Read.
Context (scopes : list scope) (root : point).
Notation lk := (scope_end_of scopes root).
Definition read_defs (ds : list definition) : list decl :=
  map decl_of_id (flat_map def_collect (map (fix_def scopes root) ds)).
Lemma read_defs_app a b : read_defs (a ++ b) = read_defs a ++ read_defs b.
Proof. unfold read_defs. now rewrite map_app, flat_map_app, map_app. Qed.
Lemma read_erase ds : read_defs (map erase ds) = read_defs ds.
Proof.
  induction ds as [|d ds IH]; [reflexivity|].
  change (read_defs ([erase d] ++ map erase ds) = read_defs ([d] ++ ds)).
  rewrite !read_defs_app, IH. f_equal. now destruct d.
Qed.
Lemma read_header fid k h : read_defs (raw_header fid k h) = header_recorded (lk fid) (lk k) h.
Proof.
  unfold read_defs. destruct h as [kw key oth es|kw bs|kw name ps|kw name es|kw es];
    cbn [raw_header map flat_map fix_def def_collect header_recorded app]; try reflexivity.
  - rewrite app_nil_r, !map_map. apply map_ext. reflexivity.
  - rewrite app_nil_r. cbn [map]. f_equal. rewrite !map_map. apply map_ext. reflexivity.
Qed.

Lemma read_exact t : forall st E,
  straight t -> (forall k e, In (k, e) (closes t) -> lk k = e) -> lk (hd 0 st) = E ->
  read_defs (raws st t) = recorded E t.
Proof.
  induction t as [|es r IH|es b e r IH|kw x es b e r IH|kw es b e r IH
                 |h b e body IHb et r IHr|]; intros st E; cbn [straight]; try tauto;
    cbn [raws recorded closes].
  - intros (H1 & H2) Hc HE. rewrite (ifs_none _ H1). now apply IH.
  - intros (H1 & H2) Hc HE. rewrite (ifs_none _ H1). now apply IH.
  - intros (H1 & H2) Hc HE. rewrite (ifs_none _ H1).
    change (?d :: raws ?s r) with ([d] ++ raws s r). rewrite read_defs_app. cbn [app rev].
    rewrite (IH st E H2 Hc HE). rewrite <- HE at 2. reflexivity.
  - intros (H1 & H2 & H3 & H4) Hc HE.
    rewrite (ifs_none _ H1). rewrite (straight_leaks _ H2) in *.
    unfold opened in *. rewrite (ifs_none _ H1) in *. cbn [rev app hd tl] in *.
    assert (Hk : lk (header_kw h) = et_at et).
    { apply Hc. apply in_or_app. right. now left. }
    rewrite !read_defs_app, read_header, HE, Hk.
    rewrite (IHb (header_kw h :: st) (et_at et) H2), (IHr st E H4); auto.
    + intros k e0 Hin. apply Hc. apply in_or_app. right. now right.
    + intros k e0 Hin. apply Hc. apply in_or_app. now left.
Qed.

Lemma covers_of k u t u' : pt_le u u' -> covers (decl_of k u t) (decl_of k u' t).
Proof. intros H. repeat split. exact H. Qed.
Lemma covers_map k u u' (l : list tok) :
  pt_le u u' -> Forall2 covers (map (decl_of k u) l) (map (decl_of k u') l).
Proof. intros H. induction l; constructor; auto using covers_of. Qed.
Lemma covers_header o i o' i' h :
  pt_le o o' -> pt_le i i' -> Forall2 covers (header_recorded o i h) (header_recorded o' i' h).
Proof.
  intros Ho Hi. destruct h; cbn [header_recorded]; auto using covers_map, covers_of, Forall2.
Qed.
Lemma read_covers t : forall st E,
  branching t -> nested E t ->
  (forall k e, In (k, e) (closes t) -> lk k = e) ->
  (forall k, In k (hd 0 st :: leaks t) -> pt_le E (lk k)) ->
  Forall2 covers (recorded E t) (read_defs (raws st t)).
Proof.
  induction t as [|es r IH|es b e r IH|kw x es b e r IH|kw es b e r IH
                 |h b e body IHb et r IHr|]; intros st E; cbn [branching]; try tauto;
    cbn [raws recorded closes leaks nested].
  - intros _ _ _ _. constructor.
  - intros Hb Hn Hc HL. apply IH; auto. intros k [Hk|Hk].
    + apply HL. destruct (rev (ifs es)) as [|y l] eqn:Er; cbn in Hk; subst.
      * now left.
      * right. apply in_or_app. right. now left.
    + apply HL. right. apply in_or_app. auto.
  - intros Hb Hn Hc HL. apply IH; auto. intros k [Hk|Hk].
    + apply HL. destruct (rev (ifs es)) as [|y l] eqn:Er; cbn in Hk; subst.
      * now left.
      * right. apply in_or_app. right. now left.
    + apply HL. right. apply in_or_app. auto.
  - intros Hb Hn Hc HL.
    change (?d :: raws ?s r) with ([d] ++ raws s r). rewrite read_defs_app.
    change (decl_of SetVariable E x :: recorded E r) with ([decl_of SetVariable E x] ++ recorded E r).
    apply Forall2_app.
    + constructor; [|constructor]. apply covers_of. apply HL. now left.
    + apply IH; auto. intros k [Hk|Hk].
      * apply HL. destruct (rev (ifs es)) as [|y l] eqn:Er; cbn in Hk; subst.
        -- now left.
        -- right. apply in_or_app. right. now left.
      * apply HL. right. apply in_or_app. auto.
  - intros Hb Hn Hc HL. apply IH; auto. intros k [Hk|Hk].
    + apply HL. right. apply in_or_app. right.
      destruct (rev (ifs es)) as [|y l] eqn:Er; cbn in Hk; subst; now left.
    + apply HL. right. apply in_or_app. auto.
  - intros (Hh & Hbb & Hne & Hbr) (Hn1 & Hn2 & Hn3) Hc HL.
    set (O := opened h (leaks body)) in *.
    assert (HO : forall q, In q O -> pt_le (et_at et) (lk q)).
    { intros q Hq. unfold O in Hq. rewrite (opened_cons h (leaks body)) in Hq. fold O in Hq.
      destruct Hq as [Hq|Hq].
      - rewrite <- Hq. rewrite (Hc (hd 0 O) (et_at et)); [apply pt_le_refl|].
        apply in_or_app. right. now left.
      - eapply pt_le_trans; [exact Hn2|]. apply HL. right. apply in_or_app. auto. }
    rewrite !read_defs_app, read_header. apply Forall2_app; [|apply Forall2_app].
    + apply covers_header.
      * apply HL. now left.
      * apply HO. unfold O, opened. rewrite !in_app_iff. right. right. now left.
    + apply IHb; auto.
      * intros k e0 Hin. apply Hc. apply in_or_app. now left.
      * intros k [Hk|Hk]; apply HO; unfold O, opened; rewrite !in_app_iff; [|now left].
        right. destruct (rev (ifs (header_es h))) as [|y l]; cbn in Hk; subst.
        -- right. now left.
        -- left. now left.
    + apply IHr; auto.
      * intros k e0 Hin. apply Hc. apply in_or_app. right. now right.
      * intros k [Hk|Hk]; apply HL.
        -- destruct (tl O) as [|y l]; cbn in Hk; subst; [now left|].
           right. apply in_or_app. right. now left.
        -- right. apply in_or_app. auto.
Qed.
End Read.

Lemma flat_captures_all tp ms : flat_captures true tp ms = concat ms.
Proof.
  unfold flat_captures. induction ms as [|m ms IH]; [reflexivity|]. cbn [flat_map concat].
  rewrite IH. f_equal. induction m as [|c m IHm]; [reflexivity|].
  cbn [filter orb]. f_equal. exact IHm.
Qed.

(** The run on a whole template. *)
Lemma run_template src t ms root tp :
  tpl_ok src t -> branching t -> distinct_nodes t -> concat ms = captures_of t ->
  exists d, definition_query ms root tp src true = Ok d /\
    map decl_of_id (def_identifiers d) = read_defs (d_scopes d) root (raws [] t) /\
    (forall k e, In (k, e) (closes t) -> scope_end_of (d_scopes d) root k = e) /\
    (forall k, In k (0 :: leaks t) -> scope_end_of (d_scopes d) root k = root).
Proof.
  intros Hok Hbr Hdn Hms. unfold distinct_nodes in Hdn.
  inversion Hdn as [|? ? H0 Hnd]; subst.
  destruct (template_steps src t jdefs0) as (s & Hs & _ & E1 & E2 & E3 & _); auto.
  { repeat split. } { split; auto. }
  unfold definition_query. rewrite flat_captures_all, Hms, (steps_run _ _ _ _ Hs).
  cbn [bind]. eexists. split; [reflexivity|].
  change (d_scopes (fix_end root s)) with (d_scopes s).
  assert (Hp : Permutation (map fst (closes t) ++ leaks t ++ set_kws t) (keyword_ids t))
    by now apply closes_perm.
  assert (Hnd2 : NoDup (map fst (closes t) ++ leaks t ++ set_kws t)).
  { eapply Permutation_NoDup; [apply Permutation_sym; exact Hp|exact Hnd]. }
  assert (Hsc : map idend (d_scopes s) = closes t) by exact E3.
  split; [|split].
  - unfold def_identifiers, fix_end. cbn [d_defs d_scopes].
    change (read_defs (d_scopes s) root (d_defs s) = read_defs (d_scopes s) root (raws [] t)).
    rewrite <- (read_erase _ _ (d_defs s)). f_equal. exact E1.
  - intros k e Hin. rewrite scope_end_look, Hsc. apply look_in; [|exact Hin].
    eapply NoDup_app_l; exact Hnd2.
  - intros k Hk. rewrite scope_end_look, Hsc. apply look_out. intros Hc. destruct Hk as [<-|Hk].
    + apply H0. eapply Permutation_in; [exact Hp|]. apply in_or_app. auto.
    + eapply NoDup_app_disj; [exact Hnd2|exact Hc|]. apply in_or_app. auto.
Qed.

Lemma exact_recorded src t ms root tp :
  tpl_ok src t -> straight t -> distinct_nodes t -> concat ms = captures_of t ->
  exists d, definition_query ms root tp src true = Ok d /\
    map decl_of_id (def_identifiers d) = recorded root t.
Proof.
  intros Hok Hst Hdn Hms.
  destruct (run_template src t ms root tp Hok (straight_branching t Hst) Hdn Hms)
    as (d & H1 & H2 & H3 & H4).
  exists d. split; [exact H1|]. rewrite H2. apply read_exact; auto. apply H4. now left.
Qed.
Lemma covering_recorded src t ms root tp :
  tpl_ok src t -> branching t -> distinct_nodes t -> nested root t -> concat ms = captures_of t ->
  exists d, definition_query ms root tp src true = Ok d /\
    Forall2 covers (recorded root t) (map decl_of_id (def_identifiers d)).
Proof.
  intros Hok Hst Hdn Hn Hms.
  destruct (run_template src t ms root tp Hok Hst Hdn Hms) as (d & H1 & H2 & H3 & H4).
  exists d. split; [exact H1|]. rewrite H2. apply read_covers; auto.
  intros k Hk. rewrite H4 by exact Hk. apply pt_le_refl.
Qed.

Lemma no_id_toks es : no_id es -> noise_toks es = [].
Proof. induction 1 as [|e es He _ IH]; [reflexivity|]. destruct e; try discriminate; exact IH. Qed.
Lemma binds_toks bs :
  Forall (fun b : tok * list noise => no_id (snd b)) bs -> flat_map bind_toks bs = map fst bs.
Proof.
  induction 1 as [|b bs Hb _ IH]; [reflexivity|]. cbn [flat_map map]. unfold bind_toks at 1.
  rewrite (no_id_toks _ Hb), IH. reflexivity.
Qed.
Lemma recorded_introduced t : forall E, plain_headers t -> recorded E t = introduced E t.
Proof.
  induction t as [|es r IH|es b e r IH|kw x es b e r IH|kw es b e r IH
                 |h b e body IHb et r IHr|kw x b e body IHb et r IHr]; intros E;
    cbn [plain_headers recorded introduced]; auto.
  - intros H. now rewrite IH.
  - intros (Hh & Hb & Hr). rewrite (IHb _ Hb), (IHr _ Hr). f_equal.
    destruct h as [kw key oth es|kw bs|kw name ps|kw name es|kw es];
      cbn [header_recorded header_decls]; auto.
    + now subst oth.
    + rewrite (binds_toks _ Hh), map_map. reflexivity.
    + rewrite (binds_toks _ Hh), map_map. reflexivity.
  - intros (Hb & Hr). now rewrite (IHb _ Hb), (IHr _ Hr).
Qed.

(** ** No second loop target, whatever the captures *)
Definition no_value (d : definition) : Prop :=
  match d with DForLoop _ v => v = None | _ => True end.
Lemma update_last_const_Forall {A} (P : A -> Prop) x l :
  Forall P l -> P x -> Forall P (update_last (fun _ => x) l).
Proof.
  intros Hl Hx. destruct (snoc_or_nil l) as [->|(l' & y & ->)]; [constructor|].
  rewrite update_last_snoc. apply Forall_app in Hl. apply Forall_app. split; [apply Hl|auto].
Qed.
Lemma def_from_no_value c : no_value (def_from c).
Proof. unfold def_from. repeat (destruct (String.eqb _ _); [cbn; auto|]). reflexivity. Qed.
Lemma last_opt_in {A} (l : list A) x : last_opt l = Some x -> In x l.
Proof.
  destruct (snoc_or_nil l) as [->|(l' & y & ->)]; [discriminate|].
  rewrite last_opt_snoc. intros H; inversion H; subst. apply in_or_app. right. now left.
Qed.
Lemma check_no_value src s c s' k :
  def_check src s c = Ok (s', k) -> Forall no_value (d_defs s) -> Forall no_value (d_defs s').
Proof.
  unfold def_check. destruct (c_name c); intros H Hs;
    try (inversion H; subst; cbn; assumption).
  - destruct (existsb _ _); [inversion H; subst; assumption|].
    destruct (utf8_text _ src) as [[content|]|]; cbn [bind] in H; try discriminate.
    pose proof (def_from_no_value content) as Hd.
    destruct (def_from content); inversion H; subst; cbn; apply Forall_app; split; auto.
  - destruct (last_opt (d_defs s)) as [[]|]; inversion H; subst; cbn; auto.
    now apply update_last_const_Forall.
  - destruct (negb (d_add s)); [inversion H; subst; assumption|].
    destruct (utf8_text _ src) as [[content|]|]; cbn [bind] in H; try discriminate.
    2:{ inversion H; subst; assumption. }
    unfold add_id_last in H. destruct (last_opt (d_defs s)) as [d|] eqn:El.
    2:{ inversion H; subst; assumption. }
    assert (Hd : no_value d) by (apply last_opt_in in El; rewrite Forall_forall in Hs; auto).
    destruct (add_id d _ _) as [d' a'] eqn:Ea. inversion H; subst. cbn.
    apply update_last_const_Forall; [assumption|].
    destruct d as [key v|key e|ks|ks sc|nm]; cbn in Ea, Hd; subst.
    + destruct (String.eqb (id_name key) ""); inversion Ea; subst; reflexivity.
    + destruct (String.eqb (id_name key) ""); inversion Ea; subst; exact I.
    + inversion Ea; subst; exact I.
    + destruct ks; inversion Ea; subst; exact I.
    + destruct (String.eqb (id_name nm) ""); inversion Ea; subst; exact I.
  - destruct (d_close s && d_isend s); [|inversion H; subst; assumption].
    destruct (d_stack s); inversion H; subst; assumption.
  - destruct (d_open s); [|inversion H; subst; assumption].
    destruct (d_stack s); inversion H; subst; assumption.
Qed.
Lemma run_no_value src l : forall s s',
  run (def_check src) s l = Ok s' -> Forall no_value (d_defs s) -> Forall no_value (d_defs s').
Proof.
  induction l as [|c l IH]; intros s s' H Hs; cbn [run] in H.
  - inversion H; subst; assumption.
  - destruct (def_check src s c) as [[s1 k]|] eqn:E; [|discriminate].
    pose proof (check_no_value _ _ _ _ _ E Hs) as H1.
    destruct k; [eauto|inversion H; subst; assumption].
Qed.
Lemma never_loop_value ms root tp src all d i :
  definition_query ms root tp src all = Ok d -> In i (def_identifiers d) -> id_type i <> ForLoopValue.
Proof.
  unfold definition_query. destruct (run _ _ _) as [s|] eqn:E; [|discriminate]. cbn [bind].
  intros H Hi. inversion H; subst. apply run_no_value in E; [|constructor].
  unfold def_identifiers, fix_end in Hi. cbn [d_defs] in Hi.
  apply in_flat_map in Hi. destruct Hi as (d & Hd & Hi).
  apply in_map_iff in Hd. destruct Hd as (d0 & <- & Hd0).
  rewrite Forall_forall in E. specialize (E d0 Hd0).
  destruct d0 as [key v|key e|ks|ks sc|nm]; cbn in *; subst.
  - destruct Hi as [<-|[]]. discriminate.
  - destruct Hi as [<-|[]]. discriminate.
  - apply in_map_iff in Hi. destruct Hi as (x & <- & _). discriminate.
  - destruct ks; cbn in Hi; [contradiction|]. destruct Hi as [<-|Hi]; [discriminate|].
    apply in_map_iff in Hi. destruct Hi as (x & <- & _). discriminate.
  - destruct Hi as [<-|[]]. discriminate.
Qed.

(** ** C16: no panic *)
Lemma check_total src s c : readable src c -> exists r, def_check src s c = Ok r.
Proof.
  unfold readable, def_check. destruct (c_name c); intros H; eauto.
  - destruct (existsb _ _); [eauto|]. destruct H as (x & ->). cbn [bind].
    destruct (def_from x); eauto.
  - destruct (last_opt (d_defs s)) as [[]|]; eauto.
  - destruct (negb (d_add s)); [eauto|].
    destruct (utf8_text _ src) as [[x|]|]; cbn [bind]; [|eauto|congruence].
    destruct (add_id_last _ _ _). eauto.
  - destruct (d_close s && d_isend s); [|eauto]. destruct (d_stack s); eauto.
  - destruct (d_open s); [|eauto]. destruct (d_stack s); eauto.
Qed.
Lemma run_total src l : forall s, Forall (readable src) l -> exists s', run (def_check src) s l = Ok s'.
Proof.
  induction l as [|c l IH]; intros s H; [now exists s|].
  inversion H as [|? ? Hc Hl]; subst. cbn [run].
  destruct (check_total src s c Hc) as ([s1 k] & ->). destruct k; eauto.
Qed.
Lemma definitions_total ms root tp src all :
  Forall (Forall (readable src)) ms -> exists d, definition_query ms root tp src all = Ok d.
Proof.
  intros H. unfold definition_query.
  destruct (run_total src (flat_captures all tp ms) jdefs0) as (s & ->).
  - unfold flat_captures. rewrite Forall_forall. intros c Hc. apply in_flat_map in Hc.
    destruct Hc as (m & Hm & Hc). apply filter_In in Hc. rewrite Forall_forall in H.
    specialize (H m Hm). rewrite Forall_forall in H. now apply H.
  - cbn [bind]. eauto.
Qed.
