(** * PScope3: exact extents for templates of any shape. *)
From Verif Require Import Base RString Utf8 Types Captures MDefinition SpecScope SpecScope2 PScope PScope2.

(** ** The same marks with the node identities the analysis keeps *)
Inductive imark := IOpen (i : N) | IClose (p : point) | IName (k : identifier_type) (t : tok).
Definition strip (m : imark) : mark :=
  match m with IOpen _ => MOpen | IClose p => MClose p | IName k t => MName k t end.
Definition iopens (es : list noise) : list imark := map IOpen (ifs es).
Fixpoint ilisted (k : identifier_type) (live : bool) (es : list noise) : list imark :=
  match es with
  | [] => []
  | NId t :: r => (if live then [IName k t] else []) ++ ilisted k live r
  | NEq _ :: r => ilisted k live r
  | NIf n :: r => IOpen (n_id n) :: ilisted k false r
  end.
Definition iheader (h : header) : list imark :=
  match h with
  | HFor kw key _ es => IOpen (n_id kw) :: IName ForLoopKey key :: iopens es
  | HWith kw bs => IOpen (n_id kw) :: ilisted WithVariable true (flat_binds bs)
  | HMacro kw name ps =>
      IName MacroName name :: IOpen (n_id kw) :: ilisted MacroParameter true (flat_binds ps)
  | HBlock kw name es => IOpen (n_id kw) :: IName TemplateBlock name :: iopens es
  | HPlain kw es => IOpen (n_id (fst kw)) :: iopens es
  end.
Fixpoint imarks (t : tpl) : list imark :=
  match t with
  | TNil => []
  | TExpr es r | TOther es _ _ r => iopens es ++ imarks r
  | TSet _ x es _ _ r => IName SetVariable x :: iopens es ++ imarks r
  | TBranch kw es _ _ r => IOpen (n_id (fst kw)) :: iopens es ++ imarks r
  | TBlock h _ _ body et r => iheader h ++ imarks body ++ IClose (et_at et) :: imarks r
  | TBlockSet _ x _ _ body et r =>
      IName SetVariable x :: imarks body ++ IClose (et_at et) :: imarks r
  end.
Lemma strip_iopens es : map strip (iopens es) = opens es.
Proof.
  unfold iopens, opens, ifs. induction es as [|e es IH]; [reflexivity|]. cbn [flat_map].
  rewrite !map_app, IH. destruct e; reflexivity.
Qed.
Lemma strip_ilisted k es : forall live, map strip (ilisted k live es) = listed k live es.
Proof.
  induction es as [|e es IH]; intros live; [reflexivity|]. destruct e; cbn [ilisted listed].
  - rewrite map_app, IH. now destruct live.
  - apply IH.
  - cbn [map strip]. now rewrite IH.
Qed.
Lemma strip_iheader h : map strip (iheader h) = header_marks h.
Proof.
  destruct h; cbn [iheader header_marks map strip]; rewrite ?strip_iopens, ?strip_ilisted; reflexivity.
Qed.
Lemma strip_imarks t : map strip (imarks t) = marks t.
Proof.
  induction t as [|es r IH|es b e r IH|kw x es b e r IH|kw es b e r IH
                 |h b e body IHb et r IHr|kw x b e body IHb et r IHr];
    cbn [imarks marks map strip]; rewrite ?map_app, ?strip_iopens, ?strip_iheader; cbn [map strip]; congruence.
Qed.

(** ** What the stack does with them *)
Fixpoint after (st : list N) (ms : list imark) : list N :=
  match ms with
  | [] => st
  | IOpen i :: r => after (i :: st) r
  | IClose _ :: r => after (tl st) r
  | IName _ _ :: r => after st r
  end.
Fixpoint closed (st : list N) (ms : list imark) : list (N * point) :=
  match ms with
  | [] => []
  | IOpen i :: r => closed (i :: st) r
  | IClose p :: r => match st with [] => closed [] r | k :: st' => (k, p) :: closed st' r end
  | IName _ _ :: r => closed st r
  end.
Fixpoint named (st : list N) (ms : list imark) : list (N * (identifier_type * tok)) :=
  match ms with
  | [] => []
  | IOpen i :: r => named (i :: st) r
  | IClose _ :: r => named (tl st) r
  | IName k t :: r => (hd 0 st, (k, t)) :: named st r
  end.
Lemma after_app a b : forall st, after st (a ++ b) = after (after st a) b.
Proof. induction a as [|[]]; intros; cbn; auto. Qed.
Lemma closed_app a b : forall st, closed st (a ++ b) = closed st a ++ closed (after st a) b.
Proof.
  induction a as [|[] a IH]; intros st; cbn; auto. destruct st; cbn; [apply IH|]. now rewrite IH.
Qed.
Lemma named_app a b : forall st, named st (a ++ b) = named st a ++ named (after st a) b.
Proof. induction a as [|[] a IH]; intros st; cbn; auto. now rewrite IH. Qed.
Lemma after_iopens es st : after st (iopens es) = rev (ifs es) ++ st.
Proof.
  unfold iopens. revert st. induction (ifs es) as [|i l IH]; intros st; [reflexivity|].
  cbn. rewrite IH. now rewrite <- app_assoc.
Qed.
Lemma closed_iopens es st : closed st (iopens es) = [].
Proof. unfold iopens. revert st. induction (ifs es) as [|i l IH]; intros st; cbn; auto. Qed.
Lemma named_iopens es st : named st (iopens es) = [].
Proof. unfold iopens. revert st. induction (ifs es) as [|i l IH]; intros st; cbn; auto. Qed.
Lemma after_ilisted k es : forall live st, after st (ilisted k live es) = rev (ifs es) ++ st.
Proof.
  induction es as [|e es IH]; intros live st; [reflexivity|]. destruct e as [t|n|n]; cbn [ilisted].
  - rewrite after_app, IH. now destruct live.
  - apply IH.
  - cbn [after]. rewrite IH. change (ifs (NIf n :: es)) with (n_id n :: ifs es). cbn [rev].
    now rewrite <- app_assoc.
Qed.
Lemma closed_ilisted k es : forall live st, closed st (ilisted k live es) = [].
Proof.
  induction es as [|e es IH]; intros live st; [reflexivity|]. destruct e as [t|n|n]; cbn [ilisted].
  - rewrite closed_app, IH. now destruct live.
  - apply IH.
  - cbn [closed]. apply IH.
Qed.
(** The names of a list, all found while the same block is innermost. *)
Fixpoint live_toks (live : bool) (es : list noise) : list tok :=
  match es with
  | [] => []
  | NId t :: r => (if live then [t] else []) ++ live_toks live r
  | NEq _ :: r => live_toks live r
  | NIf _ :: r => live_toks false r
  end.
Lemma live_toks_off es : live_toks false es = [].
Proof. induction es as [|[] es IH]; cbn; auto. Qed.
Lemma named_ilisted k es : forall live st,
  named st (ilisted k live es) = map (fun t => (hd 0 st, (k, t))) (live_toks live es).
Proof.
  assert (Hoff : forall es st, named st (ilisted k false es) = []).
  { induction es0 as [|[] es0 IH]; intros st; cbn; auto. }
  induction es as [|e es IH]; intros live st; [reflexivity|]. destruct e as [t|n|n]; cbn [ilisted live_toks].
  - rewrite named_app, map_app, IH. now destruct live.
  - apply IH.
  - cbn [named]. now rewrite Hoff, live_toks_off.
Qed.

Section Steps3.
Context (src : string).
Notation steps := (steps (def_check src)).
Definition at_scope (scopes : list scope) (root : point) (n : N * (identifier_type * tok)) : decl :=
  decl_of (fst (snd n)) (scope_end_of scopes root (fst n)) (snd (snd n)).

(** The captures [l] have the effect of the marks [ms]. *)
Definition does (s : jdefs) (l : list capture) (ms : list imark) (s1 : jdefs) : Prop :=
  steps s l s1 /\ stk s1 = after (stk s) ms /\ scs s1 = scs s ++ closed (stk s) ms /\
  exists D, dfs s1 = dfs s ++ D /\
    forall scopes root, read_defs scopes root D = map (at_scope scopes root) (named (stk s) ms).
Lemma does_nil s : does s [] [] s.
Proof.
  split; [constructor|]. split; [reflexivity|]. cbn [closed named map].
  split; [now rewrite app_nil_r|]. exists []. split; [now rewrite app_nil_r|reflexivity].
Qed.
Lemma does_app s a ma s1 b mb s2 :
  does s a ma s1 -> does s1 b mb s2 -> does s (a ++ b) (ma ++ mb) s2.
Proof.
  intros (S1 & A1 & C1 & D1 & E1 & R1) (S2 & A2 & C2 & D2 & E2 & R2).
  split; [eapply steps_app; eauto|]. split; [now rewrite after_app, A2, A1|].
  split; [now rewrite closed_app, C2, C1, A1, app_assoc|].
  exists (D1 ++ D2). split; [now rewrite E2, E1, app_assoc|].
  intros scopes root. rewrite read_defs_app, R1, R2, A1, named_app, map_app. reflexivity.
Qed.
Lemma does_tail b e s :
  d_close s = false -> d_isend s = false -> (d_add s = true -> d_open s = true) ->
  exists s1, does s (cap_tail b e) [] s1 /\ quiet s1 /\ d_ids s1 = d_ids s.
Proof.
  intros H1 H2 H3. destruct (tail_quiet src b e s H1 H2 H3) as (s1 & T & Q & A1 & A2 & A3 & A4).
  exists s1. split; [|split; assumption]. split; [exact T|]. split; [exact A2|].
  split; [cbn; rewrite app_nil_r; exact A3|]. exists []. rewrite app_nil_r. split; [exact A1|reflexivity].
Qed.
Lemma does_noise es s :
  quiet s -> exists s1, does s (map cap_noise es) (iopens es) s1 /\ quiet s1 /\ d_ids s1 = d_ids s.
Proof.
  intros Hq. destruct (noise_quiet src es s Hq) as (s1 & T & Q & A1 & A2 & A3 & A4).
  exists s1. split; [|split; assumption]. split; [exact T|].
  split; [now rewrite after_iopens|]. rewrite closed_iopens, named_iopens, app_nil_r.
  split; [exact A3|]. exists []. rewrite app_nil_r. split; [exact A1|reflexivity].
Qed.

(** The list of a [with] or a macro, with inline conditionals. *)
Lemma collect_list k es : forall live s D d,
  Forall (noise_ok src) es -> inside_def s D d -> d_add s = live ->
  (live = true -> hd 0 (stk s) = k) ->
  (exists ks, d = DWith ks) \/ (exists ks sc, d = DMacro ks sc /\ ks <> []) ->
  exists s1 d1, steps s (map cap_noise es) s1 /\ inside_def s1 D d1 /\
    collecting d k (live_toks live es) d1 /\
    stk s1 = rev (ifs es) ++ stk s /\ scs s1 = scs s /\ d_ids s1 = d_ids s.
Proof.
  induction es as [|e es IH]; intros live s D d Hes Hin Ha Hk Hd.
  - exists s, d. split; [constructor|]. repeat split; auto; try apply Hin. now apply collecting_nil.
  - inversion Hes as [|? ? He Hes']; subst x l.
    destruct e as [t|n|n]; cbn [cap_noise noise_ok map live_toks] in *.
    + destruct live.
      * destruct (collect_one src k t s D d He Hin Ha (Hk eq_refl) Hd) as
          (s1 & d1 & H1 & Hin1 & Ha1 & Hc1 & E1 & E2 & E3).
        destruct (IH true s1 D d1 Hes' Hin1 Ha1) as
          (s2 & d2 & H2 & Hin2 & Hc2 & F1 & F2 & F3); [intros _; rewrite E1; auto| |].
        { eapply collecting_shape; eauto. }
        exists s2, d2. split; [econstructor; eauto|]. split; [exact Hin2|].
        split; [eapply collecting_trans; eauto|].
        change (ifs (NId t :: es)) with (ifs es). repeat split; congruence.
      * destruct (IH false s D d Hes' Hin Ha) as (s2 & d2 & H2 & R); [discriminate|exact Hd|].
        exists s2, d2. split; [|exact R]. econstructor; [|exact H2]. now apply check_id_off.
    + destruct (check_eq src n s) as (s1 & B1 & _ & _ & _ & _ & _ & _ & _ & _ & B2).
      rewrite B2 in B1.
      2:{ destruct Hin as (_ & _ & _ & Hdd). intros k0 e0. rewrite Hdd, last_opt_snoc.
          destruct Hd as [(ks & ->)|(ks & sc & -> & _)]; discriminate. }
      destruct (IH live s D d Hes' Hin Ha Hk Hd) as (s2 & d2 & H2 & R).
      exists s2, d2. split; [econstructor; eauto|]. exact R.
    + set (s1 := mkdefs (d_defs s) false true false false (mkscope (n_id n) pt0 pt0 :: d_stack s)
                   (d_scopes s) (d_ids s)).
      assert (H1 : def_check src s (cap CScope n) = Ok (s1, true)) by reflexivity.
      destruct (IH false s1 D d Hes') as (s2 & d2 & H2 & Hin2 & Hc2 & F1 & F2 & F3); auto.
      { destruct Hin as (_ & _ & _ & Hdd). repeat split; auto. } { discriminate. }
      exists s2, d2. split; [econstructor; eauto|]. split; [exact Hin2|]. split; [exact Hc2|].
      change (ifs (NIf n :: es)) with (n_id n :: ifs es). cbn [rev]. rewrite <- app_assoc.
      repeat split; auto.
Qed.
Lemma cap_binds_flat bs : flat_map cap_bind bs = map cap_noise (flat_binds bs).
Proof.
  induction bs as [|b bs IH]; [reflexivity|]. unfold flat_binds in *. cbn [flat_map].
  rewrite map_app, IH. reflexivity.
Qed.
Lemma binds_ok_flat bs : Forall (bind_ok src) bs -> Forall (noise_ok src) (flat_binds bs).
Proof.
  induction 1 as [|b bs (H1 & H2) _ IH]; [constructor|]. unfold flat_binds in *. cbn [flat_map].
  apply Forall_app. split; [|exact IH]. constructor; assumption.
Qed.
Lemma ifs_flat bs : ifs (flat_binds bs) = ifs (flat_map snd bs).
Proof.
  induction bs as [|b bs IH]; [reflexivity|]. unfold flat_binds in *. cbn [flat_map].
  change (ifs ((NId (fst b) :: snd b) ++ ?x)) with (ifs (snd b ++ x)).
  now rewrite !ifs_app, IH.
Qed.

Lemma does_header h s :
  quiet s -> header_ok src h -> ~ In (header_kw h) (d_ids s) ->
  exists s1, does s (cap_header h) (iheader h) s1 /\
    d_close s1 = false /\ d_isend s1 = false /\ (d_add s1 = true -> d_open s1 = true) /\
    incl (d_ids s1) (header_kw h :: d_ids s).
Proof.
  intros Hq Hok Hfresh.
  assert (Hinc : forall s1, d_ids s1 = header_kw h :: d_ids s -> incl (d_ids s1) (header_kw h :: d_ids s))
    by (intros s1 ->; apply incl_refl).
  assert (Hsimple : header_branching h ->
            named (stk s) (iheader h) = named (stk s) (iheader h) ->
            (forall scopes root, read_defs scopes root (raw_header (hd 0 (stk s)) (header_kw h) h) =
               map (at_scope scopes root) (named (stk s) (iheader h))) ->
            after (stk s) (iheader h) = rev (ifs (header_es h)) ++ header_kw h :: stk s ->
            closed (stk s) (iheader h) = [] ->
            exists s1, does s (cap_header h) (iheader h) s1 /\
              d_close s1 = false /\ d_isend s1 = false /\ (d_add s1 = true -> d_open s1 = true) /\
              incl (d_ids s1) (header_kw h :: d_ids s)).
  { intros Hb _ Hr Haf Hcl.
    destruct (header_steps src h s Hq Hok Hb Hfresh) as (s1 & H1 & C1 & C2 & C3 & A1 & A2 & A3 & A4).
    exists s1. split; [|auto]. split; [exact H1|]. split; [now rewrite Haf|].
    split; [now rewrite Hcl, app_nil_r|]. eexists. split; [exact A1|exact Hr]. }
  destruct h as [kw key others es|kw bs|kw name ps|kw name es|kw es].
  - apply Hsimple; [exact I|reflexivity| | |].
    + intros scopes root. cbn [iheader named]. rewrite named_iopens. reflexivity.
    + cbn [iheader after]. rewrite after_iopens. reflexivity.
    + cbn [iheader closed]. apply closed_iopens.
  - clear Hsimple. cbn [header_ok header_kw cap_header iheader] in *.
    destruct Hok as ((Hkw & _) & Hbs).
    destruct (check_def src kw "with" s (DWith []) Hkw Hfresh) as
      (s1 & H1 & Hin1 & Ha1 & A1 & A2 & A3); [discriminate|reflexivity|].
    destruct (collect_list (n_id kw) (flat_binds bs) true s1 _ _ (binds_ok_flat _ Hbs) Hin1 Ha1) as
      (s2 & d2 & H2 & (J1 & J2 & J3 & J4) & Hc & B1 & B2 & B3); [now rewrite A1|eauto|].
    cbn [collecting app] in Hc. subst d2. rewrite <- cap_binds_flat in H2.
    exists s2. split; [|repeat split; auto; apply Hinc; congruence].
    split; [econstructor; eauto|]. cbn [after closed named].
    rewrite after_ilisted, closed_ilisted, named_ilisted, app_nil_r.
    split; [now rewrite B1, A1|]. split; [congruence|].
    eexists. split; [unfold dfs; rewrite J4, map_app; reflexivity|].
    intros scopes root. unfold read_defs. cbn [map flat_map fix_def def_collect erase hd].
    rewrite app_nil_r, !map_map. apply map_ext. reflexivity.
  - clear Hsimple. cbn [header_ok header_kw cap_header iheader] in *.
    destruct Hok as ((Hkw & _) & Hname & Hps).
    destruct (check_def src kw "macro" s (DMacro [] (hd 0 (stk s))) Hkw Hfresh) as
      (s1 & H1 & Hin1 & Ha1 & A1 & A2 & A3); [discriminate|reflexivity|].
    pose proof Hin1 as (I1 & I2 & I3 & I4).
    pose proof (check_id_on src name s1 _ _ Hname Ha1 I4) as H2. rewrite A1 in H2. cbn [hd] in H2.
    cbn in H2.
    set (s2 := mkdefs _ _ _ _ _ _ _ _) in H2.
    assert (Hin2 : inside_def s2 (d_defs s) (DMacro [idof (hd 0 (stk s)) name] (hd 0 (stk s)))).
    { unfold s2, inside_def; cbn. auto. }
    destruct (collect_list (n_id kw) (flat_binds ps) true s2 _ _ (binds_ok_flat _ Hps) Hin2) as
      (s3 & d3 & H3 & (J1 & J2 & J3 & J4) & Hc & B1 & B2 & B3).
    { reflexivity. } { intros _. change (stk s2) with (stk s1). now rewrite A1. }
    { right. do 2 eexists. split; [reflexivity|discriminate]. }
    destruct Hc as (_ & ->). rewrite <- cap_binds_flat in H3.
    exists s3. split; [|repeat split; auto; apply Hinc; rewrite B3; exact A3].
    split; [econstructor; [exact H1|]; econstructor; [exact H2|]; exact H3|].
    cbn [after closed named]. rewrite after_ilisted, closed_ilisted, named_ilisted, app_nil_r.
    split; [rewrite B1; change (stk s2) with (stk s1); now rewrite A1|].
    split; [rewrite B2; exact A2|].
    eexists. split; [unfold dfs; rewrite J4, map_app; reflexivity|].
    intros scopes root. unfold read_defs. cbn [map flat_map fix_def def_collect erase app].
    cbn [hd]. rewrite app_nil_r. f_equal. rewrite !map_map. apply map_ext. reflexivity.
  - apply Hsimple; [exact I|reflexivity| | |].
    + intros scopes root. cbn [iheader named]. rewrite named_iopens. reflexivity.
    + cbn [iheader after]. rewrite after_iopens. reflexivity.
    + cbn [iheader closed]. apply closed_iopens.
  - apply Hsimple; [exact I|reflexivity| | |].
    + intros scopes root. cbn [iheader named]. rewrite named_iopens. reflexivity.
    + cbn [iheader after]. rewrite after_iopens. reflexivity.
    + cbn [iheader closed]. apply closed_iopens.
Qed.

(** An end tag, whether something is open or not. *)
Lemma does_end et s :
  quiet s -> no_if (et_es et) ->
  exists s1, does s (cap_end et) [IClose (et_at et)] s1 /\ quiet s1 /\ d_ids s1 = d_ids s.
Proof.
  intros Hq Hn. destruct (stk s) as [|k rest] eqn:Est.
  - destruct Hq as (Hc & He & Ha). unfold cap_end.
    set (s1 := mkdefs (d_defs s) true false (d_add s) true (d_stack s) (d_scopes s) (d_ids s)).
    destruct (end_noise src (et_es et) s1 Hn eq_refl eq_refl Ha) as
      (s2 & H2 & R1 & R2 & R3 & R4 & R5 & R6 & R7).
    change (stk s1) with (stk s) in R5. change (dfs s1) with (dfs s) in R4.
    change (scs s1) with (scs s) in R6. change (d_ids s1) with (d_ids s) in R7.
    rewrite Est in R5. unfold stk in R5.
    destruct (d_stack s2) as [|sc st] eqn:Est2; [|discriminate].
    set (s3 := mkdefs (d_defs s2) false (d_open s2) false false [] (d_scopes s2) (d_ids s2)).
    assert (H3 : def_check src s2 (cap CScopeEnd (et_b et)) = Ok (s3, true)).
    { cbn [def_check cap c_name c_node]. rewrite R1, R2, Est2. reflexivity. }
    assert (H4 : exists s4, def_check src s3 (cap CScopeStart (et_e et)) = Ok (s4, true) /\
             quiet s4 /\ dfs s4 = dfs s3 /\ stk s4 = stk s3 /\ scs s4 = scs s3 /\ d_ids s4 = d_ids s3).
    { cbn [def_check cap c_name c_node]. destruct (d_open s3).
      - eexists; (split; [reflexivity|]); repeat split; auto.
      - exists s3. repeat split. }
    destruct H4 as (s4 & H4 & Q & E1 & E2 & E3 & E4).
    exists s4. split; [|split; [exact Q|rewrite E4; exact R7]]. split.
    { econstructor; [reflexivity|]. eapply steps_app; [exact H2|].
      econstructor; [exact H3|]. econstructor; [exact H4|constructor]. }
    rewrite Est. cbn [after closed named map tl]. split; [rewrite E2; reflexivity|].
    rewrite app_nil_r. split; [rewrite E3; exact R6|].
    exists []. rewrite app_nil_r. split; [rewrite E1; exact R4|reflexivity].
  - destruct (end_steps src et s k rest Hq Hn Est) as (s1 & H1 & Q & A1 & A2 & A3 & A4).
    exists s1. split; [|split; assumption]. split; [exact H1|]. rewrite Est.
    cbn [after closed named map tl]. split; [exact A2|]. split; [exact A3|].
    exists []. rewrite app_nil_r. split; [exact A1|reflexivity].
Qed.

Lemma does_set kw x s :
  quiet s -> reads src (kw, "set"%string) -> reads src x -> ~ In (n_id kw) (d_ids s) ->
  exists s2, does s [cap CDefinition kw; cap CId (fst x)] [IName SetVariable x] s2 /\ quiet s2 /\
    d_ids s2 = n_id kw :: d_ids s.
Proof.
  intros Hq Hkw Hx Hf. destruct (set_head src kw x s Hq Hkw Hx Hf) as (s2 & H & Q & A1 & A2 & A3 & A4).
  exists s2. split; [|split; assumption]. split; [exact H|]. cbn [after closed named].
  split; [exact A2|]. split; [now rewrite app_nil_r|].
  eexists. split; [exact A1|]. reflexivity.
Qed.
Lemma does_branch kw s :
  quiet s -> exists s2, does s [cap CScope kw] [IOpen (n_id kw)] s2 /\ quiet s2 /\ d_ids s2 = d_ids s.
Proof.
  intros Hq. eexists. split; [|split].
  - split; [apply steps_one; reflexivity|]. cbn [after closed named].
    split; [reflexivity|]. split; [now rewrite app_nil_r|].
    exists []. split; [now rewrite app_nil_r|reflexivity].
  - repeat split.
  - reflexivity.
Qed.
Lemma quiet_tail s : quiet s -> d_close s = false /\ d_isend s = false /\ (d_add s = true -> d_open s = true).
Proof. intros (A & B & C). repeat split; auto. rewrite C. discriminate. Qed.

Lemma does_template t : forall s,
  quiet s -> tpl_ok src t -> plain_ends t -> fresh t s ->
  exists s1, does s (captures_of t) (imarks t) s1 /\ quiet s1 /\
    incl (d_ids s1) (keyword_ids t ++ d_ids s).
Proof.
  induction t as [|es r IH|es b e r IH|kw x es b e r IH|kw es b e r IH
                 |h b e body IHb et r IHr|kw x b e body IHb et r IHr];
    intros s Hq Hok Hpe Hfr; cbn [tpl_ok plain_ends captures_of imarks] in *.
  - exists s. split; [apply does_nil|]. split; [exact Hq|]. apply incl_refl.
  - destruct Hok as (_ & Hok). destruct Hfr as (F1 & F2). cbn [keyword_ids] in *.
    destruct (does_noise es s Hq) as (s1 & H1 & Q1 & A1).
    destruct (IH s1 Q1 Hok Hpe) as (s2 & H2 & Q2 & B).
    { split; [eapply NoDup_app_r; eauto|]. rewrite A1. intros y Hy. apply F2. apply in_or_app; auto. }
    exists s2. split; [eapply does_app; eauto|]. split; [exact Q2|].
    rewrite A1 in B. rewrite <- app_assoc. now apply incl_appr.
  - destruct Hok as (_ & Hok). destruct Hfr as (F1 & F2). cbn [keyword_ids] in *.
    destruct (does_noise es s Hq) as (s1 & H1 & Q1 & A1).
    destruct (quiet_tail s1 Q1) as (T1 & T2 & T3).
    destruct (does_tail b e s1 T1 T2 T3) as (s1' & H1' & Q1' & A1').
    destruct (IH s1' Q1' Hok Hpe) as (s2 & H2 & Q2 & B).
    { split; [eapply NoDup_app_r; eauto|]. rewrite A1', A1. intros y Hy. apply F2. apply in_or_app; auto. }
    exists s2. split.
    { eapply does_app; [exact H1|]. exact (does_app _ _ [] _ _ _ _ H1' H2). }
    split; [exact Q2|]. rewrite A1', A1 in B. rewrite <- app_assoc. now apply incl_appr.
  - destruct Hok as (Hkw & Hx & _ & Hok). destruct Hfr as (F1 & F2). cbn [keyword_ids] in *.
    destruct (does_set kw x s Hq Hkw Hx) as (s0 & H0 & Q0 & Z). { apply F2. now left. }
    destruct (does_noise es s0 Q0) as (s1 & H1 & Q1 & A1).
    destruct (quiet_tail s1 Q1) as (T1 & T2 & T3).
    destruct (does_tail b e s1 T1 T2 T3) as (s1' & H1' & Q1' & A1').
    inversion F1 as [|? ? F1a F1b]; subst.
    destruct (IH s1' Q1' Hok Hpe) as (s2 & H2 & Q2 & B).
    { split; [eapply NoDup_app_r; eauto|]. rewrite A1', A1, Z. intros y Hy [E|E].
      - subst y. apply F1a. apply in_or_app; auto.
      - eapply F2; [|exact E]. right. apply in_or_app; auto. }
    exists s2. split.
    { apply (does_app s [cap CDefinition kw; cap CId (fst x)] [IName SetVariable x] s0); [exact H0|].
      eapply does_app; [exact H1|]. exact (does_app _ _ [] _ _ _ _ H1' H2). }
    split; [exact Q2|]. rewrite A1', A1, Z in B. intros y Hy. specialize (B y Hy).
    cbn [app In]. rewrite !in_app_iff in *. cbn [In] in B. tauto.
  - destruct Hok as (_ & _ & _ & Hok). destruct Hfr as (F1 & F2). cbn [keyword_ids] in *.
    destruct (does_branch (fst kw) s Hq) as (s0 & H0 & Q0 & Z).
    destruct (does_noise es s0 Q0) as (s1 & H1 & Q1 & A1).
    destruct (quiet_tail s1 Q1) as (T1 & T2 & T3).
    destruct (does_tail b e s1 T1 T2 T3) as (s1' & H1' & Q1' & A1').
    inversion F1 as [|? ? F1a F1b]; subst.
    destruct (IH s1' Q1' Hok Hpe) as (s2 & H2 & Q2 & B).
    { split; [eapply NoDup_app_r; eauto|]. rewrite A1', A1, Z. intros y Hy. apply F2.
      right. apply in_or_app; auto. }
    exists s2. split.
    { apply (does_app s [cap CScope (fst kw)] [IOpen (n_id (fst kw))] s0); [exact H0|].
      eapply does_app; [exact H1|]. exact (does_app _ _ [] _ _ _ _ H1' H2). }
    split; [exact Q2|]. rewrite A1', A1, Z in B. intros y Hy. specialize (B y Hy).
    cbn [app In]. rewrite !in_app_iff in *. tauto.
  - destruct Hok as (Hh & Hokb & Hes & Hok). destruct Hpe as (Hpb & Hne & Hpr).
    destruct Hfr as (F1 & F2). cbn [keyword_ids] in *.
    inversion F1 as [|? ? F1a F1b]; subst.
    destruct (does_header h s Hq Hh) as (s1 & H1 & C1 & C2 & C3 & A1). { apply F2. now left. }
    destruct (does_tail b e s1 C1 C2 C3) as (s1' & H1' & Q1' & A1').
    assert (Hids : forall y, In y (d_ids s1') -> y = header_kw h \/ In y (d_ids s)).
    { intros y Hy. rewrite A1' in Hy. apply A1 in Hy. destruct Hy; auto. }
    destruct (IHb s1' Q1' Hokb Hpb) as (s2 & H2 & Q2 & B).
    { split; [eapply NoDup_app_l, NoDup_app_r; eauto|]. intros y Hy Hc.
      destruct (Hids y Hc) as [->|Hs].
      - apply F1a. rewrite !in_app_iff. tauto.
      - eapply F2; [|exact Hs]. right. rewrite !in_app_iff. tauto. }
    destruct (does_end et s2 Q2 Hne) as (s3 & H3 & Q3 & D).
    destruct (IHr s3 Q3 Hok Hpr) as (s4 & H4 & Q4 & E).
    { split; [eapply NoDup_app_r, NoDup_app_r, NoDup_app_r; eauto|]. intros y Hy Hc.
      rewrite D in Hc. apply B in Hc. apply in_app_or in Hc. destruct Hc as [Hc|Hc].
      - apply NoDup_app_r in F1b.
        eapply (NoDup_app_disj (keyword_ids body)); [exact F1b|exact Hc|]. apply in_or_app; auto.
      - destruct (Hids y Hc) as [->|Hs].
        + apply F1a. rewrite !in_app_iff. tauto.
        + eapply F2; [|exact Hs]. right. rewrite !in_app_iff. tauto. }
    exists s4. split.
    { eapply does_app; [exact H1|].
      apply (does_app _ _ [] _ _ _ _ H1'). eapply does_app; [exact H2|].
      apply (does_app _ _ _ _ _ _ _ H3 H4). }
    split; [exact Q4|]. intros y Hy. apply E in Hy. rewrite D in Hy.
    cbn [app In]. rewrite !in_app_iff in *. destruct Hy as [Hy|Hy]; [tauto|].
    apply B in Hy. apply in_app_or in Hy. destruct Hy as [Hy|Hy]; [tauto|].
    destruct (Hids y Hy); subst; tauto.
  - destruct Hok as (Hkw & Hx & Hokb & Hes & Hok). destruct Hpe as (Hpb & Hne & Hpr).
    destruct Hfr as (F1 & F2). cbn [keyword_ids] in *.
    inversion F1 as [|? ? F1a F1b]; subst.
    destruct (does_set kw x s Hq Hkw Hx) as (s1 & H1 & Q1 & A1). { apply F2. now left. }
    destruct (quiet_tail s1 Q1) as (T1 & T2 & T3).
    destruct (does_tail b e s1 T1 T2 T3) as (s1' & H1' & Q1' & A1').
    assert (Hids : forall y, In y (d_ids s1') -> y = n_id kw \/ In y (d_ids s)).
    { intros y Hy. rewrite A1', A1 in Hy. destruct Hy; auto. }
    destruct (IHb s1' Q1' Hokb Hpb) as (s2 & H2 & Q2 & B).
    { split; [eapply NoDup_app_l; eauto|]. intros y Hy Hc.
      destruct (Hids y Hc) as [->|Hs].
      - apply F1a. rewrite !in_app_iff. tauto.
      - eapply F2; [|exact Hs]. right. rewrite !in_app_iff. tauto. }
    destruct (does_end et s2 Q2 Hne) as (s3 & H3 & Q3 & D).
    destruct (IHr s3 Q3 Hok Hpr) as (s4 & H4 & Q4 & E).
    { split; [eapply NoDup_app_r, NoDup_app_r; eauto|]. intros y Hy Hc.
      rewrite D in Hc. apply B in Hc. apply in_app_or in Hc. destruct Hc as [Hc|Hc].
      - eapply (NoDup_app_disj (keyword_ids body)); [exact F1b|exact Hc|]. apply in_or_app; auto.
      - destruct (Hids y Hc) as [->|Hs].
        + apply F1a. rewrite !in_app_iff. tauto.
        + eapply F2; [|exact Hs]. right. rewrite !in_app_iff. tauto. }
    exists s4. split.
    { apply (does_app s [cap CDefinition kw; cap CId (fst x)] [IName SetVariable x] s1); [exact H1|].
      apply (does_app _ _ [] _ _ _ _ H1'). eapply does_app; [exact H2|].
      apply (does_app _ _ _ _ _ _ _ H3 H4). }
    split; [exact Q4|]. intros y Hy. apply E in Hy. rewrite D in Hy.
    cbn [app In]. rewrite !in_app_iff in *. destruct Hy as [Hy|Hy]; [tauto|].
    apply B in Hy. apply in_app_or in Hy. destruct Hy as [Hy|Hy]; [tauto|].
    destruct (Hids y Hy); subst; tauto.
Qed.
End Steps3.

(** ** From identities to counting *)
Definition opened_ids (ms : list imark) : list N :=
  flat_map (fun m => match m with IOpen i => [i] | _ => [] end) ms.
Definition or_root (root : point) (o : option point) : point :=
  match o with Some p => p | None => root end.
Lemma closed_incl ms : forall st k, In k (map fst (closed st ms)) -> In k (st ++ opened_ids ms).
Proof.
  induction ms as [|[i|p|k0 t] ms IH]; intros st k; cbn [closed opened_ids flat_map].
  - contradiction.
  - intros H. apply IH in H. cbn [app In] in H. rewrite in_app_iff in *. cbn [app In]. tauto.
  - destruct st as [|a st]; cbn [map fst In].
    + intros H. now apply IH in H.
    + intros [->|H]; [now left|]. right. now apply IH in H.
  - apply IH.
Qed.
Lemma look_closed root ms : forall st d k,
  NoDup (st ++ opened_ids ms) -> nth_error st d = Some k ->
  look (closed st ms) root k = or_root root (closing d (map strip ms)).
Proof.
  induction ms as [|[i|p|k0 t] ms IH]; intros st d k Hnd Hk; cbn [closed map strip closing].
  - reflexivity.
  - cbn [opened_ids flat_map] in Hnd.
    apply IH; [|exact Hk].
    apply (Permutation_NoDup (l := st ++ i :: opened_ids ms)); [|exact Hnd].
    apply Permutation_sym, Permutation_middle.
  - destruct st as [|a st]; [destruct d; discriminate|]. destruct d as [|d]; cbn [nth_error] in Hk.
    + injection Hk as <-. unfold look. cbn [find fst snd]. now rewrite N.eqb_refl.
    + inversion Hnd as [|? ? Ha Hnd']; subst. unfold look. cbn [find fst snd].
      destruct (N.eqb_spec a k) as [->|].
      * exfalso. apply Ha. apply in_or_app. left. eapply nth_error_In; eauto.
      * now apply IH.
  - now apply IH.
Qed.
Lemma look_app root a b k : ~ In k (map fst a) -> look (a ++ b) root k = look b root k.
Proof.
  unfold look. induction a as [|[k' e'] a IH]; [reflexivity|]. cbn. intros H.
  destruct (N.eqb_spec k' k) as [->|]; [exfalso; auto|]. apply IH. auto.
Qed.
Lemma counted root ms : forall st done,
  NoDup (st ++ opened_ids ms) -> ~ In 0 (map fst done ++ st ++ opened_ids ms) ->
  (forall k, In k (map fst done) -> ~ In k (st ++ opened_ids ms)) ->
  map (fun n => decl_of (fst (snd n)) (look (done ++ closed st ms) root (fst n)) (snd (snd n)))
    (named st ms) = extents root (length st) (map strip ms).
Proof.
  induction ms as [|[i|p|k0 t] ms IH]; intros st done Hnd H0 Hd; cbn [named map strip extents].
  - reflexivity.
  - cbn [opened_ids flat_map] in *. apply (IH (i :: st) done).
    + apply (Permutation_NoDup (l := st ++ i :: opened_ids ms)); [|exact Hnd].
      apply Permutation_sym, Permutation_middle.
    + intros H. apply H0. cbn [app] in *. rewrite !in_app_iff in *. cbn [In] in *.
      rewrite in_app_iff in H. tauto.
    + intros k Hk H. apply (Hd k Hk). cbn [app In] in *. rewrite !in_app_iff in *. cbn [In]. tauto.
  - destruct st as [|a st]; cbn [closed tl length pred].
    + apply (IH [] done); auto.
    + replace (done ++ (a, p) :: closed st ms) with ((done ++ [(a, p)]) ++ closed st ms)
        by now rewrite <- app_assoc.
      inversion Hnd as [|? ? Ha Hnd']; subst. apply IH.
      * exact Hnd'.
      * intros H. apply H0. rewrite map_app in H. cbn [map fst] in H.
        clear -H. cbn [opened_ids flat_map app] in *. rewrite !in_app_iff in *. cbn [In] in *.
        rewrite ?in_app_iff. tauto.
      * intros k Hk H. rewrite map_app in Hk. apply in_app_or in Hk. destruct Hk as [Hk|[<-|[]]].
        -- apply (Hd k Hk). right. exact H.
        -- now apply Ha.
  - cbn [closed]. f_equal; [|now apply IH].
    f_equal. cbn [fst snd]. unfold reach_of. destruct st as [|a st]; cbn [hd length].
    + apply look_out. intros H. apply H0. rewrite map_app in H. apply in_app_or in H.
      apply in_or_app. destruct H as [H|H]; [now left|]. right. now apply closed_incl in H.
    + rewrite look_app; [|intros H; apply (Hd a H); now left].
      rewrite (look_closed root ms (a :: st) 0%nat a Hnd eq_refl). reflexivity.
Qed.
Lemma ifs_iopens es : opened_ids (iopens es) = ifs es.
Proof. unfold iopens, opened_ids. induction (ifs es) as [|i l IH]; cbn; congruence. Qed.
Lemma opened_app a b : opened_ids (a ++ b) = opened_ids a ++ opened_ids b.
Proof. apply flat_map_app. Qed.
Lemma opened_ilisted k es : forall live, opened_ids (ilisted k live es) = ifs es.
Proof.
  induction es as [|e es IH]; intros live; [reflexivity|]. destruct e as [t|n|n]; cbn [ilisted].
  - rewrite opened_app, IH. now destruct live.
  - rewrite IH. reflexivity.
  - change (opened_ids (IOpen (n_id n) :: ?l)) with (n_id n :: opened_ids l).
    now rewrite IH.
Qed.
Lemma opened_iheader h : opened_ids (iheader h) = header_kw h :: ifs (header_es h).
Proof.
  destruct h as [kw key oth es|kw bs|kw name ps|kw name es|kw es];
    cbn [iheader header_kw header_es]; rewrite <- ?ifs_flat.
  - change (opened_ids (IOpen ?i :: IName ?k ?t :: ?l)) with (i :: opened_ids l). now rewrite ifs_iopens.
  - change (opened_ids (IOpen ?i :: ?l)) with (i :: opened_ids l). now rewrite opened_ilisted.
  - change (opened_ids (IName ?k ?t :: IOpen ?i :: ?l)) with (i :: opened_ids l). now rewrite opened_ilisted.
  - change (opened_ids (IOpen ?i :: IName ?k ?t :: ?l)) with (i :: opened_ids l). now rewrite ifs_iopens.
  - change (opened_ids (IOpen ?i :: ?l)) with (i :: opened_ids l). now rewrite ifs_iopens.
Qed.
(** Every identity on the stack is a keyword of the template, once. *)
Lemma opened_sub t k : (count_occ N.eq_dec (opened_ids (imarks t)) k <= count_occ N.eq_dec (keyword_ids t) k)%nat.
Proof.
  induction t as [|es r IH|es b e r IH|kw x es b e r IH|kw es b e r IH
                 |h b e body IHb et r IHr|kw x b e body IHb et r IHr]; cbn [imarks keyword_ids].
  - cbn. lia.
  - rewrite opened_app, ifs_iopens, !count_occ_app. lia.
  - rewrite opened_app, ifs_iopens, !count_occ_app. lia.
  - change (opened_ids (IName ?k0 ?t0 :: ?l)) with (opened_ids l).
    rewrite opened_app, ifs_iopens. cbn [count_occ].
    destruct (N.eq_dec (n_id kw) k); rewrite !count_occ_app; lia.
  - change (opened_ids (IOpen ?i :: ?l)) with (i :: opened_ids l).
    rewrite opened_app, ifs_iopens. cbn [count_occ].
    destruct (N.eq_dec (n_id (fst kw)) k); rewrite !count_occ_app; lia.
  - rewrite !opened_app, opened_iheader.
    change (opened_ids (IClose ?p :: ?l)) with (opened_ids l). cbn [app count_occ].
    destruct (N.eq_dec (header_kw h) k); rewrite !count_occ_app; lia.
  - change (opened_ids (IName ?k0 ?t0 :: ?l)) with (opened_ids l). rewrite !opened_app.
    change (opened_ids (IClose ?p :: ?l)) with (opened_ids l). cbn [count_occ].
    destruct (N.eq_dec (n_id kw) k); rewrite !count_occ_app; lia.
Qed.
Lemma opened_nodup t : NoDup (0 :: keyword_ids t) -> NoDup (opened_ids (imarks t)) /\ ~ In 0 (opened_ids (imarks t)).
Proof.
  intros H. inversion H as [|? ? H0 Hn]; subst. split.
  - apply (NoDup_count_occ N.eq_dec). intros k. pose proof (opened_sub t k).
    pose proof (proj1 (NoDup_count_occ N.eq_dec _) Hn k). lia.
  - intros Hin. apply H0. apply (count_occ_In N.eq_dec) in Hin. pose proof (opened_sub t 0).
    apply (count_occ_In N.eq_dec). lia.
Qed.

Lemma exact_extents src t ms root tp :
  tpl_ok src t -> plain_ends t -> distinct_nodes t -> concat ms = captures_of t ->
  exists d, definition_query ms root tp src true = Ok d /\
    map decl_of_id (def_identifiers d) = extents root 0 (marks t).
Proof.
  intros Hok Hpe Hdn Hms. unfold distinct_nodes in Hdn.
  destruct (opened_nodup t Hdn) as (Hno & H0).
  inversion Hdn as [|? ? _ Hnd]; subst.
  destruct (does_template src t jdefs0) as (s & (Hs & E1 & E2 & D & E3 & E4) & _); auto.
  { repeat split. } { split; auto. }
  unfold definition_query. rewrite flat_captures_all, Hms, (steps_run _ _ _ _ Hs).
  cbn [bind]. eexists. split; [reflexivity|].
  unfold def_identifiers, fix_end. cbn [d_defs d_scopes].
  change (read_defs (d_scopes s) root (d_defs s) = extents root 0 (marks t)).
  rewrite <- (read_erase _ _ (d_defs s)). change (map erase (d_defs s)) with (dfs s).
  rewrite E3. cbn [dfs jdefs0 d_defs map app]. rewrite E4.
  rewrite <- strip_imarks. change 0%nat with (length (@nil N)).
  rewrite <- (counted root (imarks t) [] []); [|exact Hno|exact H0|intros k []].
  change (stk jdefs0) with (@nil N). apply map_ext. intros n. unfold at_scope.
  rewrite scope_end_look. change (map idend (d_scopes s)) with (scs s). rewrite E2. reflexivity.
Qed.

(** ** Block sets outside every block *)
Lemma opens_none es : no_if es -> opens es = [].
Proof. induction 1 as [|e es He _ IH]; [reflexivity|]. destruct e; try discriminate; exact IH. Qed.
Lemma listed_plain k es : no_if es -> listed k true es = map (MName k) (noise_toks es).
Proof.
  induction 1 as [|e es He _ IH]; [reflexivity|]. destruct e as [t|n|n]; try discriminate; cbn [listed].
  - rewrite IH. reflexivity.
  - exact IH.
Qed.
Lemma flat_binds_toks bs : noise_toks (flat_binds bs) = flat_map bind_toks bs.
Proof.
  induction bs as [|b bs IH]; [reflexivity|]. unfold flat_binds in *. cbn [flat_map].
  unfold noise_toks in *. rewrite flat_map_app, IH. reflexivity.
Qed.
Lemma flat_binds_noif bs : no_if (flat_map snd bs) -> no_if (flat_binds bs).
Proof.
  induction bs as [|b bs IH]; [constructor|]. unfold flat_binds in *. cbn [flat_map]. intros H.
  apply Forall_app in H. destruct H as (H1 & H2). apply Forall_app. split; [|now apply IH].
  constructor; [reflexivity|exact H1].
Qed.
Lemma closing_names d k (l : list tok) r : closing d (map (MName k) l ++ r) = closing d r.
Proof. induction l; cbn; auto. Qed.
Lemma closing_header d h r : no_if (header_es h) -> closing d (header_marks h ++ r) = closing (S d) r.
Proof.
  intros H. destruct h as [kw key oth es|kw bs|kw name ps|kw name es|kw es];
    cbn [header_es header_marks app closing] in *; rewrite ?opens_none by assumption; auto;
    rewrite listed_plain by (now apply flat_binds_noif); apply closing_names.
Qed.
Lemma closing_straight t : forall d r, straight t -> closing d (marks t ++ r) = closing d r.
Proof.
  induction t as [|es r IH|es b e r IH|kw x es b e r IH|kw es b e r IH
                 |h b e body IHb et r IHr|kw x b e body IHb et r IHr]; intros d l;
    cbn [straight marks]; try tauto.
  - intros (H1 & H2). rewrite (opens_none _ H1). now apply IH.
  - intros (H1 & H2). rewrite (opens_none _ H1). now apply IH.
  - intros (H1 & H2). rewrite (opens_none _ H1). cbn [app closing]. now apply IH.
  - intros (H1 & H2 & H3 & H4). rewrite <- !app_assoc, closing_header, IHb by assumption.
    cbn [app closing]. now apply IHr.
Qed.
Lemma extents_names root o k (l : list tok) r :
  extents root o (map (MName k) l ++ r) = map (decl_of k (reach_of root o r)) l ++ extents root o r.
Proof.
  induction l as [|t l IH]; [reflexivity|]. cbn [map app extents]. rewrite IH. f_equal.
  f_equal. unfold reach_of. now rewrite closing_names.
Qed.
Lemma reach_inner root o h r : no_if (header_es h) ->
  reach_of root o (header_marks h ++ r) =
  match o with O => root | S _ => or_root root (closing 1 r) end.
Proof. intros H. unfold reach_of. destruct o; [reflexivity|]. now rewrite closing_header. Qed.
Lemma extents_header root o h r :
  no_if (header_es h) ->
  extents root o (header_marks h ++ r) =
  header_recorded (match o with O => root | S _ => or_root root (closing 1 r) end)
    (reach_of root (S o) r) h ++ extents root (S o) r.
Proof.
  intros H. destruct h as [kw key oth es|kw bs|kw name ps|kw name es|kw es];
    cbn [header_es header_marks app extents header_recorded] in *; rewrite ?opens_none by assumption;
    rewrite ?listed_plain by (now apply flat_binds_noif); auto.
  - rewrite extents_names, flat_binds_toks. reflexivity.
  - rewrite extents_names, flat_binds_toks. f_equal. f_equal.
    unfold reach_of. destruct o; [reflexivity|]. cbn [closing]. rewrite closing_names. reflexivity.
Qed.
Lemma extents_straight root t : forall o r, straight t ->
  extents root o (marks t ++ r) = recorded (reach_of root o r) t ++ extents root o r.
Proof.
  induction t as [|es r IH|es b e r IH|kw x es b e r IH|kw es b e r IH
                 |h b e body IHb et r IHr|kw x b e body IHb et r IHr]; intros o l;
    cbn [straight marks recorded]; try tauto.
  - intros (H1 & H2). rewrite (opens_none _ H1). now apply IH.
  - intros (H1 & H2). rewrite (opens_none _ H1). now apply IH.
  - intros (H1 & H2). rewrite (opens_none _ H1). cbn [app extents]. rewrite IH by assumption.
    f_equal. f_equal. unfold reach_of. now rewrite closing_straight.
  - intros (H1 & H2 & H3 & H4). rewrite <- !app_assoc, extents_header, IHb by assumption.
    cbn [app extents pred]. rewrite IHr by assumption.
    unfold reach_of at 1. rewrite !closing_straight by assumption. cbn [closing].
    unfold reach_of at 1. cbn [closing].
    f_equal. f_equal. unfold reach_of. destruct o; [reflexivity|]. now rewrite closing_straight.
Qed.
Lemma recorded_map E t : map (fun d => (dc_name d, dc_kind d, dc_start d, dc_end d)) (recorded E t) =
  map (fun d => (dc_name d, dc_kind d, dc_start d, dc_end d)) (recorded pt0 t).
Proof.
  assert (G : forall t E E', map (fun d => (dc_name d, dc_kind d, dc_start d, dc_end d)) (recorded E t) =
     map (fun d => (dc_name d, dc_kind d, dc_start d, dc_end d)) (recorded E' t)).
  { clear. induction t as [|es r IH|es b e r IH|kw x es b e r IH|kw es b e r IH
                 |h b e body IHb et r IHr|kw x b e body IHb et r IHr]; intros E E';
      cbn [recorded]; auto.
    - cbn [map]. f_equal. apply IH.
    - rewrite !map_app. f_equal; [|f_equal; auto].
      destruct h; cbn [header_recorded map]; rewrite ?map_map; reflexivity.
    - cbn [map]. f_equal. rewrite !map_app. f_equal; auto. }
  apply G.
Qed.
Lemma recorded_nil E t : recorded pt0 t = [] -> recorded E t = [].
Proof.
  intros H. pose proof (recorded_map E t) as G. rewrite H in G. cbn in G.
  destruct (recorded E t); [reflexivity|discriminate].
Qed.
Lemma extents_top root t :
  top_sets t -> plain_headers t -> extents root 0 (marks t) = introduced root t.
Proof.
  induction t as [|es r IH|es b e r IH|kw x es b e r IH|kw es b e r IH
                 |h b e body IHb et r IHr|kw x b e body IHb et r IHr];
    cbn [top_sets plain_headers marks introduced]; try tauto.
  - intros (H1 & H2) Hp. rewrite (opens_none _ H1). now apply IH.
  - intros (H1 & H2) Hp. rewrite (opens_none _ H1). now apply IH.
  - intros (H1 & H2) Hp. rewrite (opens_none _ H1). cbn [app extents]. now rewrite IH.
  - intros (H1 & H2 & H3 & H4) (Hp1 & Hp2 & Hp3).
    rewrite extents_header, extents_straight by assumption. cbn [extents pred].
    rewrite IHr by assumption.
    unfold reach_of. rewrite closing_straight by assumption. cbn [closing].
    rewrite <- (recorded_introduced body) by assumption. f_equal.
    destruct h as [kw key oth es|kw bs|kw name ps|kw name es|kw es];
      cbn [header_recorded header_decls]; auto.
    + now subst oth.
    + rewrite (binds_toks _ Hp1), map_map. reflexivity.
    + rewrite (binds_toks _ Hp1), map_map. reflexivity.
  - intros (H1 & H2 & H3 & H4) (Hp1 & Hp2). cbn [extents].
    rewrite extents_straight by assumption. cbn [extents pred]. rewrite IHr by assumption.
    rewrite <- (recorded_introduced body) in H2 by assumption.
    rewrite <- (recorded_introduced body) by assumption.
    rewrite !(recorded_nil _ _ H2). reflexivity.
Qed.
Lemma top_sets_ends t : top_sets t -> plain_ends t.
Proof.
  assert (G : forall t, straight t -> plain_ends t).
  { clear. induction t; cbn; tauto. }
  induction t as [| | | | |h b e body IHb et r IHr|kw x b e body IHb et r IHr]; cbn; try tauto.
  - intros (H1 & H2 & H3 & H4). auto.
  - intros (H1 & H2 & H3 & H4). auto.
Qed.
Lemma top_sets_exact src t ms root tp :
  tpl_ok src t -> top_sets t -> plain_headers t -> distinct_nodes t -> concat ms = captures_of t ->
  exists d, definition_query ms root tp src true = Ok d /\
    map decl_of_id (def_identifiers d) = introduced root t.
Proof.
  intros Hok Ht Hp Hd Hms. rewrite <- (extents_top root t Ht Hp).
  apply exact_extents; auto. now apply top_sets_ends.
Qed.

(** ** Variables set inside an [if] *)
Lemma bare_visible t : forall E E', bare t -> visible E t = visible E' t.
Proof.
  induction t as [|es r IH|es b e r IH|kw x es b e r IH|kw es b e r IH
                 |h b e body IHb et r IHr|kw x b e body IHb et r IHr]; intros E E';
    cbn [bare visible]; try tauto; auto.
  intros (H1 & H2 & H3). f_equal; [destruct h; cbn in *; tauto|].
  f_equal; [|now apply IHr]. destruct (is_if h); [|reflexivity]. apply IHb. auto.
Qed.
Lemma visible_introduced t : forall E, sets_outside_ifs t -> visible E t = introduced E t.
Proof.
  induction t as [|es r IH|es b e r IH|kw x es b e r IH|kw es b e r IH
                 |h b e body IHb et r IHr|kw x b e body IHb et r IHr]; intros E;
    cbn [sets_outside_ifs visible introduced]; auto.
  - intros H. now rewrite IH.
  - intros (H1 & H2 & H3). rewrite IHr by assumption. f_equal. f_equal.
    destruct (is_if h) eqn:Ei; [|now apply IHb].
    rewrite (bare_visible body E (et_at et) (H1 eq_refl)). now apply IHb.
  - intros (H1 & H2). now rewrite IHb, IHr.
Qed.
Lemma covers_refl d : covers d d.
Proof. repeat split. apply pt_le_refl. Qed.
Lemma covers_refl_list l : Forall2 covers l l.
Proof. induction l; constructor; auto using covers_refl. Qed.
Lemma visible_covers t : forall E E', pt_le E E' -> nested E t ->
  Forall2 covers (introduced E t) (visible E' t).
Proof.
  induction t as [|es r IH|es b e r IH|kw x es b e r IH|kw es b e r IH
                 |h b e body IHb et r IHr|kw x b e body IHb et r IHr]; intros E E' HE;
    cbn [nested visible introduced]; auto.
  - intros H. constructor; [now apply covers_of|]. now apply IH.
  - intros (H1 & H2 & H3). apply Forall2_app; [|apply Forall2_app; [|now apply IHr]].
    + assert (Hle := pt_le_refl (et_at et)).
      destruct h; cbn [header_decls]; rewrite <- ?(map_map fst); auto using covers_map, covers_of, Forall2, covers_refl_list.
    + destruct (is_if h); apply IHb; auto using pt_le_refl. eapply pt_le_trans; eauto.
  - intros (H1 & H2 & H3). constructor; [now apply covers_of|]. apply Forall2_app; [|now apply IHr].
    apply IHb; auto using pt_le_refl.
Qed.

(** ** Lists with inline conditionals *)
Definition mark_names (ms : list mark) : list string :=
  flat_map (fun m => match m with MName _ t => [snd t] | _ => [] end) ms.
Lemma extents_mark_names root ms : forall o, map dc_name (extents root o ms) = mark_names ms.
Proof. induction ms as [|[] ms IH]; intros o; cbn; auto. now rewrite IH. Qed.
Lemma mark_names_app a b : mark_names (a ++ b) = mark_names a ++ mark_names b.
Proof. apply flat_map_app. Qed.
Lemma names_opens es : mark_names (opens es) = [].
Proof.
  induction es as [|e es IH]; [reflexivity|]. unfold opens in *. cbn [flat_map].
  rewrite mark_names_app, IH. now destruct e.
Qed.
Lemma names_listed k es : mark_names (listed k true es) = map snd (before_if es).
Proof.
  assert (Hoff : forall es, mark_names (listed k false es) = []).
  { induction es0 as [|[] es0 IH]; cbn [listed]; auto. }
  induction es as [|[t|n|n] es IH]; cbn [listed before_if map]; auto.
  - rewrite mark_names_app, IH. reflexivity.
  - change (mark_names (MOpen :: ?l)) with (mark_names l). apply Hoff.
Qed.
Lemma before_if_incl es : incl (before_if es) (noise_toks es).
Proof.
  induction es as [|[t|n|n] es IH]; intros x; cbn [before_if]; unfold noise_toks in *; cbn [flat_map].
  - contradiction.
  - intros [->|H]; [now left|]. right. now apply IH.
  - intros H. now apply IH.
  - contradiction.
Qed.
Lemma names_header E E' h : incl (mark_names (header_marks h)) (map dc_name (header_recorded E E' h)).
Proof.
  destruct h as [kw key oth es|kw bs|kw name ps|kw name es|kw es]; cbn [header_marks header_recorded].
  - change (mark_names (MOpen :: MName ?k ?t :: ?l)) with (snd t :: mark_names l).
    rewrite names_opens. apply incl_refl.
  - change (mark_names (MOpen :: ?l)) with (mark_names l). rewrite names_listed, map_map.
    rewrite <- flat_binds_toks. apply (incl_map snd), before_if_incl.
  - change (mark_names (MName ?k ?t :: MOpen :: ?l)) with (snd t :: mark_names l).
    rewrite names_listed. cbn [map]. rewrite map_map. apply incl_cons; [now left|]. apply incl_tl.
    rewrite <- flat_binds_toks. apply (incl_map snd), before_if_incl.
  - change (mark_names (MOpen :: MName ?k ?t :: ?l)) with (snd t :: mark_names l).
    rewrite names_opens. apply incl_refl.
  - change (mark_names (MOpen :: ?l)) with (mark_names l). rewrite names_opens. apply incl_nil_l.
Qed.
Lemma names_recorded t : forall E, incl (mark_names (marks t)) (map dc_name (recorded E t)).
Proof.
  induction t as [|es r IH|es b e r IH|kw x es b e r IH|kw es b e r IH
                 |h b e body IHb et r IHr|kw x b e body IHb et r IHr]; intros E;
    cbn [marks recorded].
  - apply incl_nil_l.
  - rewrite mark_names_app, names_opens. apply IH.
  - rewrite mark_names_app, names_opens. apply IH.
  - change (mark_names (MName ?k ?t :: ?l)) with (snd t :: mark_names l).
    rewrite mark_names_app, names_opens. cbn [map]. apply incl_cons; [now left|]. now apply incl_tl.
  - change (mark_names (MOpen :: ?l)) with (mark_names l). rewrite mark_names_app, names_opens. apply IH.
  - rewrite !mark_names_app, !map_app.
    apply incl_app; [apply incl_appl, names_header|].
    apply incl_app; [apply incl_appr, incl_appl, IHb|].
    change (mark_names (MClose ?p :: ?l)) with (mark_names l). apply incl_appr, incl_appr, IHr.
  - change (mark_names (MName ?k ?t :: ?l)) with (snd t :: mark_names l).
    rewrite mark_names_app. cbn [map]. rewrite map_app. apply incl_cons; [now left|]. apply incl_tl.
    apply incl_app; [apply incl_appl, IHb|]. apply incl_appr, IHr.
Qed.
Lemma with_names root kw bs b e body et rest : exists others,
  map dc_name (extents root 0 (marks (TBlock (HWith kw bs) b e body et rest)))
    = map snd (before_if (flat_binds bs)) ++ others /\
  incl others (map dc_name (recorded root body ++ recorded root rest)).
Proof.
  exists (mark_names (marks body ++ MClose (et_at et) :: marks rest)).
  rewrite extents_mark_names. cbn [marks header_marks]. split.
  - cbn [app].
    change (mark_names (MOpen :: ?l)) with (mark_names l).
    rewrite mark_names_app, names_listed. reflexivity.
  - rewrite mark_names_app. change (mark_names (MClose ?p :: ?l)) with (mark_names l).
    rewrite map_app. apply incl_app; [apply incl_appl|apply incl_appr]; apply names_recorded.
Qed.
