(** * PScope: proofs about definitions and scopes. *)
From Verif Require Import Base RString Utf8 Types Captures MDefinition SpecScope.

(** ** Runs that are never cut short *)
Section Steps.
Context {S C : Type} (check : S -> C -> res (S * bool)).
Inductive steps : S -> list C -> S -> Prop :=
| steps_nil s : steps s [] s
| steps_cons s c s1 l s2 : check s c = Ok (s1, true) -> steps s1 l s2 -> steps s (c :: l) s2.
Lemma steps_app s1 l1 s2 l2 s3 : steps s1 l1 s2 -> steps s2 l2 s3 -> steps s1 (l1 ++ l2) s3.
Proof. induction 1 as [|s c s1' l s2 H H1 IH]; intros H2; [exact H2|]. econstructor; eauto. Qed.
Lemma steps_one s c s1 : check s c = Ok (s1, true) -> steps s [c] s1.
Proof. intros H. econstructor; [exact H|constructor]. Qed.
Lemma steps_run s l s' : steps s l s' -> run check s l = Ok s'.
Proof. induction 1 as [|s c s1 l s2 H H1 IH]; [reflexivity|]. cbn [run]. now rewrite H. Qed.
End Steps.

Section Scope.
Context (src : string).
Notation steps := (steps (def_check src)).

Definition erase (d : definition) : definition :=
  match d with DSet k _ => DSet k false | d => d end.
Definition idend (s : scope) : N * point := (s_id s, s_end s).
Definition stk (s : jdefs) : list N := map s_id (d_stack s).
Definition scs (s : jdefs) : list (N * point) := map idend (d_scopes s).
Definition dfs (s : jdefs) : list definition := map erase (d_defs s).

Definition idof (sid : N) (t : tok) : identifier :=
  mkid (n_start (fst t)) (n_end (fst t)) (snd t) (sid, pt0) UndefinedVariable [].

(** Between statements. *)
Definition quiet (s : jdefs) : Prop :=
  d_close s = false /\ d_isend s = false /\ d_add s = false.

Lemma front_stk s : front_id (d_stack s) = hd 0 (stk s).
Proof. unfold stk. destruct (d_stack s); reflexivity. Qed.

Lemma update_last_snoc {A} (f : A -> A) l x : update_last f (l ++ [x]) = l ++ [f x].
Proof.
  induction l as [|a l IH]; [reflexivity|]. cbn [app].
  destruct (l ++ [x]) eqn:E; [now destruct l|].
  change (update_last f (a :: a0 :: l0)) with (a :: update_last f (a0 :: l0)). now rewrite IH.
Qed.
Lemma last_opt_snoc {A} (l : list A) x : last_opt (l ++ [x]) = Some x.
Proof.
  induction l as [|a l IH]; [reflexivity|]. cbn [app].
  destruct (l ++ [x]) eqn:E; [now destruct l|]. exact IH.
Qed.
Lemma snoc_or_nil {A} (l : list A) : l = [] \/ exists l' x, l = l' ++ [x].
Proof. induction l using rev_ind; eauto. Qed.

(** *** Single captures *)
Lemma check_eq n s :
  exists s1, def_check src s (cap CEquals n) = Ok (s1, true) /\
    dfs s1 = dfs s /\ stk s1 = stk s /\ scs s1 = scs s /\ d_ids s1 = d_ids s /\
    d_close s1 = d_close s /\ d_isend s1 = d_isend s /\ d_add s1 = d_add s /\
    length (d_defs s1) = length (d_defs s) /\
    ((forall k e, last_opt (d_defs s) <> Some (DSet k e)) -> s1 = s).
Proof.
  cbn [def_check cap c_name c_node].
  destruct (snoc_or_nil (d_defs s)) as [E|(D & d & E)].
  - exists s. rewrite E at 1. cbn [last_opt]. repeat split; auto.
  - assert (El : last_opt (d_defs s) = Some d) by (rewrite E; apply last_opt_snoc).
    rewrite El.
    destruct d as [k v|k e|ks|ks sc|nm]; try (exists s; repeat split; auto; fail).
    eexists. split; [reflexivity|].
    unfold dfs, stk, scs; cbn [d_defs d_stack d_scopes d_ids d_close d_isend d_add].
    rewrite E, update_last_snoc. rewrite !map_app, !app_length. cbn.
    repeat split; auto. intros H. exfalso. eapply H. reflexivity.
Qed.

Lemma check_id_off (t : tok) s :
  d_add s = false -> def_check src s (cap CId (fst t)) = Ok (s, true).
Proof. intros H. cbn [def_check cap c_name c_node]. now rewrite H. Qed.

Lemma ifs_cons e es : ifs (e :: es) = ifs [e] ++ ifs es.
Proof. destruct e; reflexivity. Qed.
Lemma noise_one e s :
  quiet s -> exists s1, def_check src s (cap_noise e) = Ok (s1, true) /\ quiet s1 /\
    dfs s1 = dfs s /\ stk s1 = rev (ifs [e]) ++ stk s /\ scs s1 = scs s /\ d_ids s1 = d_ids s.
Proof.
  intros (Hc & He & Ha). destruct e as [t|n|n]; cbn [cap_noise].
  - exists s. rewrite check_id_off by assumption. repeat split; auto.
  - destruct (check_eq n s) as (s1 & H1 & H2 & H3 & H4 & H5 & H6 & H7 & H8 & _).
    exists s1. rewrite H1. split; [reflexivity|]. split; [repeat split; congruence|]. auto.
  - eexists. split; [reflexivity|]. repeat split; auto.
Qed.
Lemma noise_quiet es : forall s,
  quiet s -> exists s1, steps s (map cap_noise es) s1 /\ quiet s1 /\
    dfs s1 = dfs s /\ stk s1 = rev (ifs es) ++ stk s /\ scs s1 = scs s /\ d_ids s1 = d_ids s.
Proof.
  induction es as [|e es IH]; intros s Hq.
  - exists s. split; [constructor|]. auto.
  - destruct (noise_one e s Hq) as (s1 & H1 & Hq1 & A1 & A2 & A3 & A4).
    destruct (IH s1 Hq1) as (s2 & H2 & Hq2 & B1 & B2 & B3 & B4).
    exists s2. split; [econstructor; eauto|]. split; [exact Hq2|].
    repeat split; try congruence.
    rewrite B2, A2, (ifs_cons e es), rev_app_distr. now rewrite app_assoc.
Qed.

(** The two brackets of a statement that closes nothing. *)
Lemma tail_quiet b e s :
  d_close s = false -> d_isend s = false -> (d_add s = true -> d_open s = true) ->
  exists s1, steps s (cap_tail b e) s1 /\ quiet s1 /\
    dfs s1 = dfs s /\ stk s1 = stk s /\ scs s1 = scs s /\ d_ids s1 = d_ids s.
Proof.
  intros Hc He Ha. unfold cap_tail.
  destruct (d_open s) eqn:Eo.
  - eexists. split.
    + econstructor; [cbn [def_check cap c_name c_node]; rewrite Hc; cbn [andb]; reflexivity|].
      econstructor; [|constructor]. cbn [def_check cap c_name c_node]. rewrite Eo.
      instantiate (1 := match d_stack s with
                        | sc :: st => _ | [] => _ end).
      destruct (d_stack s); reflexivity.
    + unfold stk, dfs, scs, quiet. destruct (d_stack s); cbn; auto.
  - exists s. split.
    + econstructor; [cbn [def_check cap c_name c_node]; rewrite Hc; cbn [andb]; reflexivity|].
      econstructor; [cbn [def_check cap c_name c_node]; rewrite Eo; reflexivity|constructor].
    + repeat split; auto. destruct (d_add s); [now specialize (Ha eq_refl)|reflexivity].
Qed.

(** *** Headers *)
Definition raw_header (fid k : N) (h : header) : list definition :=
  match h with
  | HFor _ key _ _ => [DForLoop (idof k key) None]
  | HWith _ bs => [DWith (map (idof k) (flat_map bind_toks bs))]
  | HMacro _ name ps => [DMacro (idof fid name :: map (idof k) (flat_map bind_toks ps)) fid]
  | HBlock _ name _ => [DBlock (idof k name)]
  | HPlain _ _ => []
  end.

(** State inside a header: the definition just pushed is the last one. *)
Definition inside_def (s : jdefs) (D : list definition) (d : definition) : Prop :=
  d_close s = false /\ d_isend s = false /\ d_open s = true /\ d_defs s = D ++ [d].

Lemma check_id_on (t : tok) s D d :
  reads src t -> d_add s = true -> d_defs s = D ++ [d] ->
  def_check src s (cap CId (fst t)) =
    Ok (mkdefs (D ++ [fst (add_id d (idof (hd 0 (stk s)) t) true)]) (d_close s) (d_open s)
          (snd (add_id d (idof (hd 0 (stk s)) t) true)) (d_isend s) (d_stack s) (d_scopes s)
          (d_ids s), true).
Proof.
  intros (Hr & _) Ha Hd. cbn [def_check cap c_name c_node]. rewrite Ha. cbn [negb].
  rewrite Hr. cbn [bind]. unfold add_id_last. rewrite Hd, last_opt_snoc, front_stk.
  unfold idof.
  destruct (add_id d _ true) as [d' a'] eqn:E.
  rewrite update_last_snoc. reflexivity.
Qed.

Lemma eqb_nonempty n : n <> EmptyString -> String.eqb n "" = false.
Proof. intros H. now apply String.eqb_neq. Qed.

(** Identifiers, operators and keywords in a loop header once the key is there. *)
Lemma for_noise key es : forall s D,
  id_name key <> EmptyString -> Forall (noise_ok src) es -> inside_def s D (DForLoop key None) ->
  exists s1, steps s (map cap_noise es) s1 /\ inside_def s1 D (DForLoop key None) /\
    stk s1 = rev (ifs es) ++ stk s /\ scs s1 = scs s /\ d_ids s1 = d_ids s.
Proof.
  induction es as [|e es IH]; intros s D Hk Hes Hin.
  - exists s. split; [constructor|]. auto.
  - inversion Hes as [|? ? He Hes']; subst.
    assert (H1 : exists s1, def_check src s (cap_noise e) = Ok (s1, true) /\
              inside_def s1 D (DForLoop key None) /\
              stk s1 = rev (ifs [e]) ++ stk s /\ scs s1 = scs s /\ d_ids s1 = d_ids s).
    { destruct Hin as (A1 & A2 & A3 & A4). destruct e as [t|n|n]; cbn [cap_noise noise_ok] in *.
      - destruct (d_add s) eqn:Ea.
        + rewrite (check_id_on t s D _ He Ea A4). cbn [add_id].
          rewrite eqb_nonempty by assumption. cbn [fst snd].
          eexists. split; [reflexivity|]. repeat split; auto.
        + exists s. rewrite check_id_off by assumption. repeat split; auto.
      - destruct (check_eq n s) as (s1 & B1 & _ & _ & _ & _ & _ & _ & _ & _ & B2).
        exists s1. split; [exact B1|]. rewrite B2; [repeat split; auto|].
        intros k e. rewrite A4, last_opt_snoc. discriminate.
      - eexists. split; [reflexivity|]. repeat split; auto. }
    destruct H1 as (s1 & H1 & Hin1 & A2 & A3 & A4).
    destruct (IH s1 D Hk Hes' Hin1) as (s2 & H2 & Hin2 & B2 & B3 & B4).
    exists s2. split; [econstructor; eauto|]. split; [exact Hin2|].
    repeat split; try congruence.
    rewrite B2, A2, (ifs_cons e es), rev_app_distr. now rewrite app_assoc.
Qed.
Lemma for_others key ts : forall s D,
  id_name key <> EmptyString -> Forall (reads src) ts -> inside_def s D (DForLoop key None) ->
  exists s1, steps s (map (fun t => cap CId (fst t)) ts) s1 /\ inside_def s1 D (DForLoop key None) /\
    stk s1 = stk s /\ scs s1 = scs s /\ d_ids s1 = d_ids s.
Proof.
  intros s D Hk Hts Hin.
  destruct (for_noise key (map NId ts) s D Hk) as (s1 & H1 & H2 & H3 & H4 & H5); auto.
  { rewrite Forall_map. exact Hts. }
  exists s1. rewrite map_map in H1. split; [exact H1|]. split; [exact H2|].
  rewrite H3. assert (E : ifs (map NId ts) = []) by (clear; induction ts; auto). rewrite E. auto.
Qed.

(** Collecting definitions: [with] and [macro]. *)
Definition collecting (d : definition) (k : N) (got : list tok) (d' : definition) : Prop :=
  match d with
  | DWith keys => d' = DWith (keys ++ map (idof k) got)
  | DMacro keys sc => keys <> [] /\ d' = DMacro (keys ++ map (idof k) got) sc
  | _ => False
  end.
Lemma collect_one k t s D d :
  reads src t -> inside_def s D d -> d_add s = true -> hd 0 (stk s) = k ->
  (exists ks, d = DWith ks) \/ (exists ks sc, d = DMacro ks sc /\ ks <> []) ->
  exists s1 d1, def_check src s (cap CId (fst t)) = Ok (s1, true) /\ inside_def s1 D d1 /\
    d_add s1 = true /\ collecting d k [t] d1 /\
    stk s1 = stk s /\ scs s1 = scs s /\ d_ids s1 = d_ids s.
Proof.
  intros Hr (A1 & A2 & A3 & A4) Ha Hk Hd. subst k.
  rewrite (check_id_on t s D d Hr Ha A4).
  destruct Hd as [(ks & ->)|(ks & sc & -> & Hne)].
  - do 2 eexists. split; [reflexivity|]. cbn. repeat split; auto.
  - destruct ks as [|k0 ks]; [congruence|].
    do 2 eexists. split; [reflexivity|]. cbn. repeat split; auto.
Qed.
Lemma collecting_trans d k a d1 b d2 :
  collecting d k a d1 -> collecting d1 k b d2 -> collecting d k (a ++ b) d2.
Proof.
  destruct d as [| |ks|ks sc|]; cbn; try tauto.
  - intros -> H. cbn in H. subst d2. now rewrite map_app, app_assoc.
  - intros (Hne & ->) (_ & ->). now rewrite map_app, app_assoc.
Qed.
Lemma collecting_shape d k a d1 :
  collecting d k a d1 ->
  (exists ks, d1 = DWith ks) \/ (exists ks sc, d1 = DMacro ks sc /\ ks <> []).
Proof.
  destruct d as [| |ks|ks sc|]; cbn; try tauto.
  - intros ->. eauto.
  - intros (Hne & ->). right. do 2 eexists. split; [reflexivity|]. now destruct ks.
Qed.
Lemma collecting_nil d k :
  (exists ks, d = DWith ks) \/ (exists ks sc, d = DMacro ks sc /\ ks <> []) -> collecting d k [] d.
Proof.
  intros [(ks & ->)|(ks & sc & -> & Hne)]; cbn; [|split; [assumption|]]; now rewrite app_nil_r.
Qed.
Lemma collect_noise k es : forall s D d,
  Forall (noise_ok src) es -> no_if es -> inside_def s D d -> d_add s = true -> hd 0 (stk s) = k ->
  (exists ks, d = DWith ks) \/ (exists ks sc, d = DMacro ks sc /\ ks <> []) ->
  exists s1 d1, steps s (map cap_noise es) s1 /\ inside_def s1 D d1 /\ d_add s1 = true /\
    collecting d k (noise_toks es) d1 /\ stk s1 = stk s /\ scs s1 = scs s /\ d_ids s1 = d_ids s.
Proof.
  induction es as [|e es IH]; intros s D d Hes Hni Hin Ha Hk Hd.
  - exists s, d. split; [constructor|]. repeat split; auto; try apply Hin. now apply collecting_nil.
  - inversion Hes as [|? ? He Hes']; inversion Hni as [|? ? Hn Hni']; subst.
    destruct e as [t|n|n]; [| |discriminate]; cbn [cap_noise noise_ok map] in *.
    + destruct (collect_one _ t s D d He Hin Ha eq_refl Hd) as
        (s1 & d1 & H1 & Hin1 & Ha1 & Hc1 & E1 & E2 & E3).
      destruct (IH s1 D d1 Hes' Hni' Hin1 Ha1) as
        (s2 & d2 & H2 & Hin2 & Ha2 & Hc2 & F1 & F2 & F3); [now rewrite E1| |].
      { eapply collecting_shape; eauto. }
      exists s2, d2. split; [econstructor; eauto|]. repeat split; try apply Hin2; try congruence.
      change (noise_toks (NId t :: es)) with ([t] ++ noise_toks es).
      eapply collecting_trans; eauto.
    + destruct (check_eq n s) as (s1 & B1 & _ & _ & _ & _ & _ & _ & _ & _ & B2).
      rewrite B2 in B1.
      2:{ destruct Hin as (_ & _ & _ & Hdd). intros k0 e0. rewrite Hdd, last_opt_snoc.
          destruct Hd as [(ks & ->)|(ks & sc & -> & _)]; discriminate. }
      destruct (IH s D d Hes' Hni' Hin Ha eq_refl Hd) as
        (s2 & d2 & H2 & Hin2 & Ha2 & Hc2 & F1 & F2 & F3).
      exists s2, d2. split; [econstructor; eauto|]. auto 10.
Qed.
Lemma collect_binds k bs : forall s D d,
  Forall (bind_ok src) bs -> Forall (fun b => no_if (snd b)) bs -> inside_def s D d ->
  d_add s = true -> hd 0 (stk s) = k ->
  (exists ks, d = DWith ks) \/ (exists ks sc, d = DMacro ks sc /\ ks <> []) ->
  exists s1 d1, steps s (flat_map cap_bind bs) s1 /\ inside_def s1 D d1 /\ d_add s1 = true /\
    collecting d k (flat_map bind_toks bs) d1 /\
    stk s1 = stk s /\ scs s1 = scs s /\ d_ids s1 = d_ids s.
Proof.
  induction bs as [|b bs IH]; intros s D d Hes Hni Hin Ha Hk Hd.
  - exists s, d. split; [constructor|]. repeat split; auto; try apply Hin. now apply collecting_nil.
  - inversion Hes as [|? ? (He1 & He2) Hes']; inversion Hni as [|? ? Hn Hni']; subst.
    destruct (collect_one _ (fst b) s D d He1 Hin Ha eq_refl Hd) as
        (s1 & d1 & H1 & Hin1 & Ha1 & Hc1 & E1 & E2 & E3).
    destruct (collect_noise (hd 0 (stk s)) (snd b) s1 D d1 He2 Hn Hin1 Ha1) as
        (s2 & d2 & H2 & Hin2 & Ha2 & Hc2 & F1 & F2 & F3); [now rewrite E1| |].
    { eapply collecting_shape; eauto. }
    destruct (IH s2 D d2 Hes' Hni' Hin2 Ha2) as
        (s3 & d3 & H3 & Hin3 & Ha3 & Hc3 & G1 & G2 & G3); [congruence| |].
    { eapply collecting_shape; eauto. }
    exists s3, d3. split.
    { cbn [flat_map]. eapply steps_app; [|exact H3]. econstructor; eauto. }
    split; [exact Hin3|]. split; [exact Ha3|]. split; [|split; [congruence|split; congruence]].
    cbn [flat_map].
    change (bind_toks b) with ([fst b] ++ noise_toks (snd b)). rewrite <- app_assoc.
    eapply collecting_trans; [exact Hc1|]. eapply collecting_trans; eauto.
Qed.

(** The keyword of a definition with a scope. *)
Lemma check_def kw content s d1 :
  utf8_text kw src = Ok (Some content) -> ~ In (n_id kw) (d_ids s) ->
  (forall k e, def_from content <> DSet k e) ->
  d1 = match def_from content with DMacro ks _ => DMacro ks (hd 0 (stk s)) | d => d end ->
  exists s1, def_check src s (cap CDefinition kw) = Ok (s1, true) /\
    inside_def s1 (d_defs s) d1 /\ d_add s1 = true /\
    stk s1 = n_id kw :: stk s /\ scs s1 = scs s /\ d_ids s1 = n_id kw :: d_ids s.
Proof.
  intros Ht Hf Hns ->. cbn [def_check cap c_name c_node].
  replace (existsb (N.eqb (n_id kw)) (d_ids s)) with false.
  2:{ symmetry. apply not_true_is_false. intros H. apply existsb_exists in H.
      destruct H as (x & Hx & E). apply N.eqb_eq in E. now subst x. }
  rewrite Ht. cbn [bind]. rewrite front_stk.
  destruct (def_from content) as [a b|a b|a|a b|a] eqn:E; try (now destruct (Hns a b eq_refl));
    eexists; (split; [reflexivity|]); repeat split; auto.
Qed.

Definition header_branching (h : header) : Prop :=
  match h with
  | HWith _ bs => Forall (fun b => no_if (snd b)) bs
  | HMacro _ _ ps => Forall (fun p => no_if (snd p)) ps
  | _ => True
  end.
Lemma ifs_none es : no_if es -> ifs es = [].
Proof. induction 1 as [|e es He _ IH]; [reflexivity|]. destruct e; try discriminate; exact IH. Qed.
Lemma ifs_app a b : ifs (a ++ b) = ifs a ++ ifs b.
Proof. unfold ifs. apply flat_map_app. Qed.
Lemma ifs_binds bs : Forall (fun b : tok * list noise => no_if (snd b)) bs -> ifs (flat_map snd bs) = [].
Proof.
  induction 1 as [|b bs Hb _ IH]; [reflexivity|]. cbn [flat_map].
  now rewrite ifs_app, (ifs_none _ Hb), IH.
Qed.

Lemma header_steps h s :
  quiet s -> header_ok src h -> header_branching h ->
  ~ In (header_kw h) (d_ids s) ->
  exists s1, steps s (cap_header h) s1 /\
    d_close s1 = false /\ d_isend s1 = false /\ (d_add s1 = true -> d_open s1 = true) /\
    dfs s1 = dfs s ++ raw_header (hd 0 (stk s)) (header_kw h) h /\
    stk s1 = rev (ifs (header_es h)) ++ header_kw h :: stk s /\ scs s1 = scs s /\
    incl (d_ids s1) (header_kw h :: d_ids s).
Proof.
  intros Hq Hok Hbr Hfresh.
  assert (Hinc : forall s1, d_ids s1 = header_kw h :: d_ids s -> incl (d_ids s1) (header_kw h :: d_ids s))
    by (intros s1 ->; apply incl_refl).
  destruct h as [kw key others es|kw bs|kw name ps|kw name es|kw es];
    cbn [header_ok header_branching header_kw header_es cap_header raw_header] in *.
  - destruct Hok as ((Hkw & _) & Hkey & Hoth & Hes).
    destruct (check_def kw "for" s (DForLoop id_default None) Hkw Hfresh) as
      (s1 & H1 & Hin1 & Ha1 & A1 & A2 & A3); [discriminate|reflexivity|].
    pose proof Hin1 as (I1 & I2 & I3 & I4).
    pose proof (check_id_on key s1 _ _ Hkey Ha1 I4) as H2. rewrite A1 in H2. cbn [hd] in H2.
    cbn in H2.
    set (s2 := mkdefs _ _ _ _ _ _ _ _) in H2.
    assert (Hin2 : inside_def s2 (d_defs s) (DForLoop (idof (n_id kw) key) None)).
    { unfold s2, inside_def; cbn. auto. }
    assert (Hne : id_name (idof (n_id kw) key) <> EmptyString) by apply Hkey.
    destruct (for_others _ others s2 _ Hne Hoth Hin2) as (s3 & H3 & Hin3 & B1 & B2 & B3).
    destruct (for_noise _ es s3 _ Hne Hes Hin3) as (s4 & H4 & Hin4 & C1 & C2 & C3).
    exists s4. split.
    { econstructor; [exact H1|]. econstructor; [exact H2|]. eapply steps_app; eauto. }
    destruct Hin4 as (J1 & J2 & J3 & J4).
    repeat split; auto.
    + unfold dfs. rewrite J4, map_app. reflexivity.
    + rewrite C1, B1. change (stk s2) with (stk s1). now rewrite A1.
    + rewrite C2, B2. exact A2.
    + apply Hinc. rewrite C3, B3. exact A3.
  - destruct Hok as ((Hkw & _) & Hbs).
    destruct (check_def kw "with" s (DWith []) Hkw Hfresh) as
      (s1 & H1 & Hin1 & Ha1 & A1 & A2 & A3); [discriminate|reflexivity|].
    destruct (collect_binds (n_id kw) bs s1 _ _ Hbs Hbr Hin1 Ha1) as
      (s2 & d2 & H2 & (J1 & J2 & J3 & J4) & Ha2 & Hc & B1 & B2 & B3); [now rewrite A1|eauto|].
    cbn [collecting] in Hc. subst d2.
    exists s2. split; [econstructor; eauto|]. repeat split; auto.
    + unfold dfs. rewrite J4, map_app. reflexivity.
    + rewrite B1, A1, ifs_binds by assumption. reflexivity.
    + congruence.
    + apply Hinc. congruence.
  - destruct Hok as ((Hkw & _) & Hname & Hps).
    destruct (check_def kw "macro" s (DMacro [] (hd 0 (stk s))) Hkw Hfresh) as
      (s1 & H1 & Hin1 & Ha1 & A1 & A2 & A3); [discriminate|reflexivity|].
    pose proof Hin1 as (I1 & I2 & I3 & I4).
    pose proof (check_id_on name s1 _ _ Hname Ha1 I4) as H2. rewrite A1 in H2. cbn [hd] in H2.
    cbn in H2.
    set (s2 := mkdefs _ _ _ _ _ _ _ _) in H2.
    assert (Hin2 : inside_def s2 (d_defs s) (DMacro [idof (hd 0 (stk s)) name] (hd 0 (stk s)))).
    { unfold s2, inside_def; cbn. auto. }
    destruct (collect_binds (n_id kw) ps s2 _ _ Hps Hbr Hin2) as
      (s3 & d3 & H3 & (J1 & J2 & J3 & J4) & Ha3 & Hc & B1 & B2 & B3).
    { reflexivity. } { change (stk s2) with (stk s1). now rewrite A1. }
    { right. do 2 eexists. split; [reflexivity|discriminate]. }
    destruct Hc as (_ & ->).
    exists s3. split; [econstructor; [exact H1|]; econstructor; [exact H2|]; exact H3|].
    repeat split; auto.
    + unfold dfs. rewrite J4, map_app. reflexivity.
    + rewrite B1. change (stk s2) with (stk s1). rewrite A1, ifs_binds by assumption. reflexivity.
    + rewrite B2. exact A2.
    + apply Hinc. rewrite B3. exact A3.
  - destruct Hok as ((Hkw & _) & Hname & Hes).
    destruct (check_def kw "block" s (DBlock id_default) Hkw Hfresh) as
      (s1 & H1 & Hin1 & Ha1 & A1 & A2 & A3); [discriminate|reflexivity|].
    pose proof Hin1 as (I1 & I2 & I3 & I4).
    pose proof (check_id_on name s1 _ _ Hname Ha1 I4) as H2. rewrite A1 in H2. cbn [hd] in H2.
    cbn in H2.
    set (s2 := mkdefs _ _ _ _ _ _ _ _) in H2.
    assert (Hq2 : quiet s2) by (unfold s2, quiet; cbn; auto).
    destruct (noise_quiet es s2 Hq2) as (s3 & H3 & (Q1 & Q2 & Q3) & B0 & B1 & B2 & B3).
    exists s3. split; [econstructor; [exact H1|]; econstructor; [exact H2|]; exact H3|].
    repeat split; auto.
    + intros Hx; congruence.
    + rewrite B0. unfold dfs, s2; cbn [d_defs]. now rewrite map_app.
    + rewrite B1. change (stk s2) with (stk s1). now rewrite A1.
    + rewrite B2. exact A2.
    + apply Hinc. rewrite B3. exact A3.
  - set (s1 := mkdefs (d_defs s) false true false false (mkscope (n_id (fst kw)) pt0 pt0 :: d_stack s)
                 (d_scopes s) (d_ids s)).
    assert (H1 : def_check src s (cap CScope (fst kw)) = Ok (s1, true)) by reflexivity.
    assert (Hq1 : quiet s1) by (repeat split).
    destruct (noise_quiet es s1 Hq1) as (s2 & H2 & (Q1 & Q2 & Q3) & B0 & B1 & B2 & B3).
    exists s2. split; [econstructor; [exact H1|exact H2]|].
    repeat split; auto.
    + intros Hx; congruence.
    + rewrite B0, app_nil_r. reflexivity.
    + rewrite B3. apply incl_tl, incl_refl.
Qed.

(** *** End tags *)
Lemma end_noise es : forall s,
  no_if es -> d_close s = true -> d_isend s = true -> d_add s = false ->
  exists s1, steps s (map cap_noise es) s1 /\ d_close s1 = true /\ d_isend s1 = true /\
    d_add s1 = false /\
    dfs s1 = dfs s /\ stk s1 = stk s /\ scs s1 = scs s /\ d_ids s1 = d_ids s.
Proof.
  induction es as [|e es IH]; intros s Hn Hc He Ha.
  - exists s. split; [constructor|]. auto 10.
  - inversion Hn as [|? ? Hn1 Hn2]; subst. destruct e as [t|n|n]; [| |discriminate].
    + destruct (IH s Hn2 Hc He Ha) as (s1 & H1 & R). exists s1. split; [|exact R].
      econstructor; [apply check_id_off; assumption|exact H1].
    + destruct (check_eq n s) as (s0 & B1 & B2 & B3 & B4 & B5 & B6 & B7 & B8 & _).
      destruct (IH s0) as (s1 & H1 & R1 & R2 & R3 & R4 & R5 & R6 & R7); try congruence; auto.
      exists s1. split; [econstructor; eauto|]. repeat split; congruence.
Qed.
Lemma end_steps et s k rest :
  quiet s -> no_if (et_es et) -> stk s = k :: rest ->
  exists s1, steps s (cap_end et) s1 /\ quiet s1 /\
    dfs s1 = dfs s /\ stk s1 = rest /\ scs s1 = scs s ++ [(k, et_at et)] /\ d_ids s1 = d_ids s.
Proof.
  intros (Hc & He & Ha) Hn Hst. unfold cap_end.
  set (s1 := mkdefs (d_defs s) true false (d_add s) true (d_stack s) (d_scopes s) (d_ids s)).
  destruct (end_noise (et_es et) s1 Hn eq_refl eq_refl Ha) as
    (s2 & H2 & R1 & R2 & R3 & R4 & R5 & R6 & R7).
  change (stk s1) with (stk s) in R5. change (dfs s1) with (dfs s) in R4.
  change (scs s1) with (scs s) in R6. change (d_ids s1) with (d_ids s) in R7.
  rewrite Hst in R5. unfold stk in R5.
  destruct (d_stack s2) as [|sc st] eqn:Est; [discriminate|]. cbn [map] in R5.
  injection R5 as R5a R5b.
  set (s3 := mkdefs (d_defs s2) false (d_open s2) false false st
               (d_scopes s2 ++ [mkscope (s_id sc) (s_start sc) (n_start (et_b et))]) (d_ids s2)).
  assert (H3 : def_check src s2 (cap CScopeEnd (et_b et)) = Ok (s3, true)).
  { cbn [def_check cap c_name c_node]. rewrite R1, R2, Est. reflexivity. }
  assert (H4 : exists s4, def_check src s3 (cap CScopeStart (et_e et)) = Ok (s4, true) /\
             quiet s4 /\ dfs s4 = dfs s3 /\ stk s4 = stk s3 /\ scs s4 = scs s3 /\ d_ids s4 = d_ids s3).
  { cbn [def_check cap c_name c_node]. destruct (d_open s3).
    - destruct (d_stack s3) eqn:E3; eexists; (split; [reflexivity|]); repeat split; auto;
        unfold stk; rewrite E3; reflexivity.
    - exists s3. repeat split. }
  destruct H4 as (s4 & H4 & Q & E1 & E2 & E3 & E4).
  exists s4. split.
  { econstructor; [reflexivity|]. eapply steps_app; [exact H2|].
    econstructor; [exact H3|]. econstructor; [exact H4|constructor]. }
  split; [exact Q|]. repeat split.
  - rewrite E1. exact R4.
  - rewrite E2. unfold s3, stk. cbn. exact R5b.
  - rewrite E3. unfold s3, scs. cbn [d_scopes]. rewrite map_app. fold (scs s2). rewrite R6.
    cbn. unfold idend. cbn. now rewrite R5a.
  - rewrite E4. exact R7.
Qed.

(** *** Whole templates *)
Definition opened (h : header) (body_leaks : list N) : list N :=
  body_leaks ++ rev (ifs (header_es h)) ++ [header_kw h].
Fixpoint leaks (t : tpl) : list N :=
  match t with
  | TNil => []
  | TExpr es r | TOther es _ _ r | TSet _ _ es _ _ r => leaks r ++ rev (ifs es)
  | TBranch kw es _ _ r => leaks r ++ rev (ifs es) ++ [n_id (fst kw)]
  | TBlock h _ _ body _ r => leaks r ++ tl (opened h (leaks body))
  | TBlockSet _ _ _ _ _ _ r => []
  end.
Fixpoint closes (t : tpl) : list (N * point) :=
  match t with
  | TNil => []
  | TExpr _ r | TOther _ _ _ r | TSet _ _ _ _ _ r | TBranch _ _ _ _ r => closes r
  | TBlock h _ _ body et r =>
      closes body ++ (hd 0 (opened h (leaks body)), et_at et) :: closes r
  | TBlockSet _ _ _ _ _ _ r => []
  end.
Fixpoint raws (st : list N) (t : tpl) : list definition :=
  match t with
  | TNil => []
  | TExpr es r | TOther es _ _ r => raws (rev (ifs es) ++ st) r
  | TSet _ x es _ _ r => DSet (idof (hd 0 st) x) false :: raws (rev (ifs es) ++ st) r
  | TBranch kw es _ _ r => raws (rev (ifs es) ++ n_id (fst kw) :: st) r
  | TBlock h _ _ body _ r =>
      raw_header (hd 0 st) (header_kw h) h ++
      raws (rev (ifs (header_es h)) ++ header_kw h :: st) body ++
      raws (tl (opened h (leaks body)) ++ st) r
  | TBlockSet _ _ _ _ _ _ _ => []
  end.

Lemma NoDup_app_r {A} (a b : list A) : NoDup (a ++ b) -> NoDup b.
Proof. induction a as [|x a IH]; [auto|]. intros H. inversion H; subst. auto. Qed.
Lemma NoDup_app_l {A} (a b : list A) : NoDup (a ++ b) -> NoDup a.
Proof.
  induction a as [|x a IH]; [constructor|]. intros H. inversion H; subst. constructor; [|auto].
  intros Hx. apply H2. apply in_or_app. auto.
Qed.
Lemma NoDup_app_disj {A} (a b : list A) x : NoDup (a ++ b) -> In x a -> In x b -> False.
Proof.
  induction a as [|y a IH]; [auto|]. cbn. intros H Ha Hb. inversion H; subst.
  destruct Ha as [->|Ha]; [|now apply IH]. apply H2. apply in_or_app. auto.
Qed.

Definition fresh (t : tpl) (s : jdefs) : Prop :=
  NoDup (keyword_ids t) /\ forall x, In x (keyword_ids t) -> ~ In x (d_ids s).

Lemma set_head kw x s :
  quiet s -> reads src (kw, "set"%string) -> reads src x -> ~ In (n_id kw) (d_ids s) ->
  exists s2, steps s [cap CDefinition kw; cap CId (fst x)] s2 /\ quiet s2 /\
    dfs s2 = dfs s ++ [DSet (idof (hd 0 (stk s)) x) false] /\ stk s2 = stk s /\
    scs s2 = scs s /\ d_ids s2 = n_id kw :: d_ids s.
Proof.
  intros (Q1 & Q2 & Q3) (Hkw & _) Hx Hf. cbn [fst snd] in Hkw.
  set (s1 := mkdefs (d_defs s ++ [DSet id_default false]) (d_close s) (d_open s) true (d_isend s)
               (d_stack s) (d_scopes s) (n_id kw :: d_ids s)).
  assert (H1 : def_check src s (cap CDefinition kw) = Ok (s1, true)).
  { cbn [def_check cap c_name c_node].
    replace (existsb (N.eqb (n_id kw)) (d_ids s)) with false.
    2:{ symmetry. apply not_true_is_false. intros H. apply existsb_exists in H.
        destruct H as (y & Hy & E). apply N.eqb_eq in E. now subst y. }
    rewrite Hkw. reflexivity. }
  pose proof (check_id_on x s1 (d_defs s) (DSet id_default false) Hx eq_refl eq_refl) as H2.
  cbn in H2.
  set (s2 := mkdefs _ _ _ _ _ _ _ _) in H2.
  exists s2. split; [econstructor; [exact H1|]; econstructor; [exact H2|constructor]|].
  unfold s2, quiet, dfs, stk, scs; cbn. rewrite map_app. auto 10.
Qed.

Lemma template_steps t : forall s,
  quiet s -> tpl_ok src t -> branching t -> fresh t s ->
  exists s1, steps s (captures_of t) s1 /\ quiet s1 /\
    dfs s1 = dfs s ++ raws (stk s) t /\ stk s1 = leaks t ++ stk s /\
    scs s1 = scs s ++ closes t /\ incl (d_ids s1) (keyword_ids t ++ d_ids s).
Proof.
  induction t as [|es r IH|es b e r IH|kw x es b e r IH|kw es b e r IH
                 |h b e body IHb et r IHr|kw x b e body IHb et r IHr];
    intros s Hq Hok Hbr Hfr; cbn [tpl_ok branching captures_of leaks closes raws] in *.
  - exists s. rewrite !app_nil_r. split; [constructor|]. repeat split; auto; try apply Hq.
    apply incl_refl.
  - destruct Hok as (_ & Hok). destruct Hfr as (F1 & F2). cbn [keyword_ids] in F1, F2.
    destruct (noise_quiet es s Hq) as (s1 & H1 & Q1 & A1 & A2 & A3 & A4).
    destruct (IH s1 Q1 Hok Hbr) as (s2 & H2 & Q2 & B1 & B2 & B3 & B4).
    { split; [eapply NoDup_app_r; eauto|]. rewrite A4. intros y Hy. apply F2. apply in_or_app; auto. }
    exists s2. split; [eapply steps_app; eauto|]. split; [exact Q2|]. repeat split.
    + now rewrite B1, A1, A2.
    + rewrite B2, A2. now rewrite app_assoc.
    + congruence.
    + rewrite A4 in B4. cbn [keyword_ids]. rewrite <- app_assoc. now apply incl_appr.
  - destruct Hok as (_ & Hok). destruct Hfr as (F1 & F2). cbn [keyword_ids] in F1, F2.
    destruct (noise_quiet es s Hq) as (s1 & H1 & Q1 & A1 & A2 & A3 & A4).
    destruct (tail_quiet b e s1) as (s1' & H1' & Q1' & A1' & A2' & A3' & A4');
      try apply Q1; [destruct Q1 as (_ & _ & Q1); rewrite Q1; discriminate|].
    destruct (IH s1' Q1' Hok Hbr) as (s2 & H2 & Q2 & B1 & B2 & B3 & B4).
    { split; [eapply NoDup_app_r; eauto|]. rewrite A4', A4. intros y Hy. apply F2. apply in_or_app; auto. }
    exists s2. split; [eapply steps_app; [exact H1|]; eapply steps_app; eauto|].
    split; [exact Q2|]. repeat split.
    + now rewrite B1, A1', A1, A2', A2.
    + rewrite B2, A2', A2. now rewrite app_assoc.
    + congruence.
    + rewrite A4', A4 in B4. cbn [keyword_ids]. rewrite <- app_assoc. now apply incl_appr.
  - destruct Hok as (Hkw & Hx & _ & Hok). destruct Hfr as (F1 & F2). cbn [keyword_ids] in F1, F2.
    destruct (set_head kw x s Hq Hkw Hx) as (s0 & H0 & Q0 & Z1 & Z2 & Z3 & Z4).
    { apply F2. now left. }
    destruct (noise_quiet es s0 Q0) as (s1 & H1 & Q1 & A1 & A2 & A3 & A4).
    destruct (tail_quiet b e s1) as (s1' & H1' & Q1' & A1' & A2' & A3' & A4');
      try apply Q1; [destruct Q1 as (_ & _ & Q1); rewrite Q1; discriminate|].
    inversion F1 as [|? ? F1a F1b]; subst.
    destruct (IH s1' Q1' Hok Hbr) as (s2 & H2 & Q2 & B1 & B2 & B3 & B4).
    { split; [eapply NoDup_app_r; eauto|]. rewrite A4', A4, Z4. intros y Hy [E|E].
      - subst y. apply F1a. apply in_or_app; auto.
      - eapply F2; [|exact E]. right. apply in_or_app; auto. }
    exists s2. split.
    { change (steps s ([cap CDefinition kw; cap CId (fst x)] ++
                map cap_noise es ++ cap_tail b e ++ captures_of r) s2).
      eapply steps_app; [exact H0|]. eapply steps_app; [exact H1|]. eapply steps_app; eauto. }
    split; [exact Q2|]. repeat split.
    + rewrite B1, A1', A1, A2', A2, Z1, Z2. now rewrite <- app_assoc.
    + rewrite B2, A2', A2, Z2. now rewrite app_assoc.
    + congruence.
    + rewrite A4', A4, Z4 in B4. intros y Hy. specialize (B4 y Hy). cbn [keyword_ids].
      rewrite in_app_iff in *. cbn [In] in *. rewrite in_app_iff. tauto.
  - destruct Hok as (_ & _ & _ & Hok). destruct Hfr as (F1 & F2). cbn [keyword_ids] in F1, F2.
    set (s0 := mkdefs (d_defs s) false true false false (mkscope (n_id (fst kw)) pt0 pt0 :: d_stack s)
                 (d_scopes s) (d_ids s)).
    assert (H0 : def_check src s (cap CScope (fst kw)) = Ok (s0, true)) by reflexivity.
    assert (Q0 : quiet s0) by (repeat split).
    destruct (noise_quiet es s0 Q0) as (s1 & H1 & Q1 & A1 & A2 & A3 & A4).
    destruct (tail_quiet b e s1) as (s1' & H1' & Q1' & A1' & A2' & A3' & A4');
      try apply Q1; [destruct Q1 as (_ & _ & Q1); rewrite Q1; discriminate|].
    inversion F1 as [|? ? F1a F1b]; subst.
    destruct (IH s1' Q1' Hok Hbr) as (s2 & H2 & Q2 & B1 & B2 & B3 & B4).
    { split; [eapply NoDup_app_r; eauto|]. rewrite A4', A4. intros y Hy. apply F2.
      right. apply in_or_app; auto. }
    exists s2. split.
    { econstructor; [exact H0|]. eapply steps_app; [exact H1|]. eapply steps_app; eauto. }
    split; [exact Q2|]. repeat split.
    + rewrite B1, A1', A1, A2', A2. reflexivity.
    + rewrite B2, A2', A2. change (stk s0) with (n_id (fst kw) :: stk s).
      rewrite <- !app_assoc. reflexivity.
    + rewrite B3, A3', A3. reflexivity.
    + rewrite A4', A4 in B4. change (d_ids s0) with (d_ids s) in B4.
      intros y Hy. specialize (B4 y Hy). cbn [keyword_ids].
      cbn [app In]. rewrite !in_app_iff in *. tauto.
  - destruct Hok as (Hh & Hokb & Hes & Hok). destruct Hbr as (Hbh & Hbb & Hne & Hbr).
    destruct Hfr as (F1 & F2). cbn [keyword_ids] in F1, F2.
    inversion F1 as [|? ? F1a F1b]; subst.
    destruct (header_steps h s Hq Hh Hbh) as (s1 & H1 & C1 & C2 & C3 & A1 & A2 & A3 & A4).
    { apply F2. now left. }
    destruct (tail_quiet b e s1 C1 C2 C3) as (s1' & H1' & Q1' & A1' & A2' & A3' & A4').
    assert (Hids : forall y, In y (d_ids s1') -> y = header_kw h \/ In y (d_ids s)).
    { intros y Hy. rewrite A4' in Hy. apply A4 in Hy. destruct Hy; auto. }
    destruct (IHb s1' Q1' Hokb Hbb) as (s2 & H2 & Q2 & B1 & B2 & B3 & B4).
    { split; [eapply NoDup_app_l, NoDup_app_r; eauto|]. intros y Hy Hc.
      destruct (Hids y Hc) as [->|Hs].
      - apply F1a. rewrite !in_app_iff. tauto.
      - eapply F2; [|exact Hs]. right. rewrite !in_app_iff. tauto. }
    set (L := opened h (leaks body)).
    assert (HL : stk s2 = L ++ stk s).
    { rewrite B2, A2', A2. unfold L, opened. rewrite <- !app_assoc. reflexivity. }
    assert (HLc : L = hd 0 L :: tl L).
    { unfold L, opened. destruct (leaks body); [|reflexivity]. cbn [app].
      destruct (rev (ifs (header_es h))); reflexivity. }
    destruct (end_steps et s2 (hd 0 L) (tl L ++ stk s) Q2 Hne) as (s3 & H3 & Q3 & D1 & D2 & D3 & D4).
    { rewrite HL, HLc at 1. reflexivity. }
    destruct (IHr s3 Q3 Hok Hbr) as (s4 & H4 & Q4 & E1 & E2 & E3 & E4).
    { split; [eapply NoDup_app_r, NoDup_app_r, NoDup_app_r; eauto|]. intros y Hy Hc.
      rewrite D4 in Hc. apply B4 in Hc. apply in_app_or in Hc. destruct Hc as [Hc|Hc].
      - apply NoDup_app_r in F1b.
        eapply (NoDup_app_disj (keyword_ids body)); [exact F1b|exact Hc|].
        apply in_or_app; auto.
      - destruct (Hids y Hc) as [->|Hs].
        + apply F1a. rewrite !in_app_iff. tauto.
        + eapply F2; [|exact Hs]. right. rewrite !in_app_iff. tauto. }
    exists s4. split.
    { eapply steps_app; [exact H1|]. eapply steps_app; [exact H1'|]. eapply steps_app; [exact H2|].
      eapply steps_app; eauto. }
    split; [exact Q4|]. fold L. repeat split.
    + rewrite E1, D1, B1, A1', A1, D2, A2', A2. rewrite <- !app_assoc. reflexivity.
    + rewrite E2, D2. now rewrite app_assoc.
    + rewrite E3, D3, B3, A3', A3. rewrite <- !app_assoc. reflexivity.
    + intros y Hy. apply E4 in Hy. rewrite D4 in Hy. cbn [keyword_ids].
      cbn [app In]. rewrite !in_app_iff in *. destruct Hy as [Hy|Hy]; [tauto|].
      apply B4 in Hy. apply in_app_or in Hy. destruct Hy as [Hy|Hy]; [tauto|].
      destruct (Hids y Hy); subst; tauto.
  - destruct Hbr.
Qed.
End Scope.
