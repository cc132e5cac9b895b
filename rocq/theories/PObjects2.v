(** * PObjects2: proofs about words (C57, C58). *)
From Verif Require Import Base RString Utf8 Types Captures MObjects SpecScope SpecObjects SpecObjects2 PText PScope PObjects.

Lemma builtin_name_mem s : builtin_name s = str_mem s valid_identifiers.
Proof. reflexivity. Qed.

(** Between two words the last dot and pipe lie before the next one. *)
Definition ready (after : point) (test : bool) (s : jobjects) : Prop :=
  snd (os_test s) = test /\ pt_lt (snd (os_dot s)) after /\ pt_lt (snd (os_pipe s)) after.
Lemma ready_le p q t s : ready p t s -> pt_le p q -> ready q t s.
Proof. intros (A & B & C) H. repeat split; eauto using pt_lt_le_trans. Qed.

Definition set_fields (o : jobject) (l : list field) : jobject :=
  mkobj (o_name o) (o_loc o) (o_is_filter o) (o_is_test o) l (o_capture_first o).

(** One word: it either starts a use, or adds an attribute to the last one, or
    changes at most the pending test. *)
Lemma runc_word src w s after test :
  word_ok src w -> ordered after (word_marks w) -> ready after test s ->
  let use := match os_objects s with [] => first_use_of w | _ => use_of w end in
  exists s', runc src s (cap_word w) = Some s' /\
    match use with
    | Some (t, f) => os_objects s' = os_objects s ++ [mkobj (snd t) (loc t) f test [] false] /\
                     ready (marks_end after (word_marks w)) false s'
    | None =>
        ready (marks_end after (word_marks w)) (test || is_word w) s' /\
        match w with
        | WAttr a => (os_objects s = [] /\ os_objects s' = []) \/
                     exists os o, os_objects s = os ++ [o] /\
                       os_objects s' = os ++ [obj_add_field (field_of a) o]
        | _ => os_objects s' = os_objects s
        end
    end.
Proof.
  intros Hw Ho Hs use. pose proof Hs as (T1 & T2 & T3).
  destruct w as [n|t|a|p name|kw|t]; cbn [word_ok cap_word word_marks first_use_of use_of] in *.
  - subst use. replace (match os_objects s with [] => None | _ => None end) with (@None (tok * bool)) by now destruct (os_objects s).
    eexists. split; [reflexivity|]. cbn [is_word]. rewrite orb_false_r. split; [|reflexivity].
    unfold marks_end; cbn [fold_left mark_end]. apply (ready_le after); [exact Hs|apply pt_max_l].
  - cbn [ordered] in Ho. destruct Ho as (A & B & _).
    replace use with (if builtin_name (snd t) then None else Some (t, false)) by (subst use; now destruct (os_objects s)).
    destruct (builtin_name (snd t)) eqn:E; rewrite builtin_name_mem in E.
    + cbn [runc]. rewrite check_id_builtin; [|exact Hw|now apply str_mem_built_in|pts].
      exists s. split; [reflexivity|]. cbn [is_word]. rewrite orb_false_r. split; [|reflexivity].
      cbn. eapply ready_le; eauto. pts.
    + cbn [runc]. rewrite (check_id_new src s t _ Hw E eq_refl B ltac:(pts)).
      eexists. split; [reflexivity|]. cbn [os_objects]. rewrite T1.
      rewrite (pt_eqb_neq (snd (os_pipe s)) (n_start (fst t))) by pts.
      split; [reflexivity|]. unfold ready; cbn. repeat split; pts.
  - destruct Hw as (Hd & Hn & Hadj). cbn [marks_access ordered] in Ho. destruct Ho as (H1 & H2 & H3 & H4 & _).
    unfold cap_access.
    set (s1 := mkobjs (os_objects s) (n_start (a_dot a), n_end (a_dot a)) (os_pipe s) (os_test s)
                 (os_expr s) (os_ident s)).
    assert (Hop : forall s, obj_check src s (cap CPipe (a_dot a)) = Ok (s, Some ANewFilter)).
    { intros s0. apply (check_op src s0 (a_dot a, "."%string) Hd). intros [r Er]. discriminate. }
    assert (Hdo : obj_check src s (cap CDot (a_dot a)) = Ok (s1, Some ANewField)) by reflexivity.
    assert (Hdc : forall cs, runc src s ((if a_dot_first a then [cap CDot (a_dot a); cap CPipe (a_dot a)]
       else [cap CPipe (a_dot a); cap CDot (a_dot a)]) ++ cs) = runc src s1 cs).
    { intros cs. destruct (a_dot_first a); cbn [app runc].
      - now rewrite Hdo, Hop.
      - now rewrite Hop, Hdo. }
    rewrite Hdc. cbn [runc]. subst use.
    destruct (snoc_or_nil (os_objects s)) as [E|(os & o & E)].
    + rewrite E. unfold obj_check; cbn [c_name c_node cap]. unfold build_object.
      destruct Hn as [Hr _]. rewrite Hr. cbn [bind]. subst s1. cbn [os_dot os_objects snd].
      rewrite Hadj, !N.eqb_refl, E. cbn [andb]. unfold new_object.
      rewrite <- builtin_name_mem. destruct (builtin_name (snd (a_name a))).
      * cbn [bind fst snd]. eexists. split; [reflexivity|]. cbn [is_word os_objects]. rewrite orb_false_r.
        split; [|left; auto]. unfold ready, marks_end; cbn. repeat split; auto; pts.
      * cbn [bind fst snd]. eexists. split; [reflexivity|]. cbn [os_objects os_test os_pipe os_ident os_dot os_expr].
        assert (Ef : is_filter (mkobjs [] (n_start (a_dot a), n_start (fst (a_name a))) (os_pipe s) (os_test s)
           (os_expr s) (n_start (fst (a_name a)), n_end (fst (a_name a)))) = false).
        { unfold is_filter; cbn. apply pt_eqb_neq. pts. }
        rewrite Ef, andb_false_r, T1. split; [reflexivity|].
        unfold ready, marks_end; cbn. repeat split; pts.
    + assert (Hne : match os_objects s with [] => if builtin_name (snd (a_name a)) then None else Some (a_name a, false) | _ => None end = None).
      { rewrite E. now destruct os. }
      rewrite Hne. rewrite (check_field src s1 (a_name a) os o Hn E Hadj).
      eexists. split; [reflexivity|]. cbn [is_word]. rewrite orb_false_r. split.
      * unfold ready, marks_end; cbn. rewrite Hadj. repeat split; auto; pts.
      * right. exists os, o. auto.
  - destruct Hw as (Hr & Hpi & Hadj & Hn). cbn [ordered] in Ho.
    destruct Ho as (A & B & C & D & _). cbn [runc]. rewrite check_pipe by assumption. cbn [runc].
    set (s1 := mkobjs _ _ _ _ _ _).
    replace use with (if builtin_name (snd name) then None else Some (name, true)) by (subst use; now destruct (os_objects s)).
    destruct (builtin_name (snd name)) eqn:E; rewrite builtin_name_mem in E.
    + rewrite check_id_builtin; [|exact Hn|now apply str_mem_built_in|cbn; pts].
      eexists. split; [reflexivity|]. cbn [is_word]. rewrite orb_false_r. split; [|reflexivity].
      unfold ready, marks_end; cbn. rewrite Hadj. repeat split; auto; pts.
    + rewrite (check_id_new src s1 name _ Hn E eq_refl D) by (cbn; pts).
      eexists. split; [reflexivity|]. cbn. rewrite T1. unfold loc at 1; cbn.
      rewrite Hadj, pt_eqb_refl. split; [reflexivity|].
      unfold ready; cbn. rewrite Hadj. repeat split; pts.
  - cbn [ordered] in Ho. destruct Ho as (A & B & _).
    replace use with (@None (tok * bool)) by (subst use; now destruct (os_objects s)).
    eexists. split; [reflexivity|]. cbn [is_word]. rewrite orb_true_r. split; [|reflexivity].
    unfold ready; cbn. repeat split; pts.
  - destruct Hw as (Hr & Hb & _). cbn [ordered] in Ho. destruct Ho as (A & B & _).
    replace use with (@None (tok * bool)) by (subst use; now destruct (os_objects s)).
    cbn [runc]. rewrite check_op; auto. exists s. split; [reflexivity|]. cbn [is_word]. rewrite orb_false_r.
    split; [|reflexivity]. cbn. eapply ready_le; eauto. pts.
Qed.

(** The rest of the words, when some use is recorded already. *)
Lemma runc_words_more src ws : forall s after test os o,
  Forall (word_ok src) ws -> ordered after (flat_map word_marks ws) -> ready after test s ->
  os_objects s = os ++ [o] ->
  exists s', runc src s (cap_words ws) = Some s' /\
    os_objects s' = os ++ set_fields o (o_fields o ++ attributes ws) :: recorded_from use_of test ws.
Proof.
  induction ws as [|w ws IH]; intros s after test os o HF Ho Hs E.
  - exists s. split; [reflexivity|]. cbn. rewrite app_nil_r, E. destruct o; reflexivity.
  - inversion HF as [|? ? Hw HF']; subst. cbn [flat_map] in Ho. apply ordered_app in Ho.
    destruct Ho as (O1 & O2). destruct (runc_word src w s after test Hw O1 Hs) as (s1 & R1 & E1).
    assert (Hu : match os_objects s with [] => first_use_of w | _ => use_of w end = use_of w).
    { rewrite E. now destruct os. }
    cbv zeta in E1. rewrite Hu in E1. unfold cap_words in *. cbn [flat_map attributes recorded_from].
    rewrite runc_app, R1.
    destruct (use_of w) as [[t f]|] eqn:U.
    + destruct E1 as (E1 & S1). rewrite E in E1.
      destruct (IH s1 _ false (os ++ [o]) _ HF' O2 S1 E1) as (s2 & R2 & E2).
      exists s2. split; [exact R2|]. rewrite E2, <- app_assoc, app_nil_r. destruct o; reflexivity.
    + destruct E1 as (S1 & E1).
      assert (K : exists o', os_objects s1 = os ++ [o'] /\
                set_fields o' (o_fields o' ++ attributes ws) =
                set_fields o (o_fields o ++ match w with WAttr a => field_of a :: attributes ws | _ => attributes ws end)).
      { destruct w; try (exists o; split; [now rewrite E1, E|reflexivity]).
        destruct E1 as [(E1 & _)|(os' & o' & E1 & E2)].
        - rewrite E in E1. now destruct os.
        - rewrite E in E1. apply app_inj_tail in E1. destruct E1; subst os' o'.
          eexists. split; [exact E2|]. unfold set_fields, obj_add_field; cbn. now rewrite <- app_assoc. }
      destruct K as (o' & K1 & K2).
      destruct (IH s1 _ _ os o' HF' O2 S1 K1) as (s2 & R2 & E2).
      exists s2. split; [exact R2|]. rewrite E2, K2. reflexivity.
Qed.
Lemma runc_words src ws : forall s after test,
  Forall (word_ok src) ws -> ordered after (flat_map word_marks ws) -> ready after test s ->
  os_objects s = [] ->
  exists s', runc src s (cap_words ws) = Some s' /\ os_objects s' = recorded_from first_use_of test ws.
Proof.
  induction ws as [|w ws IH]; intros s after test HF Ho Hs E.
  - exists s. split; [reflexivity|exact E].
  - inversion HF as [|? ? Hw HF']; subst. cbn [flat_map] in Ho. apply ordered_app in Ho.
    destruct Ho as (O1 & O2). destruct (runc_word src w s after test Hw O1 Hs) as (s1 & R1 & E1).
    cbv zeta in E1. rewrite E in E1. unfold cap_words in *. cbn [flat_map recorded_from].
    rewrite runc_app, R1.
    destruct (first_use_of w) as [[t f]|] eqn:U.
    + destruct E1 as (E1 & S1). cbn [app] in E1.
      exact (runc_words_more src ws s1 _ false [] _ HF' O2 S1 E1).
    + destruct E1 as (S1 & E1). apply (IH s1 _ _ HF' O2 S1).
      destruct w; auto. destruct E1 as [(_ & E1)|([|] & o & E1 & _)]; [exact E1|discriminate..].
Qed.

Lemma words_exact b src ms tp ws tail :
  words_ok src ws -> concat ms = cap_words ws ++ tail -> stops tail ->
  exists s, objects_query b ms tp src true = Ok s /\ os_objects s = recorded_uses ws.
Proof.
  intros (HF & p0 & Hp0 & Ho) E Ht.
  destruct (runc_words src ws jobjects0 p0 false HF Ho) as (s & R & Eo).
  { repeat split; cbn; auto. }
  { reflexivity. }
  exists s. split; [|exact Eo]. unfold objects_query. rewrite E.
  unfold oloop0. rewrite (run_runc b src tp true tail false 0 _ (cap_words ws) jobjects0 s).
  - destruct Ht as [->|(c & r & -> & Hc)]; [reflexivity|].
    cbn [run]. unfold obj_step. cbn [orb l_objs]. unfold obj_check. rewrite Hc. reflexivity.
  - apply Forall_forall. auto.
  - exact R.
Qed.

(** ** Consequences *)
Fixpoint pending (use : word -> option (tok * bool)) (test : bool) (ws : list word) : bool :=
  match ws with
  | [] => test
  | w :: r => match use w with Some _ => pending use_of false r | None => pending use (test || is_word w) r end
  end.
Lemma first_use_of_use w x : use_of w = Some x -> first_use_of w = Some x.
Proof. destruct w; cbn; auto. discriminate. Qed.
Lemma recorded_at pre w t f rest : use_of w = Some (t, f) -> forall use test,
  use = first_use_of \/ use = use_of ->
  exists l, recorded_from use test (pre ++ w :: rest) =
    l ++ mkobj (snd t) (loc t) f (pending use test pre) (attributes rest) false :: recorded_from use_of false rest.
Proof.
  intros U. induction pre as [|x pre IH]; intros use test Hu; cbn [app recorded_from pending].
  - exists []. assert (E : use w = Some (t, f)) by (destruct Hu; subst; auto using first_use_of_use).
    rewrite E. reflexivity.
  - destruct (use x) as [[t' f']|].
    + destruct (IH use_of false (or_intror eq_refl)) as (l & E). rewrite E. eexists (_ :: l). reflexivity.
    + exact (IH use _ Hu).
Qed.
Definition a_use (use : word -> option (tok * bool)) : Prop := use = first_use_of \/ use = use_of.
Lemma pending_kept z : forall use, a_use use -> Forall no_use z -> Forall no_attribute z -> pending use true z = true.
Proof.
  induction z as [|w z IH]; intros use Hu H1 H2; [reflexivity|].
  inversion H1 as [|? ? A B]; inversion H2 as [|? ? C D]; subst. cbn [pending].
  assert (E : use w = None). { destruct Hu; subst; [|exact A]. unfold no_use in A. destruct w; cbn in *; auto. easy. }
  rewrite E. cbn [orb]. now apply IH.
Qed.
Lemma pending_true ws : forall use test, a_use use -> is_pending ws -> pending use test ws = true.
Proof.
  intros use test Hu (a & kw & z & -> & H1 & H2). revert use test Hu.
  induction a as [|w a IH]; intros use test Hu; cbn [app pending].
  - assert (E : use (WIs kw) = None) by (destruct Hu; now subst). rewrite E. cbn [is_word]. rewrite orb_true_r.
    now apply pending_kept.
  - destruct (use w); apply IH; [right; reflexivity|exact Hu].
Qed.
Lemma pending_none z : forall use, a_use use -> Forall (fun w => is_word w = false) z -> pending use false z = false.
Proof.
  induction z as [|w z IH]; intros use Hu H; [reflexivity|]. inversion H as [|? ? A B]; subst. cbn [pending].
  rewrite A. destruct (use w); apply IH; auto. now right.
Qed.
Lemma pending_false ws : forall use, a_use use -> no_is_pending ws -> pending use false ws = false.
Proof.
  intros use Hu (a & z & -> & H & [->|(a' & u & -> & U)]); [now apply pending_none|].
  rewrite <- app_assoc. cbn [app]. revert use Hu. generalize false at 1.
  induction a' as [|w a' IH]; intros test use Hu; cbn [app pending].
  - assert (E : use u <> None).
    { destruct Hu; subst; [|exact U]. destruct (use_of u) eqn:E; [|easy]. now rewrite (first_use_of_use _ _ E). }
    destruct (use u); [|easy]. apply pending_none; [now right|exact H].
  - destruct (use w); apply IH; [now right|exact Hu].
Qed.
Lemma attributes_own fs : forall rest, attributes (map WAttr fs ++ rest) = map field_of fs ++ attributes rest.
Proof. induction fs as [|a fs IH]; intros rest; [reflexivity|]. cbn. now rewrite IH. Qed.

(** C57: the object of a name. *)
Lemma name_owns b src ms tp pre h fs post tail :
  let ws := pre ++ WName h :: map WAttr fs ++ post in
  words_ok src ws -> builtin_name (snd h) = false -> concat ms = cap_words ws ++ tail -> stops tail ->
  exists s o, objects_query b ms tp src true = Ok s /\ In o (os_objects s) /\
    o_name o = snd h /\ o_loc o = loc h /\ o_fields o = map field_of fs ++ attributes post.
Proof.
  intros ws Hok Hb E Ht. destruct (words_exact b src ms tp ws tail Hok E Ht) as (s & Q & O).
  destruct (recorded_at pre (WName h) h false (map WAttr fs ++ post)) with (use := first_use_of) (test := false)
    as (l & L); [cbn [use_of]; now rewrite Hb|now left|].
  exists s. eexists. split; [exact Q|]. split; [rewrite O; unfold recorded_uses, ws; rewrite L; apply in_or_app; right; now left|].
  cbn [o_name o_loc o_fields]. now rewrite attributes_own.
Qed.
(** C58: whether it is taken for a test. *)
Lemma name_test b src ms tp pre h post tail :
  let ws := pre ++ WName h :: post in
  words_ok src ws -> builtin_name (snd h) = false -> concat ms = cap_words ws ++ tail -> stops tail ->
  exists s o, objects_query b ms tp src true = Ok s /\ In o (os_objects s) /\
    o_name o = snd h /\ o_loc o = loc h /\ o_is_filter o = false /\
    (is_pending pre -> o_is_test o = true) /\ (no_is_pending pre -> o_is_test o = false).
Proof.
  intros ws Hok Hb E Ht. destruct (words_exact b src ms tp ws tail Hok E Ht) as (s & Q & O).
  destruct (recorded_at pre (WName h) h false post) with (use := first_use_of) (test := false)
    as (l & L); [cbn [use_of]; now rewrite Hb|now left|].
  exists s. eexists. split; [exact Q|]. split; [rewrite O; unfold recorded_uses, ws; rewrite L; apply in_or_app; right; now left|].
  cbn [o_name o_loc o_is_filter o_is_test]. repeat split; intros; [apply pending_true|apply pending_false]; auto; now left.
Qed.
