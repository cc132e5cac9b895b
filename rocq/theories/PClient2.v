(** * PClient2: when the diagnostics on the screen are still right (C91). *)
From Verif Require Import Base RString Utf8 Rope Types Captures.
From Verif Require Import MDefinition MObjects MTemplates MSearchErrors MLspFiles MLspTask MChannels MBackend.
From Verif Require Import SpecText SpecFiles SpecScope SpecScope2 SpecObjects SpecLint SpecConfig SpecChannels SpecServer SpecClient.
From Verif Require Import PText PText2 PUtf8 POrder PFiles PScope PObjects PLint PLint2 PLint3 PConfig PChannels PChannels4 PChannels5 PServer PClient.

(** ** Two reports of the same uses *)

(** ** Published reports of the same uses *)
Lemma diag_split d d' i : (d = Undefined \/ d = DefinedSomewhere) -> (d' = Undefined \/ d' = DefinedSomewhere) ->
  create_diagnostic i (diag_severity d) (diag_message d) = create_diagnostic i (diag_severity d') (diag_message d') -> d = d'.
Proof. intros [->| ->] [->| ->] H; try reflexivity; discriminate H. Qed.
Lemma published_same this (A B : string -> Prop) us : forall e1 e2,
  reported this A us e1 -> reported this B us e2 ->
  length e1 = length e2 /\
  (publish_of e1 = publish_of e2 <->
   forall h fs, In (h, fs) us -> (forall d, In d this -> ~ means (snd h) d) -> (A (snd h) <-> B (snd h))).
Proof.
  induction us as [|u us IH]; intros e1 e2 HA HB.
  - inversion HA; inversion HB; subst. split; [reflexivity|]. split; [intros _ h fs []|reflexivity].
  - destruct u as (h0, fs0).
    inversion HA as [|? ? ? Va RA|? ? ? d Va RA]; subst; inversion HB as [|? ? ? Vb RB|? ? ? d' Vb RB]; subst; cbn [fst snd] in *.
    + destruct (IH _ _ RA RB) as (L & E). split; [exact L|]. rewrite E. split.
      * intros H h fs [Hi|Hi] Hn; [|eauto]. inversion Hi; subst. inversion Va; subst. exfalso. firstorder.
      * intros H h fs Hi. apply (H h fs). now right.
    + exfalso. inversion Va; subst; inversion Vb; subst; firstorder.
    + exfalso. inversion Va; subst; inversion Vb; subst; firstorder.
    + destruct (IH _ _ RA RB) as (L & E). split; [cbn [length]; now rewrite L|]. unfold publish_of in *. cbn [map fst snd]. split.
      * intros H. injection H as H1 H2 H3.
        assert (Hd : d = d').
        { apply (diag_split d d' (use_id (h0, fs0))); [inversion Va; auto|inversion Vb; auto|]. unfold create_diagnostic. congruence. }
        subst d'. intros h fs [Hi|Hi] Hn; [|eapply (proj1 E); eauto]. inversion Hi; subst.
        inversion Va; subst; inversion Vb; subst; try tauto; exfalso; firstorder.
      * intros H. f_equal; [|apply E; intros h fs Hi; apply (H h fs); now right].
        assert (Hd : d = d'); [|now subst]. specialize (H h0 fs0 (or_introl eq_refl)).
        inversion Va; subst; inversion Vb; subst; try reflexivity; exfalso; firstorder.
Qed.

Section Elsewhere.
Context {T : ts} (url : url_parser) (b : build).
Implicit Types s : task_state T.
Definition keeps (u : string) (d d' : lsp_files T) : Prop :=
  sget u (ls_docs d') = sget u (ls_docs d) /\ sget u (ls_tt d') = sget u (ls_tt d) /\
  ls_config d' = ls_config d /\ ls_ignore d' = ls_ignore d.
Lemma keeps_elsewhere u u' (d d' : lsp_files T) : same_elsewhere u' d d' -> u' <> u -> keeps u d d'.
Proof. intros (H & _ & _ & Hc & _ & _ & Hi) Hn. destruct (H u (not_eq_sym Hn)) as (A & B & _). repeat split; assumption. Qed.
Lemma none_for v (ps : list (string * list diagnostic)) qs : (forall x, In x qs -> fst x <> v) -> last_published v (ps ++ qs) = last_published v ps.
Proof.
  intros H. unfold last_published. rewrite rev_app_distr, filter_app.
  replace (filter (fun x => String.eqb (fst x) v) (rev qs)) with (@nil (string * list diagnostic)); [reflexivity|].
  symmetry. assert (Hr : forall x, In x (rev qs) -> fst x <> v) by (intros x Hx; apply H; now apply in_rev). revert Hr.
  induction (rev qs) as [|x l IH]; intros Hr; [reflexivity|]. cbn [filter].
  rewrite (proj2 (String.eqb_neq _ _) (Hr x (or_introl eq_refl))). apply IH. intros y Hy. apply Hr. now right.
Qed.
Lemma step_elsewhere F u v s s' m es :
  (forall u', url u' = Some v -> u' = u) -> elsewhere u m -> step F url b s m = Ok (s', es) ->
  (forall x, In x (flat_map (published_of url) (handed es)) -> fst x <> v) /\ keeps u (tk_data s) (tk_data s').
Proof.
  intros Hu Hm H.
  assert (Q : ~ lints m -> (forall x, In x (flat_map (published_of url) (handed es)) -> fst x <> v)).
  { intros Hq. destruct (step_quiet url b F u s s' m es) as (-> & _); [|exact H|intros x []]. split; [exact Hq|]. destruct m; auto. }
  assert (P : forall u' e, u' <> u -> forall x, In x (flat_map (published_of url) (handed [EDiag [(u', e)]])) -> fst x <> v).
  { intros u' e Hn x. cbn. destruct (url u') as [w|] eqn:Ew; cbn; [|intros []]. intros [<-|[]]. cbn. intros ->. apply Hn, Hu, Ew. }
  destruct m; cbn [step lints elsewhere] in *; try (now elim Hm).
  - split; [apply Q; auto|]. inversion H; subst. cbn. destruct client as [n|]; [|repeat split]. destruct (String.eqb n _); repeat split.
  - destruct (did_open F b uri t false (tk_data s)) as [(d & r)|] eqn:E; cbn [bind snd fst] in H; [|discriminate].
    inversion H; subst. split; [|exact (keeps_elsewhere u uri _ _ (did_open_frame _ _ _ _ _ _ _ _ E) Hm)].
    destruct r as [r|]; [|intros x []]. destruct (did_open_msg _ _ _ _ _ _ _ E) as (e & ->). now apply P.
  - destruct (did_change (tk_next s) uri cs (tk_data s)) as [(d & r)|] eqn:E; cbn [bind snd fst] in H; [|discriminate].
    split; [apply Q; auto|]. apply did_change_frame in E. destruct r; inversion H; subst; exact (keeps_elsewhere u uri _ _ E Hm).
  - destruct (did_save F b uri (tk_data s)) as [(d & r)|] eqn:E; cbn [bind snd fst] in H; [|discriminate].
    inversion H; subst. split; [|exact (keeps_elsewhere u uri _ _ (did_save_frame _ _ _ _ _ _ E) Hm)].
    destruct r as [r|]; [|intros x []]. destruct (did_save_msg _ _ _ _ _ _ E) as (e & ->). now apply P.
  - split; [apply Q; auto|]. destruct (do_completion _ _ _ _ _); cbn [bind] in H; inversion H; subst; repeat split.
  - split; [apply Q; auto|]. destruct (do_hover _ _ _ _); cbn [bind] in H; inversion H; subst; repeat split.
  - split; [apply Q; auto|]. destruct (goto_definition _ _ _ _ _ _) as [r|]; cbn [bind] in H; inversion H; subst. repeat split.
  - split; [apply Q; auto|]. destruct (code_action _ _ _ _) as [[a|]|]; cbn [bind] in H; [|inversion H; subst; repeat split|discriminate].
    destruct (process_code_actions _ _ _ _) as [p|]; cbn [bind] in H; [|discriminate]. destruct (snd p); inversion H; subst; repeat split.
  - split; [apply Q; auto|]. destruct (String.eqb cmd _); inversion H; subst; repeat split.
  - split; [apply Q; auto|]. injection H as <- <-. repeat split.
  - split; [apply Q; auto|]. inversion H; subst. repeat split.
  - split; [apply Q; auto|]. inversion H; subst; repeat split.
Qed.
Lemma replay_elsewhere u v : (forall u', url u' = Some v -> u' = u) -> forall l s s' tr,
  Forall (elsewhere u) (map fst l) -> replay url b s l = Ok (s', tr) ->
  (forall x, In x (flat_map (fun x => flat_map (published_of url) (handed (snd x))) tr) -> fst x <> v) /\ keeps u (tk_data s) (tk_data s').
Proof.
  intros Hu. induction l as [|(m, F) l IH]; intros s s' tr Hq H; cbn [replay map] in *; [inversion H; subst; split; [intros x []|repeat split]|].
  inversion Hq as [|? ? Hm Hq']; subst. destruct (step F url b s m) as [(s1 & es)|] eqn:E; [|discriminate].
  destruct (replay url b s1 l) as [(s2 & tr')|] eqn:E2; [|discriminate]. inversion H; subst.
  destruct (step_elsewhere F u v s s1 m es Hu Hm E) as (A1 & A2 & A3 & A4 & A5). destruct (IH s1 s' tr' Hq' E2) as (B1 & B2 & B3 & B4 & B5).
  split; [|repeat split; congruence]. cbn [flat_map snd]. intros x Hx. apply in_app_or in Hx. destruct Hx; auto.
Qed.
Lemma publish_app e1 e2 : publish_of (e1 ++ e2) = publish_of e1 ++ publish_of e2.
Proof. apply map_app. Qed.
Lemma app_same {A} (a b0 c d : list A) : length a = length c -> (a ++ b0 = c ++ d <-> a = c /\ b0 = d).
Proof.
  intros L. split; [|intros (-> & ->); reflexivity]. revert c L. induction a as [|x a IH]; intros [|y c] L H; try discriminate; [auto|].
  cbn in H. injection H as -> H. injection L as L. destruct (IH c L H) as (-> & ->). auto.
Qed.
Lemma shown_current l (y : sys T) s u v t tr tp ps sts pre F post F' :
  exec url b (sys0 T) l = Some y -> at_rest y -> state_of y s ->
  y_taken y = pre ++ (MDidSave u, F) :: post -> editor_text u (map fst pre) t -> Forall (elsewhere u) (map fst post) ->
  url u = Some v -> (forall u', url u' = Some v -> u' = u) -> file_ext u = Some Template -> scalars t ->
  ls_ignore (tk_data s) = false -> sget u (ls_tt (tk_data s)) = Some tr ->
  parsed T tr (encode t) tp ps sts -> plain_ends tp ->
  exists shown s1 tr1 d es,
    last_published v (y_published y) = Some shown /\
    replay url b (task0 T) (pre ++ [(MDidSave u, F)]) = Ok (s1, tr1) /\
    did_save F' b u (tk_data s) = Ok (d, Some [(u, es)]) /\
    (shown = publish_of es <->
      (forall h fs, In (h, fs) (chains ps) -> (forall d0, In d0 (tallied (t_root_end T tr) tp) -> ~ means (snd h) d0) ->
         (SpecLint.indexed (ls_vars (tk_data s1)) (snd h) <-> SpecLint.indexed (ls_vars d) (snd h))) /\
      publish_of (missing_reports F (cf_templates (ls_config (tk_data s))) sts) =
      publish_of (missing_reports F' (cf_templates (ls_config (tk_data s))) sts)).
Proof.
  intros He Hrest Hs Ht Het Hq Hv Hu Hx Hsc Hi Htr Hp Hst.
  assert (Ha : alive y) by (unfold alive; destruct Hs as [->|(es & ->)]; discriminate).
  assert (Hd : y_diag y <> DDead) by (destruct Hrest as (_ & _ & _ & -> & _); discriminate).
  destruct (publication_order url b l y He Ha Hd) as (s0 & tr0 & later & Hr & Hpub & Hl). rewrite (Hl Hrest), app_nil_r in Hpub.
  destruct (reach_replay url b l y s He Hs) as (tr1 & Hr1). assert (s0 = s) by congruence. subst s0. clear Hr1.
  rewrite Ht in Hr. destruct (replay_split url b _ _ _ _ _ Hr) as (s1 & trA & trB & R1 & R2 & ->). cbn [replay] in R2.
  destruct (step F url b s1 (MDidSave u)) as [(s2 & es)|] eqn:E; [|discriminate].
  destruct (replay url b s2 post) as [(s3 & trC)|] eqn:E3; [|discriminate]. inversion R2; subst s3 trB.
  destruct (replay_elsewhere u v Hu post s2 s trC Hq E3) as (Q1 & Q2 & Q3 & Q4 & Q5).
  assert (Hdoc : sget u (ls_docs (tk_data s1)) = Some t).
  { eapply (replay_text url b u); [congruence|exact Het|reflexivity|exact R1]. }
  pose proof E as E0.
  cbn [step] in E. destruct (did_save F b u (tk_data s1)) as [(d & r)|] eqn:Es; cbn [bind fst snd] in E; inversion E; subst s2 es; clear E.
  cbn [with_data tk_data] in Q2, Q3, Q4, Q5.
  pose proof (did_save_frame F b u _ _ _ Es) as (_ & _ & _ & Hc & _ & _ & Hig).
  assert (Htt : ls_tt d = ls_tt (tk_data s1) /\ ls_docs d = ls_docs (tk_data s1)).
  { unfold did_save in Es. rewrite Hx, Hdoc in Es.
    destruct (add_variables u Template (rope_content t) (delete_variables u (tk_data s1))) as [d1|] eqn:Ea; cbn [bind] in Es; [|discriminate].
    destruct (read_tree F b u d1); cbn [bind] in Es; [|discriminate]. inversion Es; subst.
    apply add_variables_docs in Ea. destruct Ea as (Ed & Ea & _). rewrite Ea, Ed. unfold delete_variables. destruct (sget u (ls_vars _)); split; reflexivity. }
  destruct Htt as (Htt & Hdd).
  destruct (save_any T F b u t tr tp ps sts (tk_data s1)) as (d' & e1 & Hsave & Hrep & _); auto; try congruence.
  rewrite Es in Hsave. inversion Hsave; subst d' r. clear Hsave.
  destruct (save_any T F' b u t tr tp ps sts (tk_data s)) as (d2 & e2 & Hsave2 & Hrep2 & _); auto; try congruence.
  assert (Hcf : ls_config (tk_data s1) = ls_config (tk_data s)) by congruence. rewrite Hcf in *.
  set (m1 := missing_reports F _ sts) in *. set (m2 := missing_reports F' _ sts) in *.
  exists (publish_of (e1 ++ m1)), (with_data d s1). do 3 eexists. split; [|split; [|split; [exact Hsave2|]]].
  - rewrite <- Hpub, flat_map_app. cbn [flat_map snd]. rewrite app_assoc, none_for by exact Q1.
    assert (Ee : flat_map (published_of url) (handed [EDiag [(u, e1 ++ m1)]]) = [(v, publish_of (e1 ++ m1))]) by (cbn; now rewrite Hv).
    rewrite Ee, last_published_snoc, String.eqb_refl. reflexivity.
  - eapply replay_snoc; [exact R1|exact E0].
  - cbn [with_data tk_data]. destruct (published_same _ _ _ _ _ _ Hrep Hrep2) as (L & Eq). rewrite !publish_app, app_same.
    2:{ unfold publish_of. now rewrite !map_length. }
    rewrite Eq. reflexivity.
Qed.
End Elsewhere.
