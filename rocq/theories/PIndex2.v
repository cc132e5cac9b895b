(** * PIndex2: from a template to the rest of the workspace (C131). *)
From Verif Require Import Base RString Utf8 Rope Types Captures MTemplates MDefinition MObjects MLspFiles MSearchErrors MLspTask MChannels MQueries.
From Verif Require Import SpecText SpecFiles SpecBackend SpecScope SpecScope2 SpecObjects SpecLint SpecNav SpecConfig SpecChannels SpecServer SpecClient SpecQueries SpecQueries2 SpecQueries4 SpecQueries5 SpecQueries6 SpecScreen SpecCode SpecSettings SpecIndex.
From Verif Require Import PUtf8 PText PText2 PFiles POrder PObjects PLint PLint2 PLint3 PScope3 PConfig PBackend PQueries PQueries2 PQueries3 PQueries4 PQueries6 PChannels PChannels2 PChannels3 PChannels4 PChannels5 PServer PClient PClient2 PQueries11 PScreen PCode PCode2 PCode3 PCode4 PHistory PIndex.

Lemma Forall2_In_r {A B} (P : A -> B -> Prop) l l' : Forall2 P l l' -> forall y, In y l' -> exists x, In x l /\ P x y.
Proof. induction 1 as [|x y l l' Hxy _ IH]; intros w Hw; [destruct Hw|]. destruct Hw as [<-|Hw]; [exists x; split; [now left|exact Hxy]|]. destruct (IH w Hw) as (v & Hv & Hp). exists v. split; [now right|exact Hp]. Qed.

Section Index.
Variables (parse : plang -> string -> option stree -> option stree) (edit : stree -> input_edit -> stree).
Notation T := (ts_with parse edit).
Variables (url : url_parser) (b : build).
Hypothesis Hpt : parse_total T.

(** The variables of a file on the disk are those written in it. *)
Lemma vars_written F c (d : lsp_files T) u nm p q : SpecConfig.indexed F (SpecConfig.lang_of c) (entry F c) d -> sound_workspace parse F c ->
  (exists vs v, sget u (ls_vars d) = Some vs /\ In v vs /\ id_name v = nm /\ id_start v = p /\ id_end v = q) <-> written_at parse F c u nm p q.
Proof.
  intros I W. split.
  - intros (vs & v & Hu & Hv & <- & <- & <-). destruct (ix_vars _ _ _ _ I u vs Hu) as (l & t & old & tr0 & Hd & _).
    destruct (W _ _ _ Hd) as (_ & R). destruct l.
    + destruct R as (tr & tp & ps & sts & R). destruct (stored_template parse edit F c d u t tr tp ps sts I W Hd R) as (_ & _ & dq & Hq & Ed).
      rewrite Hu in Hq. injection Hq as ->. apply (WaTemplate _ _ _ _ _ _ _ t tr tp ps sts (decl_of_id v)); auto. rewrite <- Ed. now apply in_map.
    + destruct R as (tr & R). destruct (stored_code parse edit F c d u t tr I W Hd R) as (vs' & Hq & Hin). rewrite Hu in Hq. injection Hq as <-.
      apply Hin in Hv. destruct Hv as [(n & nm & Hh & ->)|(n & (ar & Hl) & ->)].
      * exact (WaHanded _ _ _ _ _ _ _ t tr n Hd R Hh eq_refl eq_refl).
      * exact (WaLoaded _ _ _ _ _ _ _ t tr ar n Hd R Hl eq_refl eq_refl eq_refl).
  - intros [t tr tp ps sts dc Hd R Hdc <- <- <-|t tr n Hd R Hh <- <-|t tr ar n Hd R Hl <- <- <-].
    + destruct (stored_template parse edit F c d u t tr tp ps sts I W Hd R) as (_ & _ & dq & Hq & Ed).
      rewrite <- Ed in Hdc. apply in_map_iff in Hdc. destruct Hdc as (v & <- & Hv). exists (def_identifiers dq), v. auto.
    + destruct (stored_code parse edit F c d u t tr I W Hd R) as (vs & Hq & Hin). exists vs, (at_node BackendVariable n nm).
      split; [exact Hq|]. split; [apply Hin; left; eauto|auto].
    + destruct (stored_code parse edit F c d u t tr I W Hd R) as (vs & Hq & Hin). exists vs, (at_node JinjaTemplate n (snd (loaded_ref (encode t) n))).
      split; [exact Hq|]. split; [|auto]. apply Hin. right. exists n. split; [eauto|reflexivity].
Qed.
Lemma only_other uri u m : only uri m -> u <> uri -> unrefreshed u m.
Proof. destruct m; cbn; congruence. Qed.
(** After the indexing, whatever was done to [uri]. *)
Lemma others_written a s x uri F c : replay url b (task0 T) a = Ok (s, x) -> indexed_but T url b a uri F c -> usable F c -> sound_workspace parse F c ->
  forall u nm p q, (exists v, In (u, v) (other_vars uri (ls_vars (tk_data s))) /\ id_name v = nm /\ id_start v = p /\ id_end v = q) <->
    u <> uri /\ written_at parse F c u nm p q.
Proof.
  intros Hr (pre & post & s0 & x0 & -> & Hpost & R0 & Hc) (Hl & Hw) W u nm p q.
  assert (K : keyed (tk_data s)) by (eapply keyed_reach; exact Hr).
  destruct (replay_split url b _ _ _ _ _ Hr) as (s0' & x' & trB & R1 & R2 & _). rewrite R0 in R1. injection R1 as <- <-. cbn [replay] in R2.
  destruct (MLspTask.step F url b s0 MInitialized) as [(s1 & es)|] eqn:Es; [|discriminate]. destruct (replay url b s1 post) as [(s3 & trC)|] eqn:E3; [|discriminate]. injection R2 as <- <-.
  cbn [MLspTask.step] in Es.
  destruct (do_initialized_cases F b s0 s1 es Hpt Es) as [(_ & _ & _ & _ & I & _)|([Hn|Hn] & _)]; rewrite Hc in *; [|now elim Hn|now elim Hn].
  assert (Hsame : u <> uri -> sget u (ls_vars (tk_data s3)) = sget u (ls_vars (tk_data s1))).
  { intros Hu. eapply replay_vars; [|exact E3]. eapply Forall_impl; [|exact Hpost]. intros m Hm. now apply (only_other uri). }
  rewrite <- (vars_written F c (tk_data s1) u nm p q I W). unfold other_vars. split.
  - intros (v & Hv & E). apply in_flat_map in Hv. destruct Hv as ((k & vs) & Hk & Hv). apply filter_In in Hk. destruct Hk as (Hk & Hne). cbn [fst snd] in *.
    apply in_map_iff in Hv. destruct Hv as (v' & Ev & Hv). injection Ev as -> ->. apply negb_true_iff, String.eqb_neq in Hne. split; [exact Hne|].
    exists vs, v. split; [|now split]. rewrite <- (Hsame Hne). apply (In_sget _ _ _ (proj1 K)). exact Hk.
  - intros (Hne & vs & v & Hg & Hv & E). exists v. split; [|exact E]. rewrite <- (Hsame Hne) in Hg. apply in_flat_map. exists (u, vs). split.
    + apply filter_In. split; [now apply sget_In|]. cbn [fst]. now apply negb_true_iff, String.eqb_neq.
    + now apply (in_map (pair u)).
Qed.

Lemma handed_known a s x uri F c u t tr n nm : replay url b (task0 T) a = Ok (s, x) -> indexed_but T url b a uri F c -> usable F c -> sound_workspace parse F c ->
  u <> uri -> on_disk F (entry F c) u t Backend -> code_conveys parse (SpecConfig.lang_of c) t tr -> handing (SpecConfig.lang_of c) (encode t) tr n nm ->
  exists vs, sget u (ls_vars (tk_data s)) = Some vs /\ In (at_node BackendVariable n nm) vs.
Proof.
  intros Hr (pre & post & s0 & x0 & -> & Hpost & R0 & Hc) (Hl & Hw) W Hu Hd R Hh.
  destruct (replay_split url b _ _ _ _ _ Hr) as (s0' & x' & trB & R1 & R2 & _). rewrite R0 in R1. injection R1 as <- <-. cbn [replay] in R2.
  destruct (MLspTask.step F url b s0 MInitialized) as [(s1 & es)|] eqn:Es; [|discriminate]. destruct (replay url b s1 post) as [(s3 & trC)|] eqn:E3; [|discriminate]. injection R2 as <- <-.
  cbn [MLspTask.step] in Es.
  destruct (do_initialized_cases F b s0 s1 es Hpt Es) as [(_ & _ & _ & _ & I & _)|([Hn|Hn] & _)]; rewrite Hc in *; [|now elim Hn|now elim Hn].
  destruct (stored_code parse edit F c (tk_data s1) u t tr I W Hd R) as (vs & Hq & Hin). exists vs. split; [|apply Hin; left; eauto].
  rewrite <- Hq. eapply replay_vars; [|exact E3]. eapply Forall_impl; [|exact Hpost]. intros m Hm. now apply (only_other uri).
Qed.

Section Asked.
Variables (l : list action) (y : sys T) (sy : task_state T) (a : list (msg * fs)) (F0 : fs) (z : list (msg * fs)) (rid : N).
Hypothesis He : exec url b (sys0 T) l = Some y.
Hypothesis Hidle : y_task y = TIdle sy.
Variables (uri : string) (t0 : text) (tr0 : stree) (tp0 : tpl) (ps0 : list piece) (sts0 : list istmt).
Variables (t : text) (tr : stree) (tp : tpl) (ps : list piece) (sts : list istmt).
Hypothesis Hx : file_ext uri = Some Template.
Hypothesis Hlast : last_read uri (map fst a) t0 t.
Hypothesis R0 : conveys parse t0 tr0 tp0 ps0 sts0.
Hypothesis R : conveys parse t tr tp ps sts.
Variables (F : fs) (c : config).
Hypothesis Hin : indexed_but T url b a uri F c.
Hypothesis Hus : usable F c.
Hypothesis Hw : sound_workspace parse F c.
Notation ds0 := (defines tr0 tp0).

Lemma others_hover h fs pos : y_taken y = a ++ (MHover rid uri pos, F0) :: z ->
  In (h, fs) (chains ps) -> cursor_on tr (point_of pos) (fst h) -> (forall d, In d ds0 -> ~ hover_sees (n_start (fst h)) (snd h) d) ->
  exists r, In (rid, r) (y_replies y) /\
    ((r = RHover (DocKind "Backend variable") /\ exists u nm p q, u <> uri /\ written_at parse F c u nm p q /\ heads (snd h) nm = true) \/
     (r = RNull /\ forall u nm p q, u <> uri -> written_at parse F c u nm p q -> heads (snd h) nm = false)).
Proof.
  intros Ht Hc Hon Hno.
  destruct (asked_hover parse edit url b Hpt l y sy a F0 z rid He Hidle uri t0 tr0 tp0 ps0 sts0 t tr tp ps sts Hx Hlast R0 R h [] fs pos Ht Hc Hon) as (s & x & r & Hr & Htl & Hrin).
  exists (match r with Some d => RHover d | None => RNull end). split; [exact Hrin|]. pose proof (others_written a s x uri F c Hr Hin Hus Hw) as HW.
  destruct Htl as [(d & (Hd & Hsee & _) & _)|[(_ & ((u & v) & Hv & Hh) & ->)|(_ & Hf & ->)]]; [exfalso; eapply Hno; eauto|left|right]; (split; [reflexivity|]).
  - cbn [snd] in Hh. destruct (proj1 (HW u (id_name v) (id_start v) (id_end v))) as (Hne & Hwa); [eauto|]. exists u, (id_name v), (id_start v), (id_end v). auto.
  - intros u nm p q Hne Hwa. destruct (proj2 (HW u nm p q) (conj Hne Hwa)) as (v & Hv & <- & _). exact (Hf _ Hv).
Qed.
Lemma others_goto h fs pos : y_taken y = a ++ (MGoto rid uri pos, F0) :: z ->
  In (h, fs) (chains ps) -> cursor_on tr (point_of pos) (fst h) -> no_string_at tr (point_of pos) ->
  (forall d, In d ds0 -> ~ goto_sees (point_of pos) (snd h) d) ->
  (forall u nm p q, u <> uri -> written_at parse F c u nm p q -> small p /\ small q /\ q <> pt0 /\ url u <> None) ->
  exists locs, In (rid, RGoto (GArray locs)) (y_replies y) /\
    forall v r, In (mkloc v r) locs <->
      exists u nm p q, u <> uri /\ written_at parse F c u nm p q /\ heads (snd h) nm = true /\ url u = Some v /\ r = lsp_range p q.
Proof.
  intros Ht Hc Hon Hns Hno Hsm.
  destruct (asked_goto_else parse edit url b Hpt l y sy a F0 z rid He Hidle uri t0 tr0 tp0 ps0 sts0 t tr tp ps sts Hx Hlast R0 R h fs pos Ht Hc Hon Hns Hno) as (s & x & Hr & Hg).
  pose proof (others_written a s x uri F c Hr Hin Hus Hw) as HW.
  assert (HW1 : forall u v, In (u, v) (other_vars uri (ls_vars (tk_data s))) -> u <> uri /\ written_at parse F c u (id_name v) (id_start v) (id_end v)).
  { intros u v Hv. apply HW. eauto. }
  assert (Et : forall u v, In (u, v) (other_vars uri (ls_vars (tk_data s))) -> target_name (u, v) = u).
  { intros u v Hv. destruct (HW1 u v Hv) as (Hne & Hwa). destruct (Hsm _ _ _ _ Hne Hwa) as (_ & _ & Hq & _). unfold target_name. cbn [snd fst].
    destruct (pt_eqb (id_end v) pt0) eqn:Ee; [apply pt_eqb_eq in Ee; contradiction|]. now rewrite andb_false_r. }
  destruct Hg as (locs & HF & Hlin).
  - apply Forall_forall. intros (u & v) Hv. destruct (HW1 u v Hv) as (Hne & Hwa). destruct (Hsm _ _ _ _ Hne Hwa) as (H1 & H2 & _). split; assumption.
  - apply Forall_forall. intros (u & v) Hv. apply filter_In in Hv. destruct Hv as (Hv & _). rewrite (Et u v Hv). destruct (HW1 u v Hv) as (Hne & Hwa). now destruct (Hsm _ _ _ _ Hne Hwa) as (_ & _ & _ & H4).
  - exists locs. split; [exact Hlin|]. intros v r. split.
    + intros Hl. destruct (Forall2_In_r _ _ _ HF _ Hl) as ((u & i) & Hi & Hf1 & Hf2). apply filter_In in Hi. destruct Hi as (Hi & Hh). cbn [snd loc_uri loc_range] in *.
      destruct (HW1 u i Hi) as (Hne & Hwa). rewrite (Et u i Hi) in Hf1. exists u, (id_name i), (id_start i), (id_end i). repeat split; auto.
    + intros (u & nm & p & q & Hne & Hwa & Hh & Hv & ->). destruct (proj2 (HW u nm p q) (conj Hne Hwa)) as (i & Hi & <- & <- & <-).
      assert (Hfi : In (u, i) (filter (fun fv => heads (snd h) (id_name (snd fv))) (other_vars uri (ls_vars (tk_data s))))) by (apply filter_In; split; [exact Hi|exact Hh]).
      destruct (Forall2_In_l _ _ _ HF _ Hfi) as ((lu & lr) & Hlc & Hf1 & Hf2). cbn [snd loc_uri loc_range] in *. rewrite (Et u i Hi), Hv in Hf1. injection Hf1 as <-. now subst lr.
Qed.
Lemma others_complete pos ctx ps1 ps2 : y_taken y = a ++ (MCompletion rid uri pos ctx, F0) :: z -> ps = ps1 ++ ps2 ->
  ctx = Some TkInvoked \/ ctx = Some TkTriggerCharacter -> between (point_of pos) ps1 ps2 -> SpecObjects.inside ps1 (point_of pos) ->
  exists items, In (rid, RCompletion (map RItem items)) (y_replies y) /\
    forall u t1 tr1 n nm, u <> uri -> on_disk F (entry F c) u t1 Backend -> code_conveys parse (SpecConfig.lang_of c) t1 tr1 -> handing (SpecConfig.lang_of c) (encode t1) tr1 n nm ->
      exists i, In i items /\ ci_label i = nm /\ ci_detail i = Some "Backend variable"%string.
Proof.
  intros Ht Ep Hctx Hb Hi.
  destruct (asked_complete parse edit url b Hpt l y sy a F0 z rid He Hidle uri t0 tr0 tp0 ps0 sts0 t tr tp ps sts Hx Hlast R0 R pos ctx ps1 ps2 Ht Ep Hctx Hb Hi) as (s & x & items & Hr & Ho & Hin').
  exists items. split; [exact Hin'|]. intros u t1 tr1 n nm Hne Hd Rc Hh.
  destruct (handed_known a s x uri F c u t1 tr1 n nm Hr Hin Hus Hw Hne Hd Rc Hh) as (vs & Hvs & Hvin).
  pose proof (supplied_all parse edit _ u vs _ Hvs Hvin) as Hall. destruct Ho as (local & back & -> & _ & _ & _ & _ & _ & _ & HF).
  assert (Hf : In (u, at_node BackendVariable n nm) (filter is_backend (all_vars (ls_vars (tk_data s))))) by (apply filter_In; split; [exact Hall|reflexivity]).
  destruct (Forall2_In_l _ _ _ HF _ Hf) as (i & Hib & (P1 & P2 & _) & _). exists i. split; [apply in_or_app; now right|]. split; [exact P1|exact P2].
Qed.
End Asked.
End Index.
