(** * PSettings: proofs about settings (C111, C112) and unserved documents (C113). *)
From Verif Require Import Base RString Utf8 Rope Types Captures.
From Verif Require Import MDefinition MTemplates MSearchErrors MLspFiles MLspTask MChannels MSettings.
From Verif Require Import SpecText SpecFiles SpecConfig SpecChannels SpecServer SpecClient SpecSettings.
From Verif Require Import PText PFiles PConfig PChannels PClient.

Lemma sget_in {V} k (v : V) m : sget k m = Some v -> In (k, v) m.
Proof.
  unfold sget, hm_get. induction m as [|(k', v') m IH]; [discriminate|]. cbn. destruct (String.eqb_spec k k') as [->|]; intros H; [inversion H; now left|right; auto].
Qed.
Lemma in_sget {V} k (v : V) m : NoDup (map fst m) -> In (k, v) m -> sget k m = Some v.
Proof.
  unfold sget, hm_get. induction m as [|(k', v') m IH]; intros Hn Hi; [destruct Hi|]. cbn in *. inversion Hn as [|? ? Hk Hn']; subst.
  destruct Hi as [Hi|Hi]; [inversion Hi; subst; now rewrite String.eqb_refl|].
  destruct (String.eqb_spec k k') as [->|]; [|auto]. elim Hk. apply (in_map fst) in Hi. exact Hi.
Qed.
Lemma de_strings_spec l : forall r, de_strings l = Some r <-> l = map VStr r.
Proof.
  induction l as [|v l IH]; intros r; cbn [de_strings].
  - split; [intros H; inversion H; reflexivity|]. destruct r; [reflexivity|discriminate].
  - split.
    + destruct v; try discriminate. cbn [de_string]. destruct (de_strings l) as [r'|] eqn:E; [|discriminate]. intros H. inversion H; subst.
      cbn. f_equal. now apply IH.
    + intros H. destruct r as [|x r]; [discriminate|]. cbn in H. inversion H; subst. cbn [de_string]. now rewrite (proj2 (IH r) eq_refl).
Qed.
Lemma de_fields_spec t b l h c : de_fields t b l h = Some c <->
  t = VStr (cf_templates c) /\ b = VArr (map VStr (cf_backend c)) /\ l = VStr (cf_lang c) /\
  h = (match cf_hide c with Some h => VBool h | None => VNull end) /\ cf_user c = false.
Proof.
  unfold de_fields, de_vec, de_flag. split.
  - destruct (de_string t) as [t'|] eqn:Et; [|discriminate]. destruct t; try discriminate. inversion Et; subst.
    destruct b; try discriminate. destruct (de_strings l0) as [r|] eqn:Er; [|discriminate]. apply de_strings_spec in Er. subst l0.
    destruct (de_string l) as [l'|] eqn:El; [|discriminate]. destruct l; try discriminate. inversion El; subst.
    destruct h; try discriminate; intros H; inversion H; subst; cbn; auto.
  - intros (-> & -> & -> & -> & Hu). cbn [de_string]. rewrite (proj2 (de_strings_spec _ _) eq_refl).
    destruct c as [a b' l' u h']. cbn in *. subst u. destruct h'; reflexivity.
Qed.
Lemma de_map_spec m c : NoDup (map fst m) -> (de_map m = Some c <-> object_says m c /\ cf_user c = false).
Proof.
  intros Hn. unfold de_map, object_says. split.
  - destruct (sget "templates" m) as [t|] eqn:Et; [|discriminate]. destruct (sget "backend" m) as [b|] eqn:Eb; [|discriminate].
    destruct (sget "lang" m) as [l|] eqn:El; [|discriminate]. intros H. apply de_fields_spec in H. destruct H as (-> & -> & -> & Hh & Hu).
    apply sget_in in Et, Eb, El. split; [|exact Hu]. split; [exact Et|]. split; [exact Eb|]. split; [exact El|].
    destruct (sget "hide_undefined" m) as [h|] eqn:Eh.
    + subst h. destruct (cf_hide c) as [h|].
      * now apply sget_in.
      * intros v Hv. apply (in_sget _ _ _ Hn) in Hv. congruence.
    + destruct (cf_hide c) as [h|]; [discriminate|]. intros v Hv. apply (in_sget _ _ _ Hn) in Hv. congruence.
  - intros ((Ht & Hb & Hl & Hh) & Hu). rewrite (in_sget _ _ _ Hn Ht), (in_sget _ _ _ Hn Hb), (in_sget _ _ _ Hn Hl).
    apply de_fields_spec. do 3 (split; [reflexivity|]). split; [|exact Hu]. destruct (cf_hide c) as [h|].
    + now rewrite (in_sget _ _ _ Hn Hh).
    + destruct (sget "hide_undefined" m) as [h|] eqn:Eh; [|reflexivity]. apply Hh. now apply sget_in.
Qed.
Lemma config_of_json_spec v c : distinct_keys v -> (config_of_json v = Some c <-> json_says v c /\ cf_user c = false).
Proof.
  intros Hn. unfold json_says. destruct v; cbn [config_of_json distinct_keys] in *;
    try (split; [discriminate|]; intros ([(m & E & _)|(l' & E & _)] & _); discriminate).
  - split.
    + intros H. destruct l as [|t [|b [|l [|h [|? ?]]]]]; try discriminate. apply de_fields_spec in H.
      destruct H as (-> & -> & -> & -> & Hu). split; [|exact Hu]. right. eexists. split; reflexivity.
    + intros ([(m & E & _)|(l' & E & Hl)] & Hu); [discriminate|]. inversion E; subst l'. unfold list_says in Hl. subst l.
      apply de_fields_spec. auto.
  - rewrite (de_map_spec m c Hn). split.
    + intros (H & Hu). split; [|exact Hu]. left. eauto.
    + intros ([(m' & E & H)|(l' & E & _)] & Hu); [|discriminate]. inversion E; subst. auto.
Qed.
Lemma config_of_toml_spec doc c : distinct_doc doc -> (config_of_toml doc = Some c <-> toml_says doc c /\ cf_user c = false).
Proof.
  intros (Hn & Hd). unfold config_of_toml, toml_says. split.
  - destruct (sget "jinja-lsp" doc) as [v|] eqn:E; [|discriminate]. apply sget_in in E. destruct v; try discriminate; intros H.
    + destruct l as [|t [|b [|l [|h more]]]]; try discriminate. apply de_fields_spec in H.
      destruct H as (-> & -> & -> & -> & Hu). split; [|exact Hu]. right. eexists [_; _; _; _], more. split; [exact E|reflexivity].
    + apply (de_map_spec m c (Hd _ _ E)) in H. destruct H as (H & Hu). split; [|exact Hu]. left. eauto.
  - intros ([(m & E & H)|(l & more & E & Hl)] & Hu); rewrite (in_sget _ _ _ Hn E).
    + apply (de_map_spec m c (Hd _ _ E)). auto.
    + unfold list_says in Hl. subst l. cbn [app]. apply de_fields_spec. auto.
Qed.
Lemma toml_file_spec parse F f c :
  (forall src doc, parse src = Some doc -> distinct_doc doc) -> f_toml F = toml_with parse ->
  (file_gives F f c <->
   exists t doc c0, f_read F f = Some t /\ t <> [] /\ parse (encode t) = Some doc /\ toml_says doc c0 /\ user_config c0 c).
Proof.
  intros Hd HF. unfold file_gives. rewrite HF. unfold toml_with. split.
  - intros (t & c0 & Hr & Ht & H & Hc). destruct (parse (encode t)) as [doc|] eqn:E; [|discriminate].
    apply (config_of_toml_spec doc c0 (Hd _ _ E)) in H. destruct H as (H & _). exists t, doc, c0. auto.
  - intros (t & doc & c0 & Hr & Ht & E & H & Hc). exists t, (mkcfg (cf_templates c0) (cf_backend c0) (cf_lang c0) false (cf_hide c0)).
    split; [exact Hr|]. split; [exact Ht|]. rewrite E. split; [|exact Hc].
    apply (config_of_toml_spec doc _ (Hd _ _ E)). split; [exact H|reflexivity].
Qed.

(** ** The server works with settings it understands *)
Lemma entry_user F c : forall e, entry F (set_user c) e <-> entry F c e.
Proof. intros e. reflexivity. Qed.
Lemma json_user v c : json_says v c -> json_says v (mkcfg (cf_templates c) (cf_backend c) (cf_lang c) false (cf_hide c)).
Proof. intros H. exact H. Qed.
Lemma settings_used {T : ts} F url b rid client v c (s1 s2 : task_state T) es1 es2 s :
  parse_total T -> distinct_keys v -> json_says v c -> (cf_lang c = "rust" \/ cf_lang c = "python")%string -> ~ entry F c WErr ->
  step F url b s (MInitialize rid client (Some (config_of_json v))) = Ok (s1, es1) ->
  step F url b s1 MInitialized = Ok (s2, es2) ->
  user_config c (tk_config s2) /\ SpecConfig.indexed F (SpecConfig.lang_of c) (entry F c) (tk_data s2) /\
  ls_ignore (tk_data s2) = (match cf_hide c with Some h => h | None => false end).
Proof.
  intros Hp Hn Hv Hl Hw H1 H2. set (c0 := mkcfg (cf_templates c) (cf_backend c) (cf_lang c) false (cf_hide c)).
  assert (E : config_of_json v = Some c0) by (apply config_of_json_spec; [exact Hn|split; [exact Hv|reflexivity]]). rewrite E in H1.
  cbn [step] in H1. inversion H1; subst s1 es1. clear H1. cbn [step] in H2.
  destruct (do_initialized_cases F b _ s2 es2 Hp H2) as [(_ & _ & Hc & _ & I & _ & _ & _ & _ & _ & _ & Hi & _)|(HN & _)]; cbn [tk_config init_config] in *.
  - rewrite Hc. split; [repeat split|]. split; [exact I|exact Hi].
  - exfalso. destruct HN as [HN|HN]; [exact (HN Hl)|exact (Hw HN)].
Qed.
Lemma settings_refused {T : ts} F url b rid client v (s : task_state T) :
  distinct_keys v -> (forall c, ~ json_says v c) ->
  step F url b s (MInitialize rid client (Some (config_of_json v))) = step F url b s (MInitialize rid client None) /\
  exists s', step F url b s (MDidChangeConfiguration (config_of_json v)) = Ok (s', if cf_user (tk_config s) then [ESelf MInitialized] else []) /\
    s' = s.
Proof.
  intros Hn Hv. destruct (config_of_json v) as [c|] eqn:E; [apply (config_of_json_spec v c Hn) in E; elim (Hv c); tauto|].
  split; [reflexivity|]. eexists. split; [reflexivity|]. destruct s; reflexivity.
Qed.
Lemma settings_changed {T : ts} F url b v c (s1 s2 s : task_state T) es1 es2 :
  parse_total T -> distinct_keys v -> json_says v c ->
  step F url b s (MDidChangeConfiguration (config_of_json v)) = Ok (s1, es1) ->
  step F url b s1 MInitialized = Ok (s2, es2) ->
  es1 = [ESelf MInitialized] /\ user_config c (tk_config s2) /\
  (((cf_lang c = "rust" \/ cf_lang c = "python")%string /\ ~ entry F c WErr /\
    SpecConfig.indexed F (SpecConfig.lang_of c) (entry F c) (tk_data s2) /\ ls_config (tk_data s2) = tk_config s2) \/
   ((~ (cf_lang c = "rust" \/ cf_lang c = "python")%string \/ entry F c WErr) /\ tk_data s2 = tk_data s)).
Proof.
  intros Hp Hn Hv H1 H2. set (c0 := mkcfg (cf_templates c) (cf_backend c) (cf_lang c) false (cf_hide c)).
  assert (E : config_of_json v = Some c0) by (apply config_of_json_spec; [exact Hn|split; [exact Hv|reflexivity]]). rewrite E in H1.
  cbn [step] in H1. cbn in H1. inversion H1; subst s1 es1. clear H1. split; [reflexivity|]. cbn [step] in H2.
  destruct (do_initialized_cases F b _ s2 es2 Hp H2) as [(Hl & Hw & Hc & _ & I & _ & _ & Hcf & _)|(HN & -> & _)]; cbn [tk_config tk_data] in *.
  - rewrite Hc. split; [repeat split|]. left. split; [exact Hl|]. split; [exact Hw|]. split; [exact I|congruence].
  - split; [repeat split|]. right. split; [exact HN|reflexivity].
Qed.

(** ** Unserved documents *)
Section Unserved.
Context {T : ts} (url : url_parser) (b : build).
Implicit Types s : task_state T.
Definition absent (uri : string) (d : lsp_files T) : Prop := sget uri (ls_docs d) = None /\ sget uri (ls_vars d) = None.
Lemma unserved_ext uri : unserved uri -> file_ext uri = None.
Proof.
  intros H. destruct (file_ext uri) as [l|] eqn:E; [|reflexivity]. elim (H l). now apply file_ext_spec.
Qed.
Lemma absent_elsewhere uri u (d d' : lsp_files T) : same_elsewhere u d d' -> u <> uri -> absent uri d -> absent uri d'.
Proof. intros (H & _) Hn (A & B). destruct (H uri (not_eq_sym Hn)) as (C & _ & _ & D & _). split; congruence. Qed.
Lemma absent_step F uri s s' m es : parse_total T -> kinds_kept F -> unserved uri -> absent uri (tk_data s) ->
  step F url b s m = Ok (s', es) -> absent uri (tk_data s').
Proof.
  intros Hp HF Hu Ha H. pose proof (unserved_ext uri Hu) as Hx. destruct m; cbn [step] in H.
  - inversion H; subst. cbn. destruct client as [n|]; [|exact Ha]. destruct (String.eqb n _); exact Ha.
  - destruct (do_initialized_cases F b s s' es Hp H) as [(_ & _ & _ & _ & I & _)|(_ & -> & _)]; [|exact Ha].
    assert (Hno : forall es' t l, ~ on_disk F es' uri t l).
    { intros es' t l (p & name & _ & Hc & Hcn & _ & Hur). apply (Hu l). rewrite Hur. eapply HF; eassumption. }
    split.
    + destruct (sget uri (ls_docs (tk_data s'))) as [t|] eqn:E; [|reflexivity]. apply (ix_docs _ _ _ _ I) in E. destruct E as (l & E). elim (Hno _ _ _ E).
    + destruct (sget uri (ls_vars (tk_data s'))) as [t|] eqn:E; [|reflexivity]. apply (ix_vars _ _ _ _ I) in E.
      destruct E as (l & t' & old & tr & E & _). elim (Hno _ _ _ E).
  - destruct (did_open F b uri0 t false (tk_data s)) as [(d & r)|] eqn:E; cbn [bind] in H; inversion H; subst. cbn.
    destruct (String.string_dec uri0 uri) as [->|Hn]; [|exact (absent_elsewhere _ _ _ _ (did_open_frame _ _ _ _ _ _ _ _ E) Hn Ha)].
    unfold did_open in E. rewrite Hx in E. inversion E; subst. exact Ha.
  - destruct (did_change (tk_next s) uri0 cs (tk_data s)) as [(d & r)|] eqn:E; cbn [bind snd fst] in H; [|discriminate].
    assert (Hd : absent uri d).
    { destruct (String.string_dec uri0 uri) as [->|Hn]; [|exact (absent_elsewhere _ _ _ _ (did_change_frame _ _ _ _ _ _ E) Hn Ha)].
      unfold did_change in E. rewrite (proj1 Ha) in E. inversion E; subst. exact Ha. }
    destruct r; inversion H; subst; exact Hd.
  - destruct (did_save F b uri0 (tk_data s)) as [(d & r)|] eqn:E; cbn [bind] in H; inversion H; subst. cbn.
    destruct (String.string_dec uri0 uri) as [->|Hn]; [|exact (absent_elsewhere _ _ _ _ (did_save_frame _ _ _ _ _ _ E) Hn Ha)].
    unfold did_save in E. rewrite Hx in E. inversion E; subst. exact Ha.
  - destruct (do_completion _ _ _ _ _); cbn [bind] in H; inversion H; subst; exact Ha.
  - destruct (do_hover _ _ _ _); cbn [bind] in H; inversion H; subst; exact Ha.
  - destruct (goto_definition _ _ _ _ _ _); cbn [bind] in H; inversion H; subst; exact Ha.
  - destruct (code_action _ _ _ _) as [[a|]|]; cbn [bind] in H; [|inversion H; subst; exact Ha|discriminate].
    destruct (process_code_actions _ _ _ _) as [p|]; cbn [bind] in H; [|discriminate]. destruct (snd p); inversion H; subst; exact Ha.
  - destruct (String.eqb cmd _); inversion H; subst; exact Ha.
  - inversion H; subst; exact Ha.
  - inversion H; subst; exact Ha.
  - inversion H; subst; exact Ha.
Qed.
Lemma absent_replay uri : parse_total T -> unserved uri -> forall l s s' tr,
  (forall m F, In (m, F) l -> kinds_kept F) -> absent uri (tk_data s) -> replay url b s l = Ok (s', tr) -> absent uri (tk_data s').
Proof.
  intros Hp Hu l. induction l as [|(m, F) l IH]; intros s s' tr HF Ha H; cbn [replay] in H; [inversion H; subst; exact Ha|].
  destruct (step F url b s m) as [(s1 & es)|] eqn:E; [|discriminate]. destruct (replay url b s1 l) as [(s2 & tr')|] eqn:E2; [|discriminate].
  inversion H; subst. eapply IH; [| |exact E2]; [intros m0 F0 H0; apply (HF m0 F0); now right|].
  eapply absent_step; [exact Hp|apply (HF m F); now left|exact Hu|exact Ha|exact E].
Qed.
Lemma unserved_ignored F uri s m : unserved uri -> absent uri (tk_data s) -> concerning uri m ->
  exists es, step F url b s m = Ok (s, es) /\ (es = [] \/ exists rid, es = [EReply rid RNull]).
Proof.
  intros Hu (Hd & Hv) Hm. pose proof (unserved_ext uri Hu) as Hx. destruct s as [c d n]. cbn [tk_data] in *.
  destruct m; cbn [concerning] in Hm; try (now elim Hm); subst; cbn [step tk_data tk_next].
  - unfold did_open. rewrite Hx. cbn. eauto.
  - unfold did_change. rewrite Hd. cbn. eauto.
  - unfold did_save. rewrite Hx. cbn. eauto.
  - unfold do_completion, completion. rewrite Hx. destruct ctx as [[]|]; cbn; eauto.
  - unfold do_hover, hover. rewrite Hx. cbn. eauto.
  - unfold goto_definition. rewrite Hx. cbn. eauto.
  - unfold code_action. rewrite Hx. cbn. eauto.
  - unfold document_symbols. rewrite Hv. eauto.
Qed.
Lemma reachable_unserved l (y : sys T) s uri :
  parse_total T -> exec url b (sys0 T) l = Some y -> state_of y s -> (forall m F, In (m, F) (y_taken y) -> kinds_kept F) -> unserved uri ->
  forall F m, concerning uri m -> exists es, step F url b s m = Ok (s, es) /\ (es = [] \/ exists rid, es = [EReply rid RNull]).
Proof.
  intros Hp He Hs HF Hu F m Hm. destruct (reach_replay url b l y s He Hs) as (tr & Hr).
  refine (unserved_ignored F uri s m Hu _ Hm). refine (absent_replay uri Hp Hu _ _ _ _ HF _ Hr). split; reflexivity.
Qed.
End Unserved.
