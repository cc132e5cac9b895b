(** * PropIndex4: a workspace whose files are opened, edited and saved (C133). *)
From Verif Require Import Base RString Utf8 Rope Types Captures MTemplates MDefinition MObjects MLspFiles MSearchErrors MLspTask MChannels MQueries.
From Verif Require Import SpecText SpecFiles SpecScope SpecScope2 SpecObjects SpecLint SpecNav SpecConfig SpecChannels SpecServer SpecClient SpecQueries SpecQueries2 SpecQueries4 SpecQueries5 SpecQueries6 SpecScreen SpecCode SpecSettings SpecIndex SpecIndex2.
From Verif Require Import PConfig PQueries7 PIndex PIndex2 PIndex3 PIndex4 PropText PropObjects PropLint PropFiles PropChannels PropQueries PropQueries2 PropQueries3 PropQueries4 PropCode PropCode3 PropIndex PropIndex2 PropIndex3.

(** ** C133: the newest texts of all files count *)
(** The workspace was indexed, then any files were opened, edited and saved.  What the
    screen says about a template is what follows from its text and from the texts that
    all files had when the template was last read: those in the editor of the files
    opened or saved since the indexing, and those on the disk of the others. *)
Theorem C133_screen :
  forall parse edit url b, parse_total (ts_with parse edit) ->
  forall l (y : sys (ts_with parse edit)) uri v t tr tp ps sts pre m F1 post F c since, exec url b (sys0 (ts_with parse edit)) l = Some y -> at_rest y ->
    y_taken y = pre ++ (m, F1) :: post -> refreshes uri m -> Forall (elsewhere uri) (map fst post) -> editor_text uri (map fst (pre ++ [(m, F1)])) t ->
    worked_on (ts_with parse edit) url b (pre ++ [(m, F1)]) F c since -> usable F c -> sound_workspace parse F c ->
    (forall u t l, stands F c (map fst (pre ++ [(m, F1)])) since u t l -> sound_text parse (SpecConfig.lang_of c) t l) ->
    cf_hide c <> Some true -> file_ext uri = Some Template -> conveys parse t tr tp ps sts -> url uri = Some v -> (forall u, url u = Some v -> u = uri) ->
    exists e1, last_published v (y_published y) = Some (publish_of (e1 ++ missing_reports F1 (cf_templates c) sts)) /\
      reported (defines tr tp)
        (fun name => exists u t l, stands F c (map fst (pre ++ [(m, F1)])) since u t l /\ writes parse (SpecConfig.lang_of c) t l name) (chains ps) e1.
Proof. exact stands_screen. Qed.
Print Assumptions C133_screen.

(** The workspace of C130.  In the editor the code hands over [h] instead of [g]; the
    template is opened after it. *)
Definition c133_code : string := "jinja.add_global(""h"", x)".
Lemma c133_conveys : code_conveys c126_parse PRust (ascii_text c133_code) c126_rust.
Proof.
  constructor.
  - repeat constructor.
  - intros old. reflexivity.
  - whole.
  - unfold told_apart. vm_compute. repeat constructor; cbn; intuition discriminate.
  - vm_compute. repeat constructor; discriminate.
  - repeat (apply Forall_cons; [split; [before|split; [repeat (apply FOP_cons; [repeat (apply Forall_cons; [before|]); apply Forall_nil|]); apply FOP_nil|
        repeat (apply Forall_cons; [split; before|]); apply Forall_nil]]|]); apply Forall_nil.
  - destruct c126_supplies as (tr & R & _). pose proof (cc_parse _ _ _ _ R None) as Hp. cbn in Hp. injection Hp as <-. exact (cc_strings _ _ _ _ R).
  - destruct c126_supplies as (tr & R & _). pose proof (cc_parse _ _ _ _ R None) as Hp. cbn in Hp. injection Hp as <-. exact (cc_small _ _ _ _ R).
Qed.
Definition c133_run := script (T := c126_ts) any_url Debug c130_fs true (snd c130_run)
  [MDidOpen (file_uri c130_main) (ascii_text c133_code); MDidOpen (file_uri c130_a) (ascii_text c126_src)].
Definition c133_before : list msg :=
  [MDidChangeConfiguration (Some c130_cfg); MInitialized; MCodeActions [(file_uri c130_a, [])]; MDidOpen (file_uri c130_main) (ascii_text c133_code); MCodeActions [(file_uri c130_main, [])]].
Definition c133_open : msg := MDidOpen (file_uri c130_a) (ascii_text c126_src).
Definition c133_told : list msg := c133_before ++ [c133_open].
Definition with_disk (ms : list msg) : list (msg * fs) := map (fun m => (m, c130_fs)) ms.
Lemma with_fst ms : map fst (with_disk ms) = ms.
Proof. unfold with_disk. rewrite map_map. cbn [fst]. apply map_id. Qed.
Lemma c133_taken : y_taken (snd c133_run) = with_disk c133_before ++ (c133_open, c130_fs) :: with_disk [MCodeActions [(file_uri c130_a, [])]].
Proof. vm_compute. reflexivity. Qed.
Lemma c133_prefix : with_disk c133_before ++ [(c133_open, c130_fs)] = with_disk c133_told.
Proof. reflexivity. Qed.
Lemma opened_text u ms t0 t : editor_text u (ms ++ [MDidOpen u t0]) t -> t = t0.
Proof.
  intros H. inversion H as [ms' t' E|ms' t' cs t2 _ _ E|ms' t' m _ Hu E]; apply app_inj_tail in E; destruct E as (_ & E).
  - now injection E as ->.
  - discriminate E.
  - subst m. cbn in Hu. now elim Hu.
Qed.
Lemma c133_read u t t' : last_read u c133_told t t' -> (u = file_uri c130_main /\ t = ascii_text c133_code) \/ (u = file_uri c130_a /\ t = ascii_text c126_src).
Proof.
  intros (pre & m & mid & E & Hm & Ht & _). assert (Hi : In m c133_told) by (rewrite E; apply in_or_app; right; now left). clear E.
  cbn in Hi. alternatives Hi; subst m; cbn in Hm; try (now destruct Hm); subst u; apply opened_text in Ht; auto.
Qed.
Lemma c133_stands u t l : stands c130_fs c130_cfg c133_told (skipn 2 c133_told) u t l ->
  (u = file_uri c130_main /\ t = ascii_text c133_code /\ l = Backend) \/ (u = file_uri c130_a /\ t = ascii_text c126_src /\ l = Template).
Proof.
  intros [(Hu & Hd)|(Hx & t' & L)].
  - exfalso. rewrite Forall_forall in Hu. destruct (c130_files _ _ _ _ Hd) as [(-> & _)|(-> & _)];
      [apply (Hu c133_open); [cbn; tauto|reflexivity]|apply (Hu (MDidOpen (file_uri c130_main) (ascii_text c133_code))); [cbn; tauto|reflexivity]].
  - destruct (c133_read u t t' L) as [(-> & ->)|(-> & ->)]; vm_compute in Hx; injection Hx as <-; auto.
Qed.
Lemma c133_main_read : last_read (file_uri c130_main) c133_told (ascii_text c133_code) (ascii_text c133_code).
Proof.
  exists (firstn 3 c133_told), (MDidOpen (file_uri c130_main) (ascii_text c133_code)), (skipn 4 c133_told). split; [reflexivity|]. split; [reflexivity|]. split; [apply et_open|].
  split; [repeat (apply Forall_cons; [first [exact I|discriminate]|]); apply Forall_nil|].
  apply (et_other _ [_; _; _; _; _]); [apply (et_other _ [_; _; _; _]); [apply (et_open _ [_; _; _])|exact I]|]. cbn. discriminate.
Qed.
Lemma c133_a_read : last_read (file_uri c130_a) c133_told (ascii_text c126_src) (ascii_text c126_src).
Proof.
  exists c133_before, c133_open, []. split; [reflexivity|]. split; [reflexivity|]. split; [apply et_open|]. split; [apply Forall_nil|]. apply et_open.
Qed.
Example C133_example :
  exec any_url Debug (sys0 c126_ts) (fst c130_run ++ fst c133_run) = Some (snd c133_run) /\ at_rest (snd c133_run) /\
  y_taken (snd c133_run) = with_disk c133_before ++ (c133_open, c130_fs) :: with_disk [MCodeActions [(file_uri c130_a, [])]] /\
  refreshes (file_uri c130_a) c133_open /\ Forall (elsewhere (file_uri c130_a)) [MCodeActions [(file_uri c130_a, [])]] /\
  editor_text (file_uri c130_a) c133_told (ascii_text c126_src) /\
  worked_on c126_ts any_url Debug (with_disk c133_told) c130_fs c130_cfg (skipn 2 c133_told) /\ usable c130_fs c130_cfg /\ sound_workspace c126_parse c130_fs c130_cfg /\
  (forall u t l, stands c130_fs c130_cfg c133_told (skipn 2 c133_told) u t l -> sound_text c126_parse PRust t l) /\
  cf_hide c130_cfg <> Some true /\ file_ext (file_uri c130_a) = Some Template /\ conveys c126_parse (ascii_text c126_src) c126_tree c126_tpl c126_ps [] /\
  written c126_parse c130_fs c130_cfg "g" /\
  (forall u t l, stands c130_fs c130_cfg c133_told (skipn 2 c133_told) u t l -> u = file_uri c130_main -> t = ascii_text c133_code) /\
  last_published (file_uri c130_a) (y_published (snd c130_run)) = Some (publish_of [(DefinedSomewhere, use_id (wt 4 3 4 "g", []))]) /\
  last_published (file_uri c130_a) (y_published (snd c133_run)) = Some (publish_of [(Undefined, use_id (wt 4 3 4 "g", []))]).
Proof.
  split; [ran|]. split; [split; [exists (idle_state (snd c133_run)); ran|conj; vm_compute; reflexivity]|]. split; [exact c133_taken|]. split; [reflexivity|].
  split; [apply Forall_cons; [exact I|apply Forall_nil]|]. split; [apply et_open|].
  split.
  { exists (with_disk (firstn 1 c133_told)), (with_disk (skipn 2 c133_told)), (mktask c130_cfg (ls_default c126_ts) 0), [(MDidChangeConfiguration (Some c130_cfg), [ESelf MInitialized])].
    split; [reflexivity|]. split; [symmetry; apply with_fst|]. split; [cbn; intuition discriminate|]. split; [reflexivity|]. split; [reflexivity|]. rewrite with_fst. intros u.
    destruct (string_dec u (file_uri c130_main)) as [->|N1]; [right; split; [discriminate|exact (ex_intro _ _ (ex_intro _ _ c133_main_read))]|].
    destruct (string_dec u (file_uri c130_a)) as [->|N2]; [right; split; [discriminate|exact (ex_intro _ _ (ex_intro _ _ c133_a_read))]|].
    left. repeat (apply Forall_cons; [first [exact I|exact (not_eq_sym N1)|exact (not_eq_sym N2)]|]); apply Forall_nil. }
  split; [apply c130_usable|]. split; [exact c130_sound|].
  split. { intros u t l H. destruct (c133_stands u t l H) as [(_ & -> & ->)|(_ & -> & ->)]; [exists c126_rust; exact c133_conveys|exists c126_tree, c126_tpl, c126_ps, []; exact c126_conveys]. }
  split; [discriminate|]. split; [reflexivity|]. split; [exact c126_conveys|].
  split. { exists (file_uri c130_main), (ascii_text c126_code), Backend. split; [apply c130_main_on|]. destruct c126_supplies as (tr & R & H). exists tr, (nn 7 17 20). split; [exact R|]. now left. }
  split. { intros u t l H ->. destruct (c133_stands _ t l H) as [(_ & E & _)|(E & _)]; [exact E|discriminate E]. }
  split; vm_compute; reflexivity.
Qed.

(** ** C134: asking about names of files that were changed *)
(** Goto on a name the template does not define leads to exactly the places where the
    other files write it, each in the text that stands. *)
Theorem C134_goto_partial :
  forall parse edit url b, parse_total (ts_with parse edit) ->
  forall l (y : sys (ts_with parse edit)) sy a F0 z rid, exec url b (sys0 (ts_with parse edit)) l = Some y -> y_task y = TIdle sy ->
  forall uri t0 tr0 tp0 ps0 sts0 t tr tp ps sts, file_ext uri = Some Template -> last_read uri (map fst a) t0 t ->
    conveys parse t0 tr0 tp0 ps0 sts0 -> conveys parse t tr tp ps sts ->
  forall F c since, worked_on (ts_with parse edit) url b a F c since -> usable F c -> sound_workspace parse F c ->
    (forall u t l, stands F c (map fst a) since u t l -> sound_text parse (SpecConfig.lang_of c) t l) ->
  forall h fs pos, y_taken y = a ++ (MGoto rid uri pos, F0) :: z ->
    In (h, fs) (chains ps) -> cursor_on tr (point_of pos) (fst h) -> no_string_at tr (point_of pos) ->
    (forall d, In d (defines tr0 tp0) -> ~ goto_sees (point_of pos) (snd h) d) ->
    (forall u nm p q, u <> uri -> (exists t l, stands F c (map fst a) since u t l /\ writes_at parse (SpecConfig.lang_of c) t l nm p q) ->
      small p /\ small q /\ q <> pt0 /\ url u <> None) ->
    exists locs, In (rid, RGoto (GArray locs)) (y_replies y) /\
      forall v r, In (mkloc v r) locs <->
        exists u nm p q, u <> uri /\ (exists t l, stands F c (map fst a) since u t l /\ writes_at parse (SpecConfig.lang_of c) t l nm p q) /\
          heads (snd h) nm = true /\ url u = Some v /\ r = lsp_range p q.
Proof. exact stand_goto. Qed.
Print Assumptions C134_goto_partial.
(** Hover on such a name tells whether one of these texts writes it. *)
Theorem C134_hover_partial :
  forall parse edit url b, parse_total (ts_with parse edit) ->
  forall l (y : sys (ts_with parse edit)) sy a F0 z rid, exec url b (sys0 (ts_with parse edit)) l = Some y -> y_task y = TIdle sy ->
  forall uri t0 tr0 tp0 ps0 sts0 t tr tp ps sts, file_ext uri = Some Template -> last_read uri (map fst a) t0 t ->
    conveys parse t0 tr0 tp0 ps0 sts0 -> conveys parse t tr tp ps sts ->
  forall F c since, worked_on (ts_with parse edit) url b a F c since -> usable F c -> sound_workspace parse F c ->
    (forall u t l, stands F c (map fst a) since u t l -> sound_text parse (SpecConfig.lang_of c) t l) ->
  forall h fs pos, y_taken y = a ++ (MHover rid uri pos, F0) :: z ->
    In (h, fs) (chains ps) -> cursor_on tr (point_of pos) (fst h) -> (forall d, In d (defines tr0 tp0) -> ~ hover_sees (n_start (fst h)) (snd h) d) ->
    exists r, In (rid, r) (y_replies y) /\
      ((r = RHover (DocKind "Backend variable") /\
        exists u nm p q, u <> uri /\ (exists t l, stands F c (map fst a) since u t l /\ writes_at parse (SpecConfig.lang_of c) t l nm p q) /\ heads (snd h) nm = true) \/
       (r = RNull /\ forall u nm p q, u <> uri ->
          (exists t l, stands F c (map fst a) since u t l /\ writes_at parse (SpecConfig.lang_of c) t l nm p q) -> heads (snd h) nm = false)).
Proof. exact stand_hover. Qed.
Print Assumptions C134_hover_partial.
(** Completion offers every name that such a text of code hands to templates. *)
Theorem C134_completion :
  forall parse edit url b, parse_total (ts_with parse edit) ->
  forall l (y : sys (ts_with parse edit)) sy a F0 z rid, exec url b (sys0 (ts_with parse edit)) l = Some y -> y_task y = TIdle sy ->
  forall uri t0 tr0 tp0 ps0 sts0 t tr tp ps sts, file_ext uri = Some Template -> last_read uri (map fst a) t0 t ->
    conveys parse t0 tr0 tp0 ps0 sts0 -> conveys parse t tr tp ps sts ->
  forall F c since, worked_on (ts_with parse edit) url b a F c since -> usable F c -> sound_workspace parse F c ->
  forall pos ctx ps1 ps2, y_taken y = a ++ (MCompletion rid uri pos ctx, F0) :: z -> ps = ps1 ++ ps2 ->
    ctx = Some TkInvoked \/ ctx = Some TkTriggerCharacter -> between (point_of pos) ps1 ps2 -> SpecObjects.inside ps1 (point_of pos) ->
    exists items, In (rid, RCompletion (map RItem items)) (y_replies y) /\
      forall u t1 tr1 n nm, stands F c (map fst a) since u t1 Backend -> code_conveys parse (SpecConfig.lang_of c) t1 tr1 -> handing (SpecConfig.lang_of c) (encode t1) tr1 n nm ->
        exists i, In i items /\ ci_label i = nm /\ ci_detail i = Some "Backend variable"%string.
Proof. exact stand_complete. Qed.
Print Assumptions C134_completion.

(** In the session of C133 the template is asked about [g], which is gone. *)
Definition c134_asked := script (T := c126_ts) any_url Debug c130_fs false (snd c133_run) (c131_asks (file_uri c130_a)).
Definition c134_told (n : nat) : list msg := (c133_told ++ [MCodeActions [(file_uri c130_a, [])]]) ++ firstn n (c131_asks (file_uri c130_a)).
Lemma c134_taken : y_taken (snd c134_asked) = with_disk (c134_told 3).
Proof. vm_compute. reflexivity. Qed.
Lemma c134_read n u t t' : last_read u (c134_told n) t t' -> (u = file_uri c130_main /\ t = ascii_text c133_code) \/ (u = file_uri c130_a /\ t = ascii_text c126_src).
Proof.
  intros (pre & m & mid & E & Hm & Ht & _). assert (Hi : In m (c134_told n)) by (rewrite E; apply in_or_app; right; now left). clear E.
  apply in_app_or in Hi. destruct Hi as [Hi|Hi].
  - cbn in Hi. alternatives Hi; subst m; cbn in Hm; try (now destruct Hm); subst u; apply opened_text in Ht; auto.
  - exfalso. assert (Hj : In m (c131_asks (file_uri c130_a))) by (rewrite <- (firstn_skipn n (c131_asks (file_uri c130_a))); apply in_or_app; now left).
    cbn in Hj. alternatives Hj; subst m; exact Hm.
Qed.
Lemma quiet_read u ms t0 t more : last_read u ms t0 t -> Forall (fun m => match m with MHover _ _ _ | MGoto _ _ _ | MCompletion _ _ _ _ | MCodeActions _ => True | _ => False end) more ->
  last_read u (ms ++ more) t0 t.
Proof.
  intros (pre & m & mid & E & Hm & Ht & Hmid & He) H. exists pre, m, (mid ++ more). split; [rewrite E, <- app_assoc; reflexivity|]. split; [exact Hm|]. split; [exact Ht|].
  split; [apply Forall_app; split; [exact Hmid|]; eapply Forall_impl; [|exact H]; intros x Hx; destruct x; (exact I || destruct Hx)|].
  clear - He H. induction more as [|x more IH] using rev_ind; [now rewrite app_nil_r|]. apply Forall_app in H. destruct H as (H1 & H2). rewrite app_assoc. apply et_other; [now apply IH|].
  inversion H2 as [|? ? Hx _]. destruct x; (exact I || destruct Hx).
Qed.
Lemma c134_quiet n : Forall (fun m => match m with MHover _ _ _ | MGoto _ _ _ | MCompletion _ _ _ _ | MCodeActions _ => True | _ => False end) (MCodeActions [(file_uri c130_a, [])] :: firstn n (c131_asks (file_uri c130_a))).
Proof. destruct n as [|[|[|n]]]; cbn [firstn c131_asks]; repeat (apply Forall_cons; [exact I|]); try apply Forall_nil. destruct n; apply Forall_nil. Qed.
Lemma c134_main n : last_read (file_uri c130_main) (c134_told n) (ascii_text c133_code) (ascii_text c133_code).
Proof. unfold c134_told. rewrite <- app_assoc. apply quiet_read; [exact c133_main_read|apply c134_quiet]. Qed.
Lemma c134_a n : last_read (file_uri c130_a) (c134_told n) (ascii_text c126_src) (ascii_text c126_src).
Proof. unfold c134_told. rewrite <- app_assoc. apply quiet_read; [exact c133_a_read|apply c134_quiet]. Qed.
Lemma c134_stands n u t l : stands c130_fs c130_cfg (c134_told n) (skipn 2 (c134_told n)) u t l ->
  (u = file_uri c130_main /\ t = ascii_text c133_code /\ l = Backend) \/ (u = file_uri c130_a /\ t = ascii_text c126_src /\ l = Template).
Proof.
  intros [(Hu & Hd)|(Hx & t' & L)].
  - exfalso. rewrite Forall_forall in Hu. destruct (c130_files _ _ _ _ Hd) as [(-> & _)|(-> & _)];
      [apply (Hu c133_open); [cbn; tauto|reflexivity]|apply (Hu (MDidOpen (file_uri c130_main) (ascii_text c133_code))); [cbn; tauto|reflexivity]].
  - destruct (c134_read n u t t' L) as [(-> & ->)|(-> & ->)]; vm_compute in Hx; injection Hx as <-; auto.
Qed.
Lemma c134_worked n : worked_on c126_ts any_url Debug (with_disk (c134_told n)) c130_fs c130_cfg (skipn 2 (c134_told n)).
Proof.
  exists (with_disk (firstn 1 (c134_told n))), (with_disk (skipn 2 (c134_told n))), (mktask c130_cfg (ls_default c126_ts) 0), [(MDidChangeConfiguration (Some c130_cfg), [ESelf MInitialized])].
  split; [reflexivity|]. split; [symmetry; apply with_fst|].
  split. { intros H. cbn in H. repeat (destruct H as [H|H]; [discriminate H|]). pose proof (c134_quiet n) as Q. inversion Q as [|? ? _ Q']. rewrite Forall_forall in Q'. exact (Q' _ H). }
  split; [reflexivity|]. split; [reflexivity|]. rewrite with_fst. intros u.
  destruct (string_dec u (file_uri c130_main)) as [->|N1]; [right; split; [discriminate|exact (ex_intro _ _ (ex_intro _ _ (c134_main n)))]|].
  destruct (string_dec u (file_uri c130_a)) as [->|N2]; [right; split; [discriminate|exact (ex_intro _ _ (ex_intro _ _ (c134_a n)))]|].
  left. cbn [c134_told c133_told c133_before app skipn]. do 4 (apply Forall_cons; [first [exact I|exact (not_eq_sym N1)|exact (not_eq_sym N2)]|]).
  eapply Forall_impl; [|exact (c134_quiet n)]. intros x Hx. destruct x; (exact I || destruct Hx).
Qed.
Lemma c134_handed n nm : rust_variable c133_code c126_rust n nm -> n = nn 7 17 20 /\ nm = "h"%string.
Proof.
  intros H. destruct H as [tt f x Hin Hk|p f1 callee f2 args f3 obj f4 method f5 x Hin Ho Hc _ _ _ _ _ Ha Hh Hs].
  - exfalso. cbn in Hin. alternatives Hin; subst tt; discriminate Hk.
  - apply in_order_r in Ho. assert (Q : args = c126_args).
    { cbn in Hin. alternatives Hin; subst p; cbn in Ho; alternatives Ho; injection Ho as <- <-; try discriminate Ha; reflexivity. }
    subst args. cbn in Hh. destruct Hh as [Hh|[Hh|[]]]; injection Hh as <- <-; [split; reflexivity|discriminate Hs].
Qed.
Lemma c134_no_load ar n : ~ loading PRust c133_code c126_rust ar n.
Proof.
  intros (x & f & callee & g & h & method & rest & Hin & Hk & Ho & Hm & Hsaid & _).
  cbn in Hin. alternatives Hin; subst x; try discriminate Hk. apply in_order_l in Ho. cbn in Ho. alternatives Ho; injection Ho as <- <-.
  - destruct Hm as [(Hd & _)|(_ & Hh & Hk2)]; [discriminate Hd|]. cbn in Hh. alternatives Hh; injection Hh as <- <-; [discriminate Hk2|].
    vm_compute in Hsaid. alternatives Hsaid; discriminate.
  - destruct Hm as [(Hd & _)|(Hd & _)]; discriminate Hd.
Qed.
Lemma c134_writes n u nm p q : u <> file_uri c130_a ->
  (exists t l, stands c130_fs c130_cfg (c134_told n) (skipn 2 (c134_told n)) u t l /\ writes_at c126_parse PRust t l nm p q) -> u = file_uri c130_main /\ nm = "h"%string /\ p = mkpt 0 17 /\ q = mkpt 0 20.
Proof.
  intros Hne (t & l & Hs & Hw). destruct (c134_stands n u t l Hs) as [(-> & -> & ->)|(-> & _)]; [|now elim Hne]. split; [reflexivity|].
  destruct Hw as (tr & nd & R & <- & <- & Hw). pose proof (cc_parse _ _ _ _ R None) as Hp. cbn in Hp. injection Hp as <-.
  destruct Hw as [Hh|(ar & Hl & _)]; [|now elim (c134_no_load ar nd)]. destruct (c134_handed nd nm Hh) as (-> & ->). repeat split.
Qed.
Example C134_example :
  exec any_url Debug (sys0 c126_ts) ((fst c130_run ++ fst c133_run) ++ fst c134_asked) = Some (snd c134_asked) /\ (exists sy, y_task (snd c134_asked) = TIdle sy) /\
  y_taken (snd c134_asked) = with_disk (c134_told 0 ++ c131_asks (file_uri c130_a)) /\ file_ext (file_uri c130_a) = Some Template /\
  (forall n, last_read (file_uri c130_a) (c134_told n) (ascii_text c126_src) (ascii_text c126_src) /\
     worked_on c126_ts any_url Debug (with_disk (c134_told n)) c130_fs c130_cfg (skipn 2 (c134_told n)) /\
     (forall u t l, stands c130_fs c130_cfg (c134_told n) (skipn 2 (c134_told n)) u t l -> sound_text c126_parse PRust t l) /\
     (forall u nm p q, u <> file_uri c130_a ->
        (exists t l, stands c130_fs c130_cfg (c134_told n) (skipn 2 (c134_told n)) u t l /\ writes_at c126_parse PRust t l nm p q) ->
        nm = "h"%string /\ small p /\ small q /\ q <> pt0 /\ any_url u <> None)) /\
  conveys c126_parse (ascii_text c126_src) c126_tree c126_tpl c126_ps [] /\ usable c130_fs c130_cfg /\ sound_workspace c126_parse c130_fs c130_cfg /\
  In (wt 4 3 4 "g", []) (chains c126_ps) /\ cursor_on c126_tree (mkpt 0 3) (nn 4 3 4) /\ no_string_at c126_tree (mkpt 0 3) /\ defines c126_tree c126_tpl = [] /\
  between (mkpt 0 5) c126_ps [] /\ SpecObjects.inside c126_ps (mkpt 0 5) /\
  y_replies (snd c134_asked) = [(5, RNull); (6, RGoto (GArray [])); (7, RCompletion [RItem (mkci "h" (Some "Backend variable") KVariable None None)])]%string.
Proof.
  split; [ran|]. split; [exists (idle_state (snd c134_asked)); ran|]. split; [exact c134_taken|]. split; [reflexivity|].
  split. { intros n. split; [apply c134_a|]. split; [apply c134_worked|]. split.
    - intros u t l H. destruct (c134_stands n u t l H) as [(_ & -> & ->)|(_ & -> & ->)]; [exists c126_rust; exact c133_conveys|exists c126_tree, c126_tpl, c126_ps, []; exact c126_conveys].
    - intros u nm p q Hne H. destruct (c134_writes n u nm p q Hne H) as (-> & -> & -> & ->). split; [reflexivity|]. split; [repeat constructor|]. split; [repeat constructor|]. split; discriminate. }
  split; [exact c126_conveys|]. split; [apply c130_usable|]. split; [exact c130_sound|].
  pose proof C131_example as X. decompose [and] X. conj; try assumption. vm_compute. reflexivity.
Qed.
