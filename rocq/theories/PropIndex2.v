(** * PropIndex2: from a template to the rest of the workspace (C131). *)
From Verif Require Import Base RString Utf8 Rope Types Captures MTemplates MDefinition MObjects MLspFiles MSearchErrors MLspTask MChannels MQueries.
From Verif Require Import SpecText SpecFiles SpecScope SpecScope2 SpecObjects SpecLint SpecNav SpecConfig SpecChannels SpecServer SpecClient SpecQueries SpecQueries2 SpecQueries4 SpecQueries5 SpecQueries6 SpecScreen SpecCode SpecSettings SpecIndex.
From Verif Require Import PConfig PQueries7 PIndex PIndex2 PropText PropObjects PropLint PropFiles PropChannels PropQueries PropQueries2 PropQueries3 PropQueries4 PropCode PropCode3 PropIndex.

(** ** C131: from a template to the rest of the workspace *)
(** The workspace was indexed, a template was opened and is edited, no other file was
    read since.  Goto on a name the template does not define leads to exactly the
    places where the other files of the workspace write it. *)
Theorem C131_goto_partial :
  forall parse edit url b, parse_total (ts_with parse edit) ->
  forall l (y : sys (ts_with parse edit)) sy a F0 z rid, exec url b (sys0 (ts_with parse edit)) l = Some y -> y_task y = TIdle sy ->
  forall uri t0 tr0 tp0 ps0 sts0 t tr tp ps sts, file_ext uri = Some Template -> last_read uri (map fst a) t0 t ->
    conveys parse t0 tr0 tp0 ps0 sts0 -> conveys parse t tr tp ps sts ->
  forall F c, indexed_but (ts_with parse edit) url b a uri F c -> usable F c -> sound_workspace parse F c ->
  forall h fs pos, y_taken y = a ++ (MGoto rid uri pos, F0) :: z ->
    In (h, fs) (chains ps) -> cursor_on tr (point_of pos) (fst h) -> no_string_at tr (point_of pos) ->
    (forall d, In d (defines tr0 tp0) -> ~ goto_sees (point_of pos) (snd h) d) ->
    (forall u nm p q, u <> uri -> written_at parse F c u nm p q -> small p /\ small q /\ q <> pt0 /\ url u <> None) ->
    exists locs, In (rid, RGoto (GArray locs)) (y_replies y) /\
      forall v r, In (mkloc v r) locs <->
        exists u nm p q, u <> uri /\ written_at parse F c u nm p q /\ heads (snd h) nm = true /\ url u = Some v /\ r = lsp_range p q.
Proof. exact others_goto. Qed.
Print Assumptions C131_goto_partial.
(** Hover on such a name tells whether some file writes it. *)
Theorem C131_hover_partial :
  forall parse edit url b, parse_total (ts_with parse edit) ->
  forall l (y : sys (ts_with parse edit)) sy a F0 z rid, exec url b (sys0 (ts_with parse edit)) l = Some y -> y_task y = TIdle sy ->
  forall uri t0 tr0 tp0 ps0 sts0 t tr tp ps sts, file_ext uri = Some Template -> last_read uri (map fst a) t0 t ->
    conveys parse t0 tr0 tp0 ps0 sts0 -> conveys parse t tr tp ps sts ->
  forall F c, indexed_but (ts_with parse edit) url b a uri F c -> usable F c -> sound_workspace parse F c ->
  forall h fs pos, y_taken y = a ++ (MHover rid uri pos, F0) :: z ->
    In (h, fs) (chains ps) -> cursor_on tr (point_of pos) (fst h) -> (forall d, In d (defines tr0 tp0) -> ~ hover_sees (n_start (fst h)) (snd h) d) ->
    exists r, In (rid, r) (y_replies y) /\
      ((r = RHover (DocKind "Backend variable") /\ exists u nm p q, u <> uri /\ written_at parse F c u nm p q /\ heads (snd h) nm = true) \/
       (r = RNull /\ forall u nm p q, u <> uri -> written_at parse F c u nm p q -> heads (snd h) nm = false)).
Proof. exact others_hover. Qed.
Print Assumptions C131_hover_partial.

(** Completion offers every name that code of the workspace hands to templates. *)
Theorem C131_completion :
  forall parse edit url b, parse_total (ts_with parse edit) ->
  forall l (y : sys (ts_with parse edit)) sy a F0 z rid, exec url b (sys0 (ts_with parse edit)) l = Some y -> y_task y = TIdle sy ->
  forall uri t0 tr0 tp0 ps0 sts0 t tr tp ps sts, file_ext uri = Some Template -> last_read uri (map fst a) t0 t ->
    conveys parse t0 tr0 tp0 ps0 sts0 -> conveys parse t tr tp ps sts ->
  forall F c, indexed_but (ts_with parse edit) url b a uri F c -> usable F c -> sound_workspace parse F c ->
  forall pos ctx ps1 ps2, y_taken y = a ++ (MCompletion rid uri pos ctx, F0) :: z -> ps = ps1 ++ ps2 ->
    ctx = Some TkInvoked \/ ctx = Some TkTriggerCharacter -> between (point_of pos) ps1 ps2 -> SpecObjects.inside ps1 (point_of pos) ->
    exists items, In (rid, RCompletion (map RItem items)) (y_replies y) /\
      forall u t1 tr1 n nm, u <> uri -> on_disk F (entry F c) u t1 Backend -> code_conveys parse (SpecConfig.lang_of c) t1 tr1 -> handing (SpecConfig.lang_of c) (encode t1) tr1 n nm ->
        exists i, In i items /\ ci_label i = nm /\ ci_detail i = Some "Backend variable"%string.
Proof. exact others_complete. Qed.
Print Assumptions C131_completion.

(** The workspace of C130; its template is opened and asked about. *)
Definition c131_asks (uri : string) : list msg := [MHover 5 uri (mkpos 0 3); MGoto 6 uri (mkpos 0 3); MCompletion 7 uri (mkpos 0 5) (Some TkInvoked)].
Definition c131_open := script (T := c126_ts) any_url Debug c130_fs true (snd c130_run) [MDidOpen (file_uri c130_a) (ascii_text c126_src)].
Definition c131_asked := script (T := c126_ts) any_url Debug c130_fs false (snd c131_open) (c131_asks (file_uri c130_a)).
Definition c131_told (src : string) (acts : list (string * list identifier)) : list msg :=
  [MDidChangeConfiguration (Some c130_cfg); MInitialized; MCodeActions acts; MDidOpen (file_uri c130_a) (ascii_text src); MCodeActions [(file_uri c130_a, [])]].
Lemma c131_read src acts n : (n <= 2)%nat -> last_read (file_uri c130_a) (c131_told src acts ++ firstn n (c131_asks (file_uri c130_a))) (ascii_text src) (ascii_text src).
Proof.
  intros Hn. exists (firstn 3 (c131_told src acts)), (MDidOpen (file_uri c130_a) (ascii_text src)), (MCodeActions [(file_uri c130_a, [])] :: firstn n (c131_asks (file_uri c130_a))).
  split; [reflexivity|]. split; [reflexivity|]. split; [apply et_open|]. destruct n as [|[|[|n]]]; [| | |lia]; cbn [firstn c131_asks]; (split; [repeat (apply Forall_cons; [exact I|]); apply Forall_nil|]).
  - apply (et_other _ [_; _; _; _]); [apply (et_open _ [_; _; _])|exact I].
  - apply (et_other _ [_; _; _; _; _]); [apply (et_other _ [_; _; _; _]); [apply (et_open _ [_; _; _])|exact I]|exact I].
  - apply (et_other _ [_; _; _; _; _; _]); [apply (et_other _ [_; _; _; _; _]); [apply (et_other _ [_; _; _; _]); [apply (et_open _ [_; _; _])|exact I]|exact I]|exact I].
Qed.
Lemma c131_taken : y_taken (snd c131_asked) = map (fun m => (m, c130_fs)) (c131_told c126_src [(file_uri c130_a, [])] ++ c131_asks (file_uri c130_a)).
Proof. vm_compute. reflexivity. Qed.
Lemma c131_indexed T F src acts n : (n <= 2)%nat ->
  indexed_but T any_url Debug (map (fun m => (m, F)) (c131_told src acts ++ firstn n (c131_asks (file_uri c130_a)))) (file_uri c130_a) F c130_cfg.
Proof.
  intros Hn. exists [(MDidChangeConfiguration (Some c130_cfg), F)], (map (fun m => (m, F)) (skipn 2 (c131_told src acts) ++ firstn n (c131_asks (file_uri c130_a)))),
    (mktask c130_cfg (ls_default T) 0), [(MDidChangeConfiguration (Some c130_cfg), [ESelf MInitialized])].
  split; [reflexivity|]. split; [|split; reflexivity]. rewrite map_map. cbn [fst]. rewrite map_id.
  destruct n as [|[|[|n]]]; [| | |lia]; cbn [firstn skipn app c131_told c131_asks]; repeat (apply Forall_cons; [first [exact I|reflexivity]|]); apply Forall_nil.
Qed.
Ltac alternatives H := repeat match type of H with _ \/ _ => destruct H as [H|H] end; try (now destruct H).
Lemma in_order_l l f x g y : in_order l f x g y -> In (f, x) l.
Proof. intros (a & b & c & ->). apply in_or_app. right. now left. Qed.
Lemma c131_handed n nm : rust_variable c126_code c126_rust n nm -> n = nn 7 17 20 /\ nm = "g"%string.
Proof.
  intros H. destruct H as [tt f x Hin Hk|p f1 callee f2 args f3 obj f4 method f5 x Hin Ho Hc _ _ _ _ _ Ha Hh Hs].
  - exfalso. cbn in Hin. alternatives Hin; subst tt; discriminate Hk.
  - apply in_order_r in Ho. assert (Q : args = c126_args).
    { cbn in Hin. alternatives Hin; subst p; cbn in Ho; alternatives Ho; injection Ho as <- <-; try discriminate Ha; reflexivity. }
    subst args. cbn in Hh. destruct Hh as [Hh|[Hh|[]]]; injection Hh as <- <-; [split; reflexivity|discriminate Hs].
Qed.
Lemma c131_no_load ar n : ~ loading PRust c126_code c126_rust ar n.
Proof.
  intros (x & f & callee & g & h & method & rest & Hin & Hk & Ho & Hm & Hsaid & _).
  cbn in Hin. alternatives Hin; subst x; try discriminate Hk. apply in_order_l in Ho. cbn in Ho. alternatives Ho; injection Ho as <- <-.
  - destruct Hm as [(Hd & _)|(_ & Hh & Hk2)]; [discriminate Hd|]. cbn in Hh. alternatives Hh; injection Hh as <- <-; [discriminate Hk2|].
    vm_compute in Hsaid. alternatives Hsaid; discriminate.
  - destruct Hm as [(Hd & _)|(Hd & _)]; discriminate Hd.
Qed.
Lemma c131_written u nm p q : u <> file_uri c130_a -> written_at c126_parse c130_fs c130_cfg u nm p q ->
  u = file_uri c130_main /\ nm = "g"%string /\ p = mkpt 0 17 /\ q = mkpt 0 20.
Proof.
  intros Hne [t tr tp ps sts d Hd _ _ _ _ _|t tr n Hd R Hh <- <-|t tr ar n Hd R Hl _ _ _];
    destruct (c130_files _ _ _ _ Hd) as [(-> & -> & E)|(-> & -> & E)]; try discriminate E; try (now elim Hne);
    pose proof (cc_parse _ _ _ _ R None) as Hp; cbn in Hp; injection Hp as <-.
  - destruct (c131_handed n nm Hh) as (-> & ->). repeat split.
  - now elim (c131_no_load ar n).
Qed.
Example C131_example :
  exec any_url Debug (sys0 c126_ts) ((fst c130_run ++ fst c131_open) ++ fst c131_asked) = Some (snd c131_asked) /\
  (exists sy, y_task (snd c131_asked) = TIdle sy) /\ file_ext (file_uri c130_a) = Some Template /\
  (exists a, (forall n, (n <= 2)%nat -> last_read (file_uri c130_a) (c131_told c126_src a ++ firstn n (c131_asks (file_uri c130_a))) (ascii_text c126_src) (ascii_text c126_src)) /\
     y_taken (snd c131_asked) = map (fun m => (m, c130_fs)) (c131_told c126_src a ++ c131_asks (file_uri c130_a)) /\
     forall n, (n <= 2)%nat -> indexed_but c126_ts any_url Debug (map (fun m => (m, c130_fs)) (c131_told c126_src a ++ firstn n (c131_asks (file_uri c130_a)))) (file_uri c130_a) c130_fs c130_cfg) /\
  conveys c126_parse (ascii_text c126_src) c126_tree c126_tpl c126_ps [] /\ usable c130_fs c130_cfg /\ sound_workspace c126_parse c130_fs c130_cfg /\
  In (wt 4 3 4 "g", []) (chains c126_ps) /\ cursor_on c126_tree (mkpt 0 3) (nn 4 3 4) /\ no_string_at c126_tree (mkpt 0 3) /\ defines c126_tree c126_tpl = [] /\
  (forall u nm p q, u <> file_uri c130_a -> written_at c126_parse c130_fs c130_cfg u nm p q -> small p /\ small q /\ q <> pt0 /\ any_url u <> None) /\
  written_at c126_parse c130_fs c130_cfg (file_uri c130_main) "g" (mkpt 0 17) (mkpt 0 20) /\
  between (mkpt 0 5) c126_ps [] /\ SpecObjects.inside c126_ps (mkpt 0 5) /\
  y_replies (snd c131_asked) = [(5, RHover (DocKind "Backend variable")); (6, RGoto (GArray [mkloc (file_uri c130_main) (lsp_range (mkpt 0 17) (mkpt 0 20))]));
    (7, RCompletion [RItem (mkci "g" (Some "Backend variable") KVariable None None)])]%string.
Proof.
  split; [ran|]. split; [exists (idle_state (snd c131_asked)); ran|]. split; [reflexivity|].
  split. { exists [(file_uri c130_a, [])]. split; [intros n Hn; now apply c131_read|]. split; [exact c131_taken|]. intros n Hn. now apply c131_indexed. }
  split; [exact c126_conveys|]. split; [apply c130_usable|]. split; [exact c130_sound|]. split; [now left|].
  split; [split; [split; before|repeat (apply Forall_cons; [cbn; intros H; repeat destruct H as [H|H]; try discriminate; destruct H|]); apply Forall_nil]|].
  split; [repeat (apply Forall_cons; [discriminate|]); apply Forall_nil|]. split; [reflexivity|].
  split. { intros u nm p q Hne H. destruct (c131_written u nm p q Hne H) as (-> & -> & -> & ->). repeat split; try (vm_compute; reflexivity); discriminate. }
  split. { destruct c126_supplies as (tr & R & Hh). exact (WaHanded _ _ _ _ _ _ _ _ tr (nn 7 17 20) (c130_main_on _) R Hh eq_refl eq_refl). }
  split; [split; [before|split; [repeat (apply Forall_cons; [before|]); apply Forall_nil|exact I]]|].
  split; [exists [], (xn 2 0 7), [PChain (wt 4 3 4 "g") []]; split; [reflexivity|split; [repeat constructor|before]]|].
  vm_compute. reflexivity.
Qed.

(** The names of the templates that code loads are taken for names of variables, up to
    their first dot: nothing in the workspace defines [b], but hover on it speaks of a
    variable and goto leads to the string "b.html" in the code. *)
Definition c131_src : string := "{{ b }}".
Definition c131_parse (lang : plang) (_ : string) (_ : option stree) : option stree :=
  Some match lang with PJinja => c126_tree | _ => c124_tree end.
Notation c131_ts := (ts_with c131_parse (fun t _ => t)).
Definition c131_tpl : tpl := TExpr [NId (wt 4 3 4 "b")] TNil.
Definition c131_ps : list piece := [PExpr (xn 2 0 7); PChain (wt 4 3 4 "b") []].
Lemma c131_conveys : conveys c131_parse (ascii_text c131_src) c126_tree c131_tpl c131_ps [].
Proof.
  constructor; [repeat constructor|intros old; reflexivity|whole| |placed_tree|cbn; repeat split; repeat constructor].
  change (encode (ascii_text c131_src)) with c131_src.
  constructor.
  - unfold root_kind. cbn. intuition discriminate.
  - unfold told_apart. vm_compute. repeat constructor; cbn; intuition discriminate.
  - vm_compute. repeat constructor; discriminate.
  - vm_compute. repeat constructor; discriminate.
  - cbn. repeat split; try discriminate; repeat constructor; try discriminate.
  - apply told_of. vm_compute. reflexivity.
  - split; [repeat (apply Forall_cons; [piece_okay|]); apply Forall_nil|exists (mkpt 0 1); split; [right; cbn; lia|]; vm_compute; intuition discriminate].
  - repeat constructor.
  - exact (spoken_of c131_src (preorder c126_tree)).
  - constructor.
  - cbn [c126_tree s_children map snd]. apply LdOther; [now apply innerb_ok|constructor].
Qed.
Lemma c131_code : code_conveys c131_parse PRust (ascii_text c124_src) c124_tree.
Proof. destruct c124_conveys. constructor; auto. Qed.
Definition c131_fs : fs :=
  mkfs (f_canon c130_fs) (fun p => if String.eqb p c130_a then Some (ascii_text c131_src) else if String.eqb p c130_main then Some (ascii_text c124_src) else None)
    (f_walk c130_fs) (f_toml c130_fs).
Lemma c131_entry e : entry c131_fs c130_cfg e -> e = WOther "/w/t" \/ e = WFile c130_a \/ e = WFile c130_main.
Proof. intros (d & [-> |[<-|[]]] & H); cbn in H; intuition auto. Qed.
Lemma c131_files u t l : on_disk c131_fs (entry c131_fs c130_cfg) u t l ->
  (u = file_uri c130_a /\ t = ascii_text c131_src /\ l = Template) \/ (u = file_uri c130_main /\ t = ascii_text c124_src /\ l = Backend).
Proof.
  intros (p & name & He & Hc & Hn & Hr & ->). apply file_ext_spec in Hc. destruct (c131_entry _ He) as [Q|[Q|Q]]; [discriminate|injection Q as ->; left|injection Q as ->; right];
    vm_compute in Hc; injection Hc as <-; cbn in Hn; injection Hn as <-; cbn in Hr; injection Hr as <-; auto.
Qed.
Lemma c131_none n nm : ~ rust_variable c124_src c124_tree n nm.
Proof.
  intros H. destruct H as [tt f x Hin Hk|p f1 callee f2 args f3 obj f4 method f5 x Hin Ho Hc _ _ _ _ _ _ _ _].
  - cbn in Hin. alternatives Hin; subst tt; discriminate Hk.
  - apply in_order_l in Ho. cbn in Hin. alternatives Hin; subst p; cbn in Ho; alternatives Ho; injection Ho as <- <-; discriminate Hc.
Qed.
Definition c131_indexing := script (T := c131_ts) any_url Debug c131_fs true (sys0 c131_ts) [MDidChangeConfiguration (Some c130_cfg)].
Definition c131_opening := script (T := c131_ts) any_url Debug c131_fs true (snd c131_indexing) [MDidOpen (file_uri c130_a) (ascii_text c131_src)].
Definition c131_asking := script (T := c131_ts) any_url Debug c131_fs false (snd c131_opening) (firstn 2 (c131_asks (file_uri c130_a))).
Theorem C131_loaded_refuted :
  exists parse edit l (y : sys (ts_with parse edit)) sy ms F0 uri t tr tp ps sts F c h pos u n ar t',
    exec any_url Debug (sys0 _) l = Some y /\ y_task y = TIdle sy /\
    y_taken y = map (fun m => (m, F0)) ms ++ [(MHover 5 uri pos, F0); (MGoto 6 uri pos, F0)] /\ file_ext uri = Some Template /\
    last_read uri (ms ++ [MHover 5 uri pos]) t t /\ conveys parse t tr tp ps sts /\
    indexed_but (ts_with parse edit) any_url Debug (map (fun m => (m, F0)) (ms ++ [MHover 5 uri pos])) uri F c /\ usable F c /\ sound_workspace parse F c /\
    In (h, []) (chains ps) /\ cursor_on tr (point_of pos) (fst h) /\ no_string_at tr (point_of pos) /\
    (** No template defines anything, no code hands anything to a template. *)
    (forall u1 t1 tr1 tp1 ps1 sts1, on_disk F (entry F c) u1 t1 Template -> conveys parse t1 tr1 tp1 ps1 sts1 -> u1 = uri /\ t1 = t) /\ defines tr tp = [] /\
    (forall u1 t1 tr1 n1 nm, on_disk F (entry F c) u1 t1 Backend -> code_conveys parse (SpecConfig.lang_of c) t1 tr1 -> ~ handing (SpecConfig.lang_of c) (encode t1) tr1 n1 nm) /\
    (** The code loads a template. *)
    on_disk F (entry F c) u t' Backend /\ loading (SpecConfig.lang_of c) (encode t') c124_tree ar n /\ snd (loaded_ref (encode t') n) = (snd h ++ ".html")%string /\
    y_replies y = [(5, RHover (DocKind "Backend variable")); (6, RGoto (GArray [mkloc u (lsp_range (n_start n) (n_end n))]))].
Proof.
  exists c131_parse, (fun t _ => t), ((fst c131_indexing ++ fst c131_opening) ++ fst c131_asking), (snd c131_asking), (idle_state (snd c131_asking)), (c131_told c131_src [(file_uri c130_a, [])]),
    c131_fs, (file_uri c130_a), (ascii_text c131_src), c126_tree, c131_tpl, c131_ps, [], c131_fs, c130_cfg, (wt 4 3 4 "b"), (mkpos 0 3), (file_uri c130_main), (nn 5 13 21), c124_first_args, (ascii_text c124_src).
  split; [ran|]. split; [ran|]. split; [vm_compute; reflexivity|]. split; [reflexivity|].
  split; [apply (c131_read c131_src _ 1); lia|]. split; [exact c131_conveys|]. split; [apply (c131_indexed _ _ c131_src _ 1); lia|].
  split. { split; [now left|]. intros H. destruct (c131_entry _ H) as [Q|[Q|Q]]; discriminate. }
  split. { intros u t l H. destruct (c131_files _ _ _ H) as [(-> & -> & ->)|(-> & -> & ->)]; (split; [reflexivity|]).
    - exists c126_tree, c131_tpl, c131_ps, []. exact c131_conveys.
    - exists c124_tree. exact c131_code. }
  split; [now left|].
  split; [split; [split; before|repeat (apply Forall_cons; [cbn; intros H; repeat destruct H as [H|H]; try discriminate; destruct H|]); apply Forall_nil]|].
  split; [repeat (apply Forall_cons; [discriminate|]); apply Forall_nil|].
  split. { intros u1 t1 tr1 tp1 ps1 sts1 Hd _. destruct (c131_files _ _ _ Hd) as [(-> & -> & _)|(_ & _ & E)]; [now split|discriminate]. }
  split; [reflexivity|].
  split. { intros u1 t1 tr1 n1 nm Hd R. destruct (c131_files _ _ _ Hd) as [(_ & _ & E)|(-> & -> & _)]; [discriminate|].
    pose proof (cc_parse _ _ _ _ R None) as Hp. cbn in Hp. injection Hp as <-. exact (c131_none n1 nm). }
  split. { exists c130_main, c130_main. split; [exists "/w/src"%string; split; [right; now left|now left]|]. split; [apply file_ext_spec; reflexivity|]. repeat split. }
  split; [exact (proj1 c124_loads)|]. split; [vm_compute; reflexivity|]. vm_compute. reflexivity.
Qed.
Print Assumptions C131_loaded_refuted.
