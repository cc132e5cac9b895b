(** * PropIndex: the screen after the workspace was indexed (C130). *)
From Verif Require Import Base RString Utf8 Rope Types Captures MTemplates MDefinition MObjects MLspFiles MSearchErrors MLspTask MChannels MQueries.
From Verif Require Import SpecText SpecFiles SpecScope SpecScope2 SpecObjects SpecLint SpecNav SpecConfig SpecChannels SpecServer SpecClient SpecQueries SpecQueries2 SpecQueries4 SpecQueries5 SpecQueries6 SpecScreen SpecCode SpecSettings SpecIndex.
From Verif Require Import PConfig PIndex PropText PropObjects PropLint PropFiles PropChannels PropQueries PropQueries2 PropQueries3 PropQueries4 PropCode PropCode3.

(** ** C130: indexing shows the mistakes of the whole workspace *)
(** The workspace was indexed, at the start of the session, after a change of the
    settings or because the user reset the variables, and nothing happened to the
    template [uri] since.  Then exactly the mistakes written in its file are on the
    screen, and a name counts as defined elsewhere if and only if some file of the
    workspace defines it, wherever that file comes in the listing of the directories. *)
Theorem C130_screen_partial :
  forall parse edit url b, parse_total (ts_with parse edit) ->
  forall l (y : sys (ts_with parse edit)) uri v F c t tr tp ps sts,
    exec url b (sys0 (ts_with parse edit)) l = Some y -> at_rest y -> last_indexing url b y uri F c ->
    usable F c -> sound_workspace parse F c -> on_disk F (entry F c) uri t Template -> conveys parse t tr tp ps sts ->
    url uri = Some v -> (forall u, url u = Some v -> u = uri) ->
    exists e1, last_published v (y_published y) = Some (publish_of (e1 ++ missing_reports F (cf_templates c) sts)) /\
      (cf_hide c <> Some true -> reported (defines tr tp) (written parse F c) (chains ps) e1) /\
      (cf_hide c = Some true -> e1 = []).
Proof. intros parse edit url b Hp. exact (indexing_screen parse edit url b Hp). Qed.
Print Assumptions C130_screen_partial.

(** A template [{{ g }}] and, in another directory that is listed later, the code
    [jinja.add_global("g", x)]. *)
Definition c130_a : string := "/w/t/a.html".
Definition c130_main : string := "/w/src/main.rs".
Definition c130_disk (code : string) : fs :=
  mkfs (fun p => if str_mem p [c130_a; c130_main] then CanonOk p else CanonNotFound)
    (fun p => if String.eqb p c130_a then Some (ascii_text c126_src) else if String.eqb p c130_main then Some (ascii_text code) else None)
    (fun d => if String.eqb d "/w/t" then [WOther "/w/t"; WFile c130_a] else if String.eqb d "/w/src" then [WFile c130_main] else [])
    (fun _ => None).
Definition c130_cfg : config := mkcfg "/w/t" ["/w/src"%string] "rust" true None.
Definition c130_fs : fs := c130_disk c126_code.
Lemma c130_entry code e : entry (c130_disk code) c130_cfg e -> e = WOther "/w/t" \/ e = WFile c130_a \/ e = WFile c130_main.
Proof. intros (d & [-> |[<-|[]]] & H); cbn in H; intuition auto. Qed.
Lemma c130_files code u t l : on_disk (c130_disk code) (entry (c130_disk code) c130_cfg) u t l ->
  (u = file_uri c130_a /\ t = ascii_text c126_src /\ l = Template) \/ (u = file_uri c130_main /\ t = ascii_text code /\ l = Backend).
Proof.
  intros (p & name & He & Hc & Hn & Hr & ->). apply file_ext_spec in Hc. destruct (c130_entry _ _ He) as [Q|[Q|Q]]; [discriminate|injection Q as ->; left|injection Q as ->; right];
    vm_compute in Hc; injection Hc as <-; cbn in Hn; injection Hn as <-; cbn in Hr; injection Hr as <-; auto.
Qed.
Lemma c130_a_on code : on_disk (c130_disk code) (entry (c130_disk code) c130_cfg) (file_uri c130_a) (ascii_text c126_src) Template.
Proof.
  exists c130_a, c130_a. split; [exists "/w/t"%string; split; [now left|right; now left]|]. split; [apply file_ext_spec; reflexivity|]. repeat split.
Qed.
Lemma c130_main_on code : on_disk (c130_disk code) (entry (c130_disk code) c130_cfg) (file_uri c130_main) (ascii_text code) Backend.
Proof.
  exists c130_main, c130_main. split; [exists "/w/src"%string; split; [right; now left|now left]|]. split; [apply file_ext_spec; reflexivity|]. repeat split.
Qed.
Lemma c130_usable code : usable (c130_disk code) c130_cfg.
Proof. split; [now left|]. intros H. destruct (c130_entry _ _ H) as [Q|[Q|Q]]; discriminate. Qed.
Lemma c130_sound : sound_workspace c126_parse c130_fs c130_cfg.
Proof.
  intros u t l H. destruct (c130_files _ _ _ _ H) as [(-> & -> & ->)|(-> & -> & ->)]; (split; [reflexivity|]).
  - exists c126_tree, c126_tpl, c126_ps, []. exact c126_conveys.
  - destruct c126_supplies as (tr & R & _). exists tr. exact R.
Qed.
Definition c130_run := script (T := c126_ts) any_url Debug c130_fs true (sys0 c126_ts) [MDidChangeConfiguration (Some c130_cfg)].
Lemma c130_last : last_indexing any_url Debug (snd c130_run) (file_uri c130_a) c130_fs c130_cfg.
Proof.
  exists [(MDidChangeConfiguration (Some c130_cfg), c130_fs)], (skipn 2 (y_taken (snd c130_run))), (mktask c130_cfg (ls_default c126_ts) 0), [(MDidChangeConfiguration (Some c130_cfg), [ESelf MInitialized])].
  split; [vm_compute; reflexivity|]. split; [vm_compute; repeat constructor|]. split; reflexivity.
Qed.
Example C130_example :
  exec any_url Debug (sys0 c126_ts) (fst c130_run) = Some (snd c130_run) /\ at_rest (snd c130_run) /\
  last_indexing any_url Debug (snd c130_run) (file_uri c130_a) c130_fs c130_cfg /\
  usable c130_fs c130_cfg /\ sound_workspace c126_parse c130_fs c130_cfg /\
  on_disk c130_fs (entry c130_fs c130_cfg) (file_uri c130_a) (ascii_text c126_src) Template /\
  conveys c126_parse (ascii_text c126_src) c126_tree c126_tpl c126_ps [] /\ cf_hide c130_cfg <> Some true /\
  written c126_parse c130_fs c130_cfg "g" /\
  last_published (file_uri c130_a) (y_published (snd c130_run)) = Some (publish_of [(DefinedSomewhere, use_id (wt 4 3 4 "g", []))]).
Proof.
  split; [ran|]. split; [split; [exists (idle_state (snd c130_run)); ran|conj; vm_compute; reflexivity]|]. split; [exact c130_last|].
  split; [apply c130_usable|]. split; [exact c130_sound|]. split; [apply c130_a_on|]. split; [exact c126_conveys|]. split; [discriminate|].
  split; [|vm_compute; reflexivity].
  exists (file_uri c130_main), (ascii_text c126_code), Backend. split; [apply c130_main_on|].
  destruct c126_supplies as (tr & R & H). exists tr, (nn 7 17 20). split; [exact R|]. now left.
Qed.

(** Code is not checked when the workspace is indexed: whatever happens, nothing is
    ever shown about a source file before it was opened or saved. *)
Theorem C130_code_unchecked :
  forall T url b, parse_total T -> forall l (y : sys T) u v,
    exec url b (sys0 T) l = Some y -> at_rest y -> (forall m F, In (m, F) (y_taken y) -> kinds_kept F) ->
    file_ext u = Some Backend -> Forall (never_read u) (map fst (y_taken y)) -> (forall u', url u' = Some v -> u' = u) ->
    last_published v (y_published y) = None.
Proof. intros T url b Hp l y u v. exact (unread_screen url b l y u v Hp). Qed.
Print Assumptions C130_code_unchecked.


(** Nothing is shown of a template that code on the disk names in vain, although it
    is shown as soon as the same code is opened. *)
Definition c130_code_disk : fs :=
  mkfs (fun p => if String.eqb p c130_main then CanonOk p else CanonNotFound)
    (fun p => if String.eqb p c130_main then Some (ascii_text c124_src) else None)
    (fun d => if String.eqb d "/w/src" then [WFile c130_main] else []) (fun _ => None).
Definition c130_code_run := script (T := always c124_tree) any_url Debug c130_code_disk true (sys0 (always c124_tree)) [MDidChangeConfiguration (Some c130_cfg)].
Definition c130_code_open := script (T := always c124_tree) any_url Debug c130_code_disk true (snd c130_code_run) [MDidOpen (file_uri c130_main) (ascii_text c124_src)].
Lemma c130_kinds : kinds_kept c130_code_disk.
Proof.
  intros p n l Hn Hc. cbn in Hn. destruct (String.eqb p c130_main) eqn:E2; [apply String.eqb_eq in E2; subst p|discriminate].
  injection Hn as <-. apply file_ext_spec in Hc. apply file_ext_spec. vm_compute in Hc. injection Hc as <-. reflexivity.
Qed.
Example C130_code_unchecked_example :
  exec any_url Debug (sys0 (always c124_tree)) (fst c130_code_run) = Some (snd c130_code_run) /\ at_rest (snd c130_code_run) /\
  (forall m F, In (m, F) (y_taken (snd c130_code_run)) -> kinds_kept F) /\ file_ext (file_uri c130_main) = Some Backend /\
  Forall (never_read (file_uri c130_main)) (map fst (y_taken (snd c130_code_run))) /\
  In MInitialized (map fst (y_taken (snd c130_code_run))).
Proof.
  split; [ran|]. split; [split; [exists (idle_state (snd c130_code_run)); ran|conj; vm_compute; reflexivity]|].
  split. { intros m F H. assert (Q : Forall (fun z => kinds_kept (snd z)) (y_taken (snd c130_code_run))).
    { assert (E : y_taken (snd c130_code_run) = [(MDidChangeConfiguration (Some c130_cfg), c130_code_disk); (MInitialized, c130_code_disk); (MCodeActions [], c130_code_disk)]) by (vm_compute; reflexivity).
      rewrite E.
      repeat (apply Forall_cons; [exact c130_kinds|]). apply Forall_nil. }
    exact (proj1 (Forall_forall _ _) Q _ H). }
  split; [reflexivity|]. split; [vm_compute; repeat constructor|vm_compute; auto].
Qed.
Theorem C130_code_refuted :
  exists parse edit l l' (y y' : sys (ts_with parse edit)) F c uri t tr ar n a,
    exec any_url Debug (sys0 _) l = Some y /\ at_rest y /\ last_indexing any_url Debug y uri F c /\ usable F c /\ kinds_kept F /\
    on_disk F (entry F c) uri t Backend /\ code_conveys parse (SpecConfig.lang_of c) t tr /\ loading (SpecConfig.lang_of c) (encode t) tr ar n /\
    (forall u, ~ stands_for F any_url (cf_templates c) (snd (loaded_ref (encode t) n)) u) /\
    last_published uri (y_published y) = None /\
    exec any_url Debug y l' = Some y' /\ at_rest y' /\ map fst (y_taken y') = map fst (y_taken y) ++ [MDidOpen uri t; MCodeActions a] /\
    exists ds, last_published uri (y_published y') = Some (publish_of ((TemplateNotFound, ref_id (loaded_ref (encode t) n)) :: ds)).
Proof.
  exists (fun _ _ _ => Some c124_tree), (fun t _ => t), (fst c130_code_run), (fst c130_code_open), (snd c130_code_run), (snd c130_code_open),
    c130_code_disk, c130_cfg, (file_uri c130_main), (ascii_text c124_src), c124_tree, c124_first_args, (nn 5 13 21),
    [(file_uri c130_main, map (fun m => ref_id (loaded_ref c124_src m)) [nn 5 13 21; nn 13 36 44; nn 12 58 66])].
  split; [ran|]. split; [split; [exists (idle_state (snd c130_code_run)); ran|conj; vm_compute; reflexivity]|].
  split.
  { exists [(MDidChangeConfiguration (Some c130_cfg), c130_code_disk)], (skipn 2 (y_taken (snd c130_code_run))), (mktask c130_cfg (ls_default (always c124_tree)) 0), [(MDidChangeConfiguration (Some c130_cfg), [ESelf MInitialized])].
    split; [vm_compute; reflexivity|]. split; [vm_compute; repeat constructor|]. split; reflexivity. }
  split. { split; [now left|]. intros (d & [-> |[<-|[]]] & H); cbn in H; intuition discriminate. }
  split; [exact c130_kinds|].
  split. { exists c130_main, c130_main. split; [exists "/w/src"%string; split; [right; now left|now left]|]. split; [apply file_ext_spec; reflexivity|]. repeat split. }
  split; [exact c124_conveys|]. split; [exact (proj1 c124_loads)|].
  split; [intros u (p & H & _); vm_compute in H; discriminate|].
  split; [vm_compute; reflexivity|]. split; [ran|].
  split; [split; [exists (idle_state (snd c130_code_open)); ran|conj; vm_compute; reflexivity]|].
  split; [vm_compute; reflexivity|].
  exists (map (fun m => (TemplateNotFound, ref_id (loaded_ref c124_src m))) [nn 13 36 44; nn 12 58 66]). vm_compute. reflexivity.
Qed.
Print Assumptions C130_code_refuted.

(** What is shown of a template stays although its file was removed from the disk and
    the workspace was indexed again. *)
Definition c130_emptied : fs :=
  mkfs (fun p => if String.eqb p c130_main then CanonOk p else CanonNotFound)
    (fun p => if String.eqb p c130_main then Some (ascii_text c126_code) else None)
    (fun d => if String.eqb d "/w/t" then [WOther "/w/t"] else if String.eqb d "/w/src" then [WFile c130_main] else []) (fun _ => None).
Definition c130_again := script (T := c126_ts) any_url Debug c130_emptied true (snd c130_run) [MExecuteCommand "reset_variables"].
Definition c130_mid : task_state c126_ts * list (msg * list effect) :=
  match replay any_url Debug (task0 c126_ts) (firstn 4 (y_taken (snd c130_again))) with Ok z => z | Panic => (task0 c126_ts, []) end.
Lemma c130_replays : replay any_url Debug (task0 c126_ts) (firstn 4 (y_taken (snd c130_again))) = Ok (fst c130_mid, snd c130_mid).
Proof.
  assert (H : match replay any_url Debug (task0 c126_ts) (firstn 4 (y_taken (snd c130_again))) with Ok _ => true | Panic => false end = true) by (vm_compute; reflexivity).
  unfold c130_mid. destruct (replay _ _ _ _) as [[s tr]|]; [reflexivity|discriminate H].
Qed.
Theorem C130_gone_refuted :
  exists parse edit l l' (y y' : sys (ts_with parse edit)) F F' c uri t d,
    exec any_url Debug (sys0 _) l = Some y /\ last_indexing any_url Debug y uri F c /\ usable F c /\ sound_workspace parse F c /\
    on_disk F (entry F c) uri t Template /\ last_published uri (y_published y) = Some [d] /\
    exec any_url Debug y l' = Some y' /\ at_rest y' /\ last_indexing any_url Debug y' uri F' c /\ usable F' c /\ sound_workspace parse F' c /\
    (forall t' k, ~ on_disk F' (entry F' c) uri t' k) /\ last_published uri (y_published y') = Some [d].
Proof.
  exists c126_parse, (fun t _ => t), (fst c130_run), (fst c130_again), (snd c130_run), (snd c130_again), c130_fs, c130_emptied, c130_cfg, (file_uri c130_a), (ascii_text c126_src),
    (hd (mkdiag (mkrange (mkpos 0 0) (mkpos 0 0)) SevWarning "") (publish_of [(DefinedSomewhere, use_id (wt 4 3 4 "g", []))])).
  assert (En : forall e, entry c130_emptied c130_cfg e -> e = WOther "/w/t" \/ e = WFile c130_main).
  { intros e (d & [-> |[<-|[]]] & H); cbn in H; intuition auto. }
  assert (Fi : forall u t l, on_disk c130_emptied (entry c130_emptied c130_cfg) u t l -> u = file_uri c130_main /\ t = ascii_text c126_code /\ l = Backend).
  { intros u t l (p & name & He & Hc & Hn & Hr & ->). apply file_ext_spec in Hc. destruct (En _ He) as [Q|Q]; [discriminate|injection Q as ->].
    vm_compute in Hc; injection Hc as <-; cbn in Hn; injection Hn as <-; cbn in Hr; injection Hr as <-; auto. }
  split; [ran|]. split; [exact c130_last|]. split; [apply c130_usable|]. split; [exact c130_sound|]. split; [apply c130_a_on|]. split; [vm_compute; reflexivity|].
  split; [ran|]. split; [split; [exists (idle_state (snd c130_again)); ran|conj; vm_compute; reflexivity]|].
  split.
  { exists (firstn 4 (y_taken (snd c130_again))), (skipn 5 (y_taken (snd c130_again))), (fst c130_mid), (snd c130_mid).
    split; [ran|]. split; [vm_compute; repeat constructor|]. split; [exact c130_replays|vm_compute; reflexivity]. }
  split. { split; [now left|]. intros H. destruct (En _ H) as [Q|Q]; discriminate. }
  split. { intros u t l H. destruct (Fi _ _ _ H) as (-> & -> & ->). split; [reflexivity|]. destruct c126_supplies as (tr & R & _). exists tr. exact R. }
  split. { intros t' k H. destruct (Fi _ _ _ H) as (Q & _). discriminate. }
  vm_compute. reflexivity.
Qed.
Print Assumptions C130_gone_refuted.
