(** * PropSettings: properties C111 to C113 (settings as clients and files give
    them; documents of other types). *)
From Verif Require Import Base RString Utf8 Rope Types Captures.
From Verif Require Import MDefinition MTemplates MSearchErrors MLspFiles MLspTask MChannels MSettings.
From Verif Require Import SpecFiles SpecConfig SpecChannels SpecServer SpecClient SpecSettings.
From Verif Require Import PConfig PSettings PropFiles PropConfig PropObjects PropServer PropClient.

(** ** C111: settings given at the start *)
(** Exactly which JSON values are understood, and as what. *)
Theorem C111_understood :
  forall v c, distinct_keys v -> (config_of_json v = Some c <-> json_says v c /\ cf_user c = false).
Proof. exact config_of_json_spec. Qed.
Print Assumptions C111_understood.
(** The same for the configuration files. *)
Theorem C111_files :
  forall parse F f c,
    (forall src doc, parse src = Some doc -> distinct_doc doc) -> f_toml F = toml_with parse ->
    (file_gives F f c <->
     exists t doc c0, f_read F f = Some t /\ t <> [] /\ parse (encode t) = Some doc /\ toml_says doc c0 /\ user_config c0 c).
Proof. exact toml_file_spec. Qed.
Print Assumptions C111_files.
(** Settings that are understood are used: the index then holds exactly the
    files below the directories they name. *)
Theorem C111_used_partial :
  forall T F url b rid client v c (s1 s2 : task_state T) es1 es2 s,
    parse_total T -> distinct_keys v -> json_says v c ->
    (cf_lang c = "rust" \/ cf_lang c = "python")%string -> ~ entry F c WErr ->
    step F url b s (MInitialize rid client (Some (config_of_json v))) = Ok (s1, es1) ->
    step F url b s1 MInitialized = Ok (s2, es2) ->
    user_config c (tk_config s2) /\ SpecConfig.indexed F (SpecConfig.lang_of c) (entry F c) (tk_data s2) /\
    ls_ignore (tk_data s2) = (match cf_hide c with Some h => h | None => false end).
Proof. exact @settings_used. Qed.
Print Assumptions C111_used_partial.
(** All others are dropped without a word: the server behaves as if there were
    none. *)
Theorem C111_dropped :
  forall T F url b rid client v (s : task_state T),
    distinct_keys v -> (forall c, ~ json_says v c) ->
    step F url b s (MInitialize rid client (Some (config_of_json v))) = step F url b s (MInitialize rid client None).
Proof. intros T F url b rid client v s Hn Hv. exact (proj1 (settings_refused F url b rid client v s Hn Hv)). Qed.
Print Assumptions C111_dropped.
Definition c111_readme : value :=
  VMap [("templates", VStr "t"); ("backend", VArr [VStr "src"]); ("lang", VStr "rust")]%string.
Definition c111_short : value := VMap [("templates", VStr "t"); ("lang", VStr "rust")]%string.
Definition start (v : value) : list msg := [MInitialize 0 None (Some (config_of_json v)); MInitialized].
(** The claim itself is false: without a backend directory, the templates
    directory is dropped as well. *)
Theorem C111_short_refuted :
  exists T F url b m dir (s : task_state T),
    parse_total T /\ distinct_keys (VMap m) /\ In ("templates"%string, VStr dir) m /\ In ("lang"%string, VStr "rust") m /\
    In (WFile "t/a.html") (f_walk F dir) /\ (exists t, on_disk F (fun e => In e (f_walk F dir)) "file:///w/t/a.html" t Template) /\
    run_msgs F url b (task0 T) (start (VMap m)) = Ok s /\ ls_docs (tk_data s) = [].
Proof.
  exists ts_echo, c41_F, any_url, Debug, [("templates", VStr "t"); ("lang", VStr "rust")]%string, "t"%string. eexists.
  split; [intros l c old; discriminate|]. split; [cbn; repeat constructor; cbn; intuition discriminate|].
  split; [now left|]. split; [right; now left|]. split; [now left|]. split.
  { exists [97], "t/a.html"%string, "/w/t/a.html"%string. split; [now left|]. split; [apply file_ext_spec; reflexivity|]. repeat split. }
  split; [vm_compute; reflexivity|]. reflexivity.
Qed.
Print Assumptions C111_short_refuted.
Example C111_example :
  config_of_json c111_readme = Some (mkcfg "t" ["src"%string] "rust" false None) /\
  config_of_json c111_short = None /\ (forall c, ~ json_says c111_short c) /\
  json_says c111_readme (mkcfg "t" ["src"%string] "rust" true None) /\ distinct_keys c111_readme /\
  ~ entry c41_F (mkcfg "t" ["src"%string] "rust" true None) WErr /\
  config_of_toml [("package", VMap []); ("jinja-lsp", c111_readme)]%string = Some (mkcfg "t" ["src"%string] "rust" false None) /\
  match run_msgs c41_F any_url Debug (task0 ts_echo) (start c111_readme) with
  | Ok s => ls_docs (tk_data s) = [("file:///w/t/a.html"%string, [97])] | Panic => False end.
Proof.
  assert (Hn : distinct_keys c111_short) by (cbn; repeat constructor; cbn; intuition discriminate).
  split; [reflexivity|]. split; [reflexivity|]. split.
  { intros c H. assert (E : config_of_json c111_short = Some (mkcfg (cf_templates c) (cf_backend c) (cf_lang c) false (cf_hide c)))
      by (apply config_of_json_spec; [exact Hn|split; [exact H|reflexivity]]). discriminate E. }
  split.
  { left. eexists. split; [reflexivity|]. unfold object_says. cbn. split; [auto|]. split; [auto|]. split; [auto|].
    intros v [H|[H|[H|[]]]]; discriminate H. }
  split; [cbn; repeat constructor; cbn; intuition discriminate|]. split.
  { intros (d & Hd & Hi). cbn in Hd. destruct Hd as [->|[<-|[]]]; cbn in Hi; [destruct Hi as [Hi|[]]; discriminate Hi|destruct Hi]. }
  split; [reflexivity|]. vm_compute. reflexivity.
Qed.

(** ** C112: settings changed while the server runs *)
(** What is understood becomes the configuration, and the workspace is indexed
    again with it; if that fails the old index stays, under the new
    configuration. *)
Theorem C112_changed :
  forall T F url b v c (s1 s2 s : task_state T) es1 es2,
    parse_total T -> distinct_keys v -> json_says v c ->
    step F url b s (MDidChangeConfiguration (config_of_json v)) = Ok (s1, es1) ->
    step F url b s1 MInitialized = Ok (s2, es2) ->
    es1 = [ESelf MInitialized] /\ user_config c (tk_config s2) /\
    (((cf_lang c = "rust" \/ cf_lang c = "python")%string /\ ~ entry F c WErr /\
      SpecConfig.indexed F (SpecConfig.lang_of c) (entry F c) (tk_data s2) /\ ls_config (tk_data s2) = tk_config s2) \/
     ((~ (cf_lang c = "rust" \/ cf_lang c = "python")%string \/ entry F c WErr) /\ tk_data s2 = tk_data s)).
Proof. exact @settings_changed. Qed.
Print Assumptions C112_changed.
(** What is not understood is not used, but it does make the server index the
    workspace again when it has settings. *)
Theorem C112_refused :
  forall T F url b v (s : task_state T),
    distinct_keys v -> (forall c, ~ json_says v c) ->
    step F url b s (MDidChangeConfiguration (config_of_json v)) =
      Ok (s, if cf_user (tk_config s) then [ESelf MInitialized] else []).
Proof.
  intros T F url b v s Hn Hv. destruct (proj2 (settings_refused F url b 0 None v s Hn Hv)) as (s' & H & ->). exact H.
Qed.
Print Assumptions C112_refused.
(** So it is false that settings that are not understood change nothing: an
    unsaved edit is lost. *)
Theorem C112_refused_change_refuted :
  exists T F url b v (s s1 s2 : task_state T) es uri t t2,
    parse_total T /\ distinct_keys v /\ (forall c, ~ json_says v c) /\
    run_msgs F url b (task0 T) (start c111_readme ++ [MDidOpen uri [97]; c41_edit]) = Ok s /\
    step F url b s (MDidChangeConfiguration (config_of_json v)) = Ok (s1, [ESelf MInitialized]) /\
    step F url b s1 MInitialized = Ok (s2, es) /\
    sget uri (ls_docs (tk_data s)) = Some t /\ sget uri (ls_docs (tk_data s2)) = Some t2 /\ t <> t2.
Proof.
  exists ts_echo, c41_F, any_url, Debug, VNull. do 4 eexists. exists "file:///w/t/a.html"%string, [97; 120], [97].
  split; [intros l c old; discriminate|]. split; [exact I|].
  split; [intros c [(m & E & _)|(l & E & _)]; discriminate E|]. split; [vm_compute; reflexivity|].
  split; [vm_compute; reflexivity|]. split; [vm_compute; reflexivity|]. split; [reflexivity|]. split; [reflexivity|discriminate].
Qed.
Print Assumptions C112_refused_change_refuted.
Definition c112_other : value :=
  VArr [VStr "u"; VArr []; VStr "go"; VBool true].
Example C112_example :
  json_says c112_other (mkcfg "u" [] "go" true (Some true)) /\ distinct_keys c112_other /\
  match run_msgs c41_F any_url Debug (task0 ts_echo) (start c111_readme ++ [MDidChangeConfiguration (config_of_json c112_other); MInitialized]) with
  | Ok s => ls_docs (tk_data s) = [("file:///w/t/a.html"%string, [97])] /\ cf_templates (tk_config s) = "u"%string /\
            cf_templates (ls_config (tk_data s)) = "t"%string
  | Panic => False end.
Proof.
  split; [right; eexists; split; reflexivity|]. split; [exact I|]. vm_compute. auto.
Qed.

(** ** C113: documents of other types *)
(** A document whose name does not end in one of the five known extensions is
    invisible: nothing said about it has an effect and no question about it has
    an answer, at any time. *)
Theorem C113_unserved :
  forall T url b l (y : sys T) s uri,
    parse_total T -> exec url b (sys0 T) l = Some y -> state_of y s ->
    (forall m F, In (m, F) (y_taken y) -> kinds_kept F) -> unserved uri ->
    forall F m, concerning uri m ->
      exists es, step F url b s m = Ok (s, es) /\ (es = [] \/ exists rid, es = [EReply rid RNull]).
Proof. exact @reachable_unserved. Qed.
Print Assumptions C113_unserved.
(** The set-up in the README attaches the server to the files [*.jinja2], too
    (README.md, Neovim configuration): it is silent there, where it would
    report for the same text in a [.j2] file. *)
Definition readme_types : list string := ["jinja"; "jinja2"; "j2"]%string.
Definition named_as (e : string) : string := ("file:///w/t/a." ++ e)%string.
Theorem C113_jinja2_refuted :
  exists T F url b e e' t d (s1 s2 : task_state T),
    parse_total T /\ In e readme_types /\ In e' readme_types /\
    step F url b (task0 T) (MDidOpen (named_as e) t) = Ok (s1, []) /\
    step F url b (task0 T) (MDidOpen (named_as e') t) = Ok (s2, [EDiag [(named_as e', [d])]]).
Proof.
  exists c91_ts, c85_fs, any_url, Debug, "jinja2"%string, "j2"%string, (ascii_text "{{ x }}"). do 3 eexists.
  split; [intros l c old; discriminate|]. split; [cbn; auto|]. split; [cbn; auto|]. split; vm_compute; reflexivity.
Qed.
Print Assumptions C113_jinja2_refuted.
Example C113_example :
  unserved (named_as "jinja2") /\ kinds_kept c85_fs /\
  exists y s, exec any_url Debug (sys0 c91_ts)
      [AClient (MDidOpen (named_as "jinja2") (ascii_text "{{ x }}")); ATake c85_fs; AEffect] = Some y /\ state_of y s.
Proof.
  split; [|split].
  - exact (proj1 (C38_ignored (named_as "jinja2")) eq_refl).
  - intros p n l H. discriminate H.
  - do 2 eexists. split; [vm_compute; reflexivity|]. left. reflexivity.
Qed.
