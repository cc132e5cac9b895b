(** * PropExtension: property C120 (settings in Visual Studio Code). *)
From Verif Require Import Base RString Utf8 Rope Types Captures.
From Verif Require Import MSearchErrors MLspFiles MLspTask MSettings MExtension.
From Verif Require Import SpecText SpecFiles SpecConfig SpecServer SpecSettings SpecExtension.
From Verif Require Import PExtension PropFiles PropObjects PropLint PropConfig PropServer PropSettings.

(** The settings the user has made, with the defaults of the others, are exactly
    what the server understands. *)
Theorem C120_understood :
  forall user c, NoDup (map fst user) ->
    (config_of_json (client_options user) = Some c <-> settings_say user c /\ cf_user c = false).
Proof. exact options_understood. Qed.
Print Assumptions C120_understood.
(** They are used: the index then holds exactly the files below the directories
    they name, and the answers are made for Visual Studio Code. *)
Theorem C120_used :
  forall T F url b rid user c (s s1 s2 : task_state T) es1 es2,
    parse_total T -> NoDup (map fst user) -> settings_say user c ->
    (cf_lang c = "rust" \/ cf_lang c = "python")%string -> ~ entry F c WErr ->
    forall m1 m2, extension_start rid user = [m1; m2] ->
    step F url b s m1 = Ok (s1, es1) -> step F url b s1 m2 = Ok (s2, es2) ->
    user_config c (tk_config s2) /\ SpecConfig.indexed F (SpecConfig.lang_of c) (entry F c) (tk_data s2) /\
    ls_ignore (tk_data s2) = (match cf_hide c with Some h => h | None => false end) /\ ls_vscode (tk_data s2) = true.
Proof. exact @extension_used. Qed.
Print Assumptions C120_used.
(** Configuration files, however, are not looked at: what the server makes of the
    first message does not depend on the disk, even if the user has set nothing. *)
Theorem C120_files_ignored :
  forall T F F' url b rid user c (s : task_state T), NoDup (map fst user) -> settings_say user c ->
    forall m1 m2, extension_start rid user = [m1; m2] -> step F url b s m1 = step F' url b s m1.
Proof. exact @files_ignored. Qed.
Print Assumptions C120_files_ignored.
(** So it is false that a configuration file is used when the user has made no
    settings: a project whose [pyproject.toml] names its directories, and whose
    templates are indexed in an editor that sends no options. *)
Definition c120_toml : config := mkcfg "t" [] "rust" false None.
Definition c120_F : fs := mkfs (f_canon c41_F)
  (fun p => if String.eqb p "pyproject.toml" then Some (ascii_text "[jinja-lsp]") else f_read c41_F p)
  (fun d => if String.eqb d "t" then f_walk c41_F d else [])
  (fun src => if String.eqb src "[jinja-lsp]" then Some c120_toml else None).
Theorem C120_file_refuted :
  exists T F url b (s s' : task_state T) c,
    parse_total T /\ file_gives F "pyproject.toml" c /\ settings_say [] (mkcfg "./templates" ["./src"%string] "rust" false None) /\
    run_msgs F url b (task0 T) (extension_start 0 []) = Ok s /\ ls_docs (tk_data s) = [] /\ tk_config s <> c /\
    run_msgs F url b (task0 T) [MInitialize 0 None None; MInitialized] = Ok s' /\
    ls_docs (tk_data s') = [("file:///w/t/a.html"%string, [97])] /\ tk_config s' = c.
Proof.
  exists ts_echo, c120_F, any_url, Debug. do 2 eexists. exists (mkcfg "t" [] "rust" true None).
  split; [intros l c old; discriminate|].
  split; [exists (ascii_text "[jinja-lsp]"), c120_toml; split; [reflexivity|]; split; [discriminate|]; split; [reflexivity|]; repeat split|].
  split; [split; [|split; [|split]]; right; (split; [intros w []|reflexivity])|].
  split; [vm_compute; reflexivity|]. split; [reflexivity|]. split; [discriminate|].
  split; [vm_compute; reflexivity|]. split; reflexivity.
Qed.
Print Assumptions C120_file_refuted.
Definition c120_user : list (string * value) := [("templates", VStr "t"); ("hide_undefined", VBool true); ("trace", VOther)]%string.
Definition c120_cfg : config := mkcfg "t" ["./src"%string] "rust" false (Some true).
Example C120_example :
  NoDup (map fst c120_user) /\ settings_say c120_user c120_cfg /\ ~ entry c120_F c120_cfg WErr /\
  config_of_json (client_options c120_user) = Some c120_cfg /\
  config_of_json (client_options [("backend"%string, VStr "src")]) = None /\
  match run_msgs c120_F any_url Debug (task0 ts_echo) (extension_start 0 c120_user) with
  | Ok s => ls_docs (tk_data s) = [("file:///w/t/a.html"%string, [97])] /\ ls_ignore (tk_data s) = true /\ ls_vscode (tk_data s) = true
  | Panic => False end.
Proof.
  split; [repeat constructor; cbn; intuition discriminate|].
  split. { split; [left; now left|]. split; [right; split; [intros w [H|[H|[H|[]]]]; discriminate H|reflexivity]|].
           split; [right; split; [intros w [H|[H|[H|[]]]]; discriminate H|reflexivity]|]. right. now left. }
  split. { intros (d & Hd & Hi). cbn in Hd. destruct Hd as [->|[<-|[]]]; cbn in Hi; [destruct Hi as [Hi|[]]; discriminate Hi|destruct Hi]. }
  split; [vm_compute; reflexivity|]. split; [vm_compute; reflexivity|]. vm_compute. repeat split.
Qed.
