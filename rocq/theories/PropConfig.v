(** * PropConfig: properties C38 to C41, C74 and C75 (which files are looked
    at, which configuration is used, what indexing and resetting do). *)
From Verif Require Import Base RString Utf8 Rope Types Captures.
From Verif Require Import MDefinition MTemplates MSearchErrors MLspFiles MLspTask.
From Verif Require Import SpecFiles SpecConfig PConfig PropFiles.

(** ** C38: file classification *)
Theorem C38_classification :
  forall p l, file_ext p = Some l <-> classified p l.
Proof. exact file_ext_spec. Qed.
Print Assumptions C38_classification.
Theorem C38_ignored :
  forall p, file_ext p = None <-> forall l, ~ classified p l.
Proof.
  intros p. split.
  - intros H l Hc. apply file_ext_spec in Hc. congruence.
  - intros H. destruct (file_ext p) as [l|] eqn:E; [|reflexivity]. exfalso. apply (H l). now apply file_ext_spec.
Qed.
Print Assumptions C38_ignored.
Theorem C38_dotfiles :
  forall p f e, base_name p f -> f = ("." ++ e)%string -> free_of "." e -> file_ext p = None.
Proof.
  intros p f e Hb -> He. apply C38_ignored. intros l (g & x & Hg & (stem & -> & Hs & Hx) & _).
  apply file_name_base in Hb. apply file_name_base in Hg. rewrite Hb in Hg. injection Hg as Hg.
  destruct stem as [|a stem]; [now apply Hs|]. cbn in Hg. injection Hg as Ha Hg. apply He.
  rewrite Hg. clear. induction stem as [|b stem IH]; [now left|]. right. exact IH.
Qed.
Print Assumptions C38_dotfiles.
Example C38_example :
  file_ext "a/b.c/index.html" = Some Template /\ file_ext "a/x.tar.j2/." = Some Template /\
  file_ext "src/main.rs" = Some Backend /\ file_ext "a/.html" = None /\ file_ext "a.html/b" = None /\
  file_ext "a.HTML" = None /\ file_ext "a.html/.." = None /\
  base_name "a/.html" ".html" /\ classified "t/x.jinja" Template.
Proof.
  do 7 (split; [reflexivity|]). split.
  - apply file_name_base. reflexivity.
  - apply file_ext_spec. reflexivity.
Qed.

(** ** C39: where the configuration comes from *)
Theorem C39_precedence :
  forall T F url b (s s' : task_state T) rid client opts es,
    step F url b s (MInitialize rid client opts) = Ok (s', es) ->
    chosen F opts (tk_config s) (tk_config s') /\ es = [EReply rid RInit] /\
    tk_data s' = set_vscode (match client with
                             | Some n => if string_dec n "Visual Studio Code" then true else ls_vscode (tk_data s)
                             | None => ls_vscode (tk_data s) end) (tk_data s).
Proof.
  intros T F url b s s' rid client opts es H. cbn [step] in H. inversion H; subst. cbn [tk_config tk_data].
  split; [apply init_config_chosen|]. split; [reflexivity|].
  destruct client as [n|].
  - destruct (string_dec n "Visual Studio Code") as [->|E]; [reflexivity|].
    rewrite (proj2 (String.eqb_neq _ _) E). now destruct (tk_data s).
  - now destruct (tk_data s).
Qed.
Print Assumptions C39_precedence.
(** The specification determines the configuration. *)
Theorem C39_determined :
  forall F opts old c c', chosen F opts old c -> chosen F opts old c' -> c = c'.
Proof. exact chosen_fun. Qed.
Print Assumptions C39_determined.
Theorem C39_settings :
  forall T F url b (s s' : task_state T) settings es,
    step F url b s (MDidChangeConfiguration settings) = Ok (s', es) ->
    tk_data s' = tk_data s /\
    match settings with
    | Some c0 => user_config c0 (tk_config s') /\ es = [ESelf MInitialized]
    | None => tk_config s' = tk_config s /\
              es = if cf_user (tk_config s) then [ESelf MInitialized] else []
    end.
Proof.
  intros T F url b s s' settings es H. cbn [step] in H. inversion H; subst. split; [reflexivity|].
  destruct settings as [c|]; cbn [tk_config]; (split; [|reflexivity]); [now apply set_user_spec|reflexivity].
Qed.
Print Assumptions C39_settings.
(** pyproject.toml is empty, Cargo.toml has no such table, jinja-lsp.toml is
    used; unusable options do not matter, usable ones win. *)
Definition c39_cfg := mkcfg "templates" ["src"%string] "rust" false (Some true).
Definition c39_fs : fs :=
  mkfs (fun _ => CanonNotFound)
    (fun p => if String.eqb p "pyproject.toml" then Some []
              else if String.eqb p "Cargo.toml" then Some [97]
              else if String.eqb p "jinja-lsp.toml" then Some [98] else None)
    (fun _ => [])
    (fun c => if String.eqb c "b" then Some c39_cfg else None).
Example C39_example :
  let after opts := match step c39_fs (fun u => Some u) Debug (task0 ts_echo) (MInitialize 0 None opts) with
                    | Ok (s, _) => Some (tk_config s) | Panic => None end in
  after None = Some (mkcfg "templates" ["src"%string] "rust" true (Some true)) /\
  after (Some None) = after None /\
  after (Some (Some (mkcfg "x" [] "python" false None))) = Some (mkcfg "x" [] "python" true None) /\
  first_of c39_fs searched (mkcfg "templates" ["src"%string] "rust" true (Some true)).
Proof.
  do 3 (split; [reflexivity|]). apply search_in_some. reflexivity.
Qed.

(** ** C40: indexing *)
Theorem C40_index :
  forall T F url b (s s' : task_state T) es,
    parse_total T -> step F url b s MInitialized = Ok (s', es) ->
    let c := tk_config s in
    let supported := (cf_lang c = "rust" \/ cf_lang c = "python")%string in
    (supported /\ ~ entry F c WErr /\
     tk_config s' = c /\ indexed F (lang_of c) (entry F c) (tk_data s') /\
     ls_parser (tk_data s') = lang_of c /\ ls_query (tk_data s') = lang_of c /\
     ls_config (tk_data s') = c /\ ls_chan (tk_data s') = true /\ ls_task (tk_data s') = None /\
     ls_vscode (tk_data s') = ls_vscode (tk_data s) /\
     ls_ignore (tk_data s') = (match cf_hide c with Some h => h | None => false end) /\
     exists logs d, es = logs ++ [EDiag d] /\ Forall (fun e => exists m, e = ELog m) logs /\
       (* every indexed template is linted against the complete index *)
       forall uri e, sget uri d = Some e <->
         (exists tr, sget uri (ls_tt (tk_data s')) = Some tr) /\ read_tree F b uri (tk_data s') = Ok (Some e))
    \/ ((~ supported \/ entry F c WErr) /\ s' = s /\ Forall (fun e => exists m, e = ELog m) es).
Proof.
  intros T F url b s s' es Hp H. cbn [step] in H.
  destruct (do_initialized_cases F b s s' es Hp H) as [(H1&H2&H3&_&H4)|H1]; [left|right; exact H1].
  split; [exact H1|]. split; [exact H2|]. split; [exact H3|exact H4].
Qed.
Print Assumptions C40_index.
Definition c40_fs (entries : list wentry) : fs :=
  mkfs (fun p => CanonOk ("/w/" ++ p)%string)
    (fun n => if String.eqb n "/w/t/a.html" then Some [97]
              else if String.eqb n "/w/t/b.py" then Some [98] else None)
    (fun d => if String.eqb d "t" then entries else []) (fun _ => None).
Definition c40_cfg := mkcfg "t" ["src"%string] "rust" true None.
Example C40_example :
  let run es := step (c40_fs es) (fun u => Some u) Debug (mktask c40_cfg (ls_default ts_echo) 3) MInitialized in
  (exists s d, run [WOther "t"; WFile "t/a.html"; WFile "t/b.py"; WFile "t/c.html"; WFile "t/d.txt"]
               = Ok (s, [ELog "Initialized"; EDiag d]) /\
     ls_docs (tk_data s) = [("file:///w/t/a.html"%string, [97]); ("file:///w/t/b.py"%string, [98])] /\
     map fst (ls_tt (tk_data s)) = ["file:///w/t/a.html"%string] /\
     map fst (ls_bt (tk_data s)) = ["file:///w/t/b.py"%string] /\ map fst d = ["file:///w/t/a.html"%string]) /\
  run [WFile "t/a.html"; WErr] =
    Ok (mktask c40_cfg (ls_default ts_echo) 3, [ELog "Initialized"; ELog "error"]) /\
  entry (c40_fs [WFile "t/a.html"; WErr]) c40_cfg WErr.
Proof.
  cbn zeta. split; [|split].
  - do 2 eexists. split; [vm_compute; reflexivity|]. repeat split.
  - vm_compute. reflexivity.
  - exists "t"%string. split; [now left|]. right. now left.
Qed.

(** ** C41: reset discards unsaved edits *)
(** The texts after a reset are those on disk: *)
Theorem C41_reset_texts_partial :
  forall T F url b (s s1 s2 : task_state T) es,
    parse_total T ->
    step F url b s (MExecuteCommand "reset_variables") = Ok (s1, [ESelf MInitialized]) ->
    step F url b s1 MInitialized = Ok (s2, es) ->
    (* either nothing was re-read and every text is kept *)
    (ls_docs (tk_data s2) = ls_docs (tk_data s)) \/
    (* or the texts are those on disk; a text equal to the one on disk is kept,
       a document that is not below the configured directories is forgotten *)
    ((forall uri t l, sget uri (ls_docs (tk_data s)) = Some t ->
        on_disk F (entry F (tk_config s)) uri t l -> sget uri (ls_docs (tk_data s2)) = Some t) /\
     (forall uri, (forall t l, ~ on_disk F (entry F (tk_config s)) uri t l) ->
        sget uri (ls_docs (tk_data s2)) = None) /\
     (forall uri t l, on_disk F (entry F (tk_config s)) uri t l ->
        sget uri (ls_docs (tk_data s2)) = Some t)).
Proof.
  intros T F url b s s1 s2 es Hp H1 H2. cbn in H1. inversion H1; subst s1. cbn [step] in H2.
  destruct (do_initialized_cases F b s s2 es Hp H2) as [(_&_&_&_&I&_)|(_ & -> & _)]; [right|now left].
  assert (Hd : forall uri t l, on_disk F (entry F (tk_config s)) uri t l -> sget uri (ls_docs (tk_data s2)) = Some t).
  { intros uri t l Hd. apply (ix_docs _ _ _ _ I). eauto. }
  split; [intros uri t l _; apply Hd|]. split; [|exact Hd].
  intros uri Hno. destruct (sget uri (ls_docs (tk_data s2))) as [t|] eqn:E; [|reflexivity].
  apply (ix_docs _ _ _ _ I) in E. destruct E as (l & E). exfalso. now apply (Hno t l).
Qed.
Print Assumptions C41_reset_texts_partial.
(** The claim itself is false: index, open, edit, reset. *)
Definition c41_F : fs := c40_fs [WFile "t/a.html"].
Definition c41_edit : msg :=
  MDidChange "file:///w/t/a.html" [mkchange (Some (mkrange (mkpos 0 1) (mkpos 0 1))) [120]].
Fixpoint run_msgs {T} (F : fs) (url : url_parser) (b : build) (s : task_state T) (ms : list msg) : res (task_state T) :=
  match ms with
  | [] => Ok s
  | m :: rest => r <- step F url b s m;; run_msgs F url b (fst r) rest
  end.
Theorem C41_reset_keeps_edits_refuted :
  exists (T : ts) F url b ms (s s2 : task_state T) uri t t2,
    parse_total T /\
    (* a session: initialise, index, open, edit *)
    ms = [MInitialize 0 None (Some (Some c40_cfg)); MInitialized; MDidOpen "file:///w/t/a.html" [97]; c41_edit] /\
    run_msgs F url b (task0 T) ms = Ok s /\
    (* the reset command and the message it sends *)
    run_msgs F url b s [MExecuteCommand "reset_variables"; MInitialized] = Ok s2 /\
    sget uri (ls_docs (tk_data s)) = Some t /\ sget uri (ls_docs (tk_data s2)) = Some t2 /\ t <> t2.
Proof.
  exists ts_echo, c41_F, (fun u => Some u), Debug.
  exists [MInitialize 0 None (Some (Some c40_cfg)); MInitialized; MDidOpen "file:///w/t/a.html" [97]; c41_edit].
  do 2 eexists. exists "file:///w/t/a.html"%string, [97; 120], [97].
  split; [intros l c old; discriminate|]. split; [reflexivity|]. split; [vm_compute; reflexivity|].
  split; [vm_compute; reflexivity|]. split; [vm_compute; reflexivity|]. split; [vm_compute; reflexivity|discriminate].
Qed.
Print Assumptions C41_reset_keeps_edits_refuted.
Example C41_example :
  let s := mktask c40_cfg (ls_default ts_echo) 3 in
  step c41_F (fun u => Some u) Debug s (MExecuteCommand "reset_variables") = Ok (s, [ESelf MInitialized]) /\
  on_disk c41_F (entry c41_F c40_cfg) "file:///w/t/a.html" [97] Template.
Proof.
  split; [reflexivity|]. exists "t/a.html"%string, "/w/t/a.html"%string.
  split; [exists "t"%string; split; [now left|now left]|]. split; [now apply file_ext_spec|]. repeat split.
Qed.

(** ** C74: an index does not depend on what happened before *)
Theorem C74_index_forgets_history :
  forall T F url b (s1 s2 : task_state T),
    tk_config s1 = tk_config s2 -> ls_vscode (tk_data s1) = ls_vscode (tk_data s2) -> tk_next s1 = tk_next s2 ->
    match step F url b s1 MInitialized, step F url b s2 MInitialized with
    | Ok (a1, e1), Ok (a2, e2) => e1 = e2 /\ ((exists d, In (EDiag d) e1) -> a1 = a2)
    | Panic, Panic => True
    | _, _ => False
    end.
Proof. intros T F url b s1 s2. apply do_initialized_history. Qed.
Print Assumptions C74_index_forgets_history.
Example C74_example :
  exists s1 s2 a d,
    run_msgs c41_F (fun u => Some u) Debug (mktask c40_cfg (ls_default ts_echo) 0) [MDidOpen "file:///x.html" [99]] = Ok s1 /\
    run_msgs c41_F (fun u => Some u) Debug (mktask c40_cfg (ls_default ts_echo) 0) [MInitialized; MDidSave "file:///w/t/a.html"] = Ok s2 /\
    ls_docs (tk_data s1) <> ls_docs (tk_data s2) /\
    step c41_F (fun u => Some u) Debug s1 MInitialized = Ok (a, [ELog "Initialized"; EDiag d]) /\
    step c41_F (fun u => Some u) Debug s2 MInitialized = Ok (a, [ELog "Initialized"; EDiag d]).
Proof.
  do 4 eexists. split; [vm_compute; reflexivity|]. split; [vm_compute; reflexivity|].
  split; [vm_compute; discriminate|]. split; vm_compute; reflexivity.
Qed.

(** ** C75: an opened file and its indexed copy are one entry *)
Theorem C75_same_entry_partial :
  forall p, editor_uri p = file_uri p <-> Forall (fun a => unreserved a = true) (list_ascii_of_string p).
Proof. exact editor_uri_plain. Qed.
Print Assumptions C75_same_entry_partial.
(** False for a path with a space: after indexing, opening and editing the
    file there are two copies with different texts. *)
Definition c75_F : fs :=
  mkfs (fun p => CanonOk ("/w/" ++ p)%string) (fun n => Some [97])
    (fun d => if String.eqb d "t" then [WFile "t/a b.html"] else []) (fun _ => None).
Theorem C75_same_entry_refuted :
  exists (T : ts) F url b (s : task_state T) path t1 t2,
    parse_total T /\
    run_msgs F url b (mktask c40_cfg (ls_default T) 0)
      [MInitialized; MDidOpen (editor_uri path) [97];
       MDidChange (editor_uri path) [mkchange (Some (mkrange (mkpos 0 1) (mkpos 0 1))) [120]]] = Ok s /\
    on_disk F (entry F c40_cfg) ("file://" ++ path) t1 Template /\
    sget (editor_uri path) (ls_docs (tk_data s)) = Some t2 /\
    sget ("file://" ++ path)%string (ls_docs (tk_data s)) = Some t1 /\ t1 <> t2 /\
    (exists tr1 tr2, sget (editor_uri path) (ls_tt (tk_data s)) = Some tr2 /\
                     sget ("file://" ++ path)%string (ls_tt (tk_data s)) = Some tr1 /\ tr1 <> tr2).
Proof.
  exists ts_echo, c75_F, (fun u => Some u), Debug. eexists. exists "/w/t/a b.html"%string, [97], [97; 120].
  split; [intros l c old; discriminate|]. split; [vm_compute; reflexivity|].
  split. { exists "t/a b.html"%string, "/w/t/a b.html"%string.
    split; [exists "t"%string; split; [now left|now left]|]. split; [now apply file_ext_spec|]. repeat split. }
  split; [vm_compute; reflexivity|]. split; [vm_compute; reflexivity|]. split; [discriminate|].
  do 2 eexists. split; [vm_compute; reflexivity|]. split; [vm_compute; reflexivity|]. discriminate.
Qed.
Print Assumptions C75_same_entry_refuted.
Example C75_example :
  editor_uri "/w/t/a_1.html" = "file:///w/t/a_1.html"%string /\
  editor_uri "/w/a b%.html" = "file:///w/a%20b%25.html"%string.
Proof. split; reflexivity. Qed.
