(** * MLspTask: what the server task does with one message.
    Model of jinja-lsp/src/channels/lsp.rs (the body of the [while let] loop). *)
From Verif Require Import Base RString Utf8 Rope Types Captures.
From Verif Require Import MDefinition MObjects MTemplates MSearchErrors MLspFiles.

(** jinja-lsp/src/filter/mod.rs:18-59 and template_tests/mod.rs:18-52: the
    names of the documented filters and tests, in order.  The documentation of
    an entry (a Markdown file) is represented by [DocFilter name] /
    [DocTest name]. *)
Definition filter_names : list string :=
  ["abs"; "attr"; "batch"; "bool"; "capitalize"; "default"; "dictsort"; "escape"; "first";
   "float"; "indent"; "int"; "items"; "join"; "last"; "length"; "list"; "lower"; "map"; "max";
   "min"; "pprint"; "rejectattr"; "reject"; "replace"; "reverse"; "round"; "safe"; "selectattr";
   "select"; "slice"; "sort"; "title"; "tojson"; "trim"; "unique"; "upper"; "urlencode"]%string.
Definition test_names : list string :=
  ["boolean"; "defined"; "divisibleby"; "endingwith"; "eq"; "even"; "false"; "filter"; "float";
   "ge"; "gt"; "in"; "integer"; "iterable"; "le"; "lower"; "lt"; "mapping"; "ne"; "none";
   "number"; "odd"; "safe"; "sameas"; "sequence"; "startingwith"; "string"; "test"; "true";
   "undefined"; "upper"]%string.
(** search/snippets_completion.rs:86-180: labels, details and inserted texts of
    the snippets. *)
Definition snippet_table : list (string * string * string) :=
  [("for1", "Basic for loop", " for ${1:i} in ${2:items} %}
{% endfor %}
");
   ("for2", "For loop with key and value", " for (${1:key}, ${2:value}) in ${3:items} %}
{% endfor %}
");
   ("with", "With block", " with $1 %}
{% endwith %}
");
   ("set1", "Set variable that is current scope", " set ${1:key} = ${2:value} %}
            ");
   ("set2", "Set with scope", " set ${1:data} %}
{% endset %}

");
   ("include", "Include template", " include ""$1"" %}
            ");
   ("from", "Import from other template", " from ""$1"" import ${2:module} %}
            ");
   ("import", "Import entire template as module", " import ""$1"" as ${2:module} %}
            ");
   ("extends", "Extend parent template", " extends ""$1"" %}
            ");
   ("if1", "If statement", " if $1 %}
{% endif %}
");
   ("if2", "If statement", " if $1 %}
{% elif $2 %}
{% endif %}
")]%string.

Inductive doc := DocFilter (name : string) | DocTest (name : string) | DocKind (detail : string).

(** Items of a completion reply: a documented name, a plain item, or a snippet
    (with its insert/replace edit unless the client is VS Code,
    channels/lsp.rs:216-238).  [insert_text], [insert_text_format] and
    [additional_text_edits] are never set on a documented name or a snippet. *)
Inductive ritem :=
| RDoc (label : string) (d : doc)
| RItem (i : citem)
| RSnippet (label detail : string) (e : option ctext_edit).

Inductive reply :=
| RInit                                       (* InitializeResult *)
| RCompletion (l : list ritem)
| RHover (d : doc)
| RGoto (g : goto_response)
| RCodeActions (l : list ca_item)
| RSymbols (l : list symbol)
| RNull.                                      (* Ok(None) *)

(** channels/lsp.rs:370-396 [LspMessage]; requests carry the identity of their
    reply channel.  [Initialized] and [ExecuteCommand] carry none: their
    senders pass a channel whose receiving end is already dropped
    (backend.rs:46-52, 119-126; lsp.rs:335, 351). *)
Inductive msg :=
| MInitialize (rid : N) (client : option string) (opts : option (option config))
| MInitialized
| MDidOpen (uri : string) (t : text)
| MDidChange (uri : string) (cs : list change)
| MDidSave (uri : string)
| MCompletion (rid : N) (uri : string) (pos : position) (ctx : option trigger_kind)
| MHover (rid : N) (uri : string) (pos : position)
| MGoto (rid : N) (uri : string) (pos : position)
| MCodeAction (rid : N) (uri : string) (start : position)
| MExecuteCommand (cmd : string)
| MDocumentSymbol (rid : N) (uri : string)
| MDidChangeConfiguration (settings : option config)
| MCodeActions (m : smap (list identifier)).

Inductive timer_kind := TimerEdit | TimerAction.

(** What a handler does besides changing the state, in order. *)
Inductive effect :=
| EDiag (d : diag_msg)                        (* diagnostics_channel.send(..).await *)
| ESelf (m : msg)                             (* lsp_channel.send(..).await *)
| EReply (rid : N) (r : reply)                (* sender.send(..) *)
| EAbort (tid : N)                            (* task.abort() *)
| ETimer (tid : N) (k : timer_kind) (chan : bool) (uri : string)  (* tokio::spawn(sleep; send) *)
| ELog (s : string).                          (* client.log_message(..).await *)

Section Task.
Context (T : ts).

(** channels/lsp.rs:38-39; [tk_next] numbers the timers (no counterpart in the
    code, where the runtime allocates task identities). *)
Record task_state := mktask { tk_config : config; tk_data : lsp_files T; tk_next : N }.
Definition task0 : task_state := mktask config0 (ls_default T) 0.

(** channels/lsp.rs:52-61. *)
Definition init_config (F : fs) (opts : option (option config)) (old : config) : config :=
  match opts with
  | Some (Some c) => set_user c
  | _ => match search_config F with Some c => c | None => old end
  end.

(** channels/lsp.rs:112-148 [Initialized]. *)
Definition do_initialized (F : fs) (b : build) (s : task_state) : res (task_state * list effect) :=
  let c := tk_config s in
  let logs := ELog "Initialized" ::
              (if cf_user c then [] else [ELog "Config doesn't exist."]) ++
              (if String.eqb (cf_templates c) "" then [ELog "Template directory not found"] else []) in
  if negb (str_mem (cf_lang c) ["rust"; "python"]%string) then
    Ok (s, logs ++ [ELog "Backend language not supported"])
  else
    r <- walkdir T F b c;;
    match r with
    | None => Ok (s, logs ++ [ELog "error"])
    | Some (d, data) =>
        let data' := mkls (ls_tt data) (ls_bt data) (ls_docs data) (ls_parser data) (ls_query data)
                       c (ls_task data) true (ls_vars data) (ls_actions data)
                       (ls_vscode (tk_data s)) (ls_ignore data) in
        Ok (mktask c data' (tk_next s), logs ++ [EDiag d])
    end.

(** channels/lsp.rs:157-259 [Completion]. *)
Definition do_completion (b : build) (uri : string) (pos : position) (ctx : option trigger_kind)
  (d : lsp_files T) : res (option (list ritem)) :=
  c <- completion b uri pos ctx d;;
  Ok (match c with
      | None => None
      | Some (ct, _) =>
          match ct with
          | CtFilter => Some (map (fun n => RDoc n (DocFilter n)) filter_names)
          | CtTest => Some (map (fun n => RDoc n (DocTest n)) test_names)
          | CtIdentifier =>
              match read_variables uri pos None None d with
              | Some l => Some (map RItem l)
              | None => None
              end
          | CtIncludedTemplate name r =>
              match read_templates name r pos d with
              | Some l => Some (map RItem l)
              | None => None
              end
          | CtSnippets r =>
              Some (map (fun x => let '(label, detail, new_text) := x in
                      RSnippet label detail
                        (if ls_vscode d then None else Some (CInsertReplace new_text r r)))
                      snippet_table)
          | CtIncompleteIdentifier name r =>
              match read_variables uri pos (Some (name, r)) None d with
              | Some l => Some (map RItem l)
              | None => None
              end
          | CtIncompleteFilter _ _ => None
          end
      end).

(** channels/lsp.rs:260-311 [Hover]. *)
Definition do_hover (b : build) (uri : string) (pos : position) (d : lsp_files T)
  : res (option doc) :=
  h <- hover b uri pos d;;
  Ok (match h with
      | None => None
      | Some (i, CtFilter) =>
          if str_mem (id_name i) filter_names then Some (DocFilter (id_name i)) else None
      | Some (i, CtTest) =>
          if str_mem (id_name i) test_names then Some (DocTest (id_name i)) else None
      | Some (i, _) =>
          match data_type uri i d with
          | Some t => Some (DocKind (completion_detail t))
          | None => None
          end
      end).

Definition with_data (d : lsp_files T) (s : task_state) : task_state :=
  mktask (tk_config s) d (tk_next s).
Definition with_timer (d : lsp_files T) (s : task_state) : task_state :=
  mktask (tk_config s) d (tk_next s + 1).

(** channels/lsp.rs:44-366: one iteration of the loop. *)
Definition step (F : fs) (url : url_parser) (b : build) (s : task_state) (m : msg)
  : res (task_state * list effect) :=
  let d := tk_data s in
  match m with
  | MInitialize rid client opts =>
      let d' := match client with
                | Some n => if String.eqb n "Visual Studio Code" then set_vscode true d else d
                | None => d
                end in
      Ok (mktask (init_config F opts (tk_config s)) d' (tk_next s), [EReply rid RInit])
  | MInitialized => do_initialized F b s
  | MDidChange uri cs =>
      r <- did_change (tk_next s) uri cs d;;
      match snd r with
      | None => Ok (with_data (fst r) s, [])
      | Some te =>
          Ok (with_timer (fst r) s,
              match te_abort te with Some a => [EAbort a] | None => [] end ++
              [ETimer (te_spawn te) TimerEdit (ls_chan d) uri])
      end
  | MDidSave uri =>
      r <- did_save F b uri d;;
      Ok (with_data (fst r) s, match snd r with Some e => [EDiag e] | None => [] end)
  | MDidOpen uri t =>
      r <- did_open F b uri t false d;;
      Ok (with_data (fst r) s, match snd r with Some e => [EDiag e] | None => [] end)
  | MCompletion rid uri pos ctx =>
      r <- do_completion b uri pos ctx d;;
      Ok (s, [EReply rid (match r with Some l => RCompletion l | None => RNull end)])
  | MHover rid uri pos =>
      r <- do_hover b uri pos d;;
      Ok (s, [EReply rid (match r with Some h => RHover h | None => RNull end)])
  | MGoto rid uri pos =>
      r <- goto_definition F url b uri pos d;;
      Ok (s, match r with Some g => [EReply rid (RGoto g)] | None => [] end)
  | MCodeAction rid uri pos =>
      r <- code_action b uri pos d;;
      match r with
      | None => Ok (s, [])
      | Some a =>
          p <- process_code_actions F url a d;;
          if snd p then
            Ok (with_timer d s, [ETimer (tk_next s) TimerAction (ls_chan d) uri;
                                 EReply rid (RCodeActions (fst p))])
          else Ok (s, [EReply rid (RCodeActions (fst p))])
      end
  | MExecuteCommand cmd =>
      if String.eqb cmd "reset_variables" then Ok (s, [ESelf MInitialized]) else Ok (s, [])
  | MDocumentSymbol rid uri =>
      Ok (s, match document_symbols uri d with
             | Some l => [EReply rid (RSymbols l)] | None => [] end)
  | MDidChangeConfiguration settings =>
      let c := match settings with Some c => set_user c | None => tk_config s end in
      Ok (mktask c d (tk_next s), if cf_user c then [ESelf MInitialized] else [])
  | MCodeActions m => Ok (with_data (add_code_actions m d) s, [])
  end.

End Task.
Arguments mktask {T}. Arguments tk_config {T}. Arguments tk_data {T}. Arguments tk_next {T}.
Arguments step {T}. Arguments do_initialized {T}. Arguments do_completion {T}.
Arguments do_hover {T}. Arguments with_data {T}. Arguments with_timer {T}.
