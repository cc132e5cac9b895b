(** * MLspFiles: the document store and the request handlers.
    Model of jinja-lsp/src/lsp_files.rs and of [file_ext] / [walkdir] /
    [search_config] in jinja-lsp/src/config.rs. *)
From Verif Require Import Base RString Utf8 Rope Types Captures.
From Verif Require Import MDefinition MObjects MTemplates MSearchErrors.

(** config.rs:51-60 [file_ext]. *)
Definition file_ext (path : string) : option lang_type :=
  match path_extension path with
  | None => None
  | Some e =>
      if str_mem e ["html"; "jinja"; "j2"]%string then Some Template
      else if str_mem e ["rs"; "py"]%string then Some Backend
      else None
  end.

(** config.rs:34-48 [search_config]; [read] is [read_to_string] of a file in
    the working directory with errors mapped to the empty string. *)
Definition config_files : list string := ["pyproject.toml"; "Cargo.toml"; "jinja-lsp.toml"]%string.
Definition set_user (c : config) : config :=
  mkcfg (cf_templates c) (cf_backend c) (cf_lang c) true (cf_hide c).
Fixpoint search_config_in (F : fs) (files : list string) : option config :=
  match files with
  | [] => None
  | f :: rest =>
      match f_read F f with
      | None => search_config_in F rest
      | Some [] => search_config_in F rest
      | Some t =>
          match f_toml F (encode t) with
          | Some c => Some (set_user c)
          | None => search_config_in F rest
          end
      end
  end.
Definition search_config (F : fs) : option config := search_config_in F config_files.

Section LspFiles.
Context (T : ts).

(** lsp_files.rs:50-62.  The map [trees] always has exactly the two keys
    inserted by [default] (lsp_files.rs:917-919), so it is two fields here.
    [ls_task] is the identity of the refresh timer held in [diagnostics_task];
    [ls_chan] says whether [main_channel] is set.  Parsers and queries are
    represented by the backend language they were built for. *)
Record lsp_files := mkls {
  ls_tt : smap (tree T);                 (* trees[Template] *)
  ls_bt : smap (tree T);                 (* trees[Backend] *)
  ls_docs : smap text;
  ls_parser : plang;
  ls_query : plang;
  ls_config : config;
  ls_task : option N;
  ls_chan : bool;
  ls_vars : smap (list identifier);
  ls_actions : smap (list identifier);
  ls_vscode : bool;
  ls_ignore : bool }.

(** lsp_files.rs:915-936 [Default]. *)
Definition ls_default : lsp_files :=
  mkls [] [] [] PRust PRust config0 None false [] [] false false.

Definition trees_of (l : lang_type) (s : lsp_files) : smap (tree T) :=
  match l with Template => ls_tt s | Backend => ls_bt s end.
Definition set_trees (l : lang_type) (m : smap (tree T)) (s : lsp_files) : lsp_files :=
  match l with
  | Template => mkls m (ls_bt s) (ls_docs s) (ls_parser s) (ls_query s) (ls_config s) (ls_task s)
                  (ls_chan s) (ls_vars s) (ls_actions s) (ls_vscode s) (ls_ignore s)
  | Backend => mkls (ls_tt s) m (ls_docs s) (ls_parser s) (ls_query s) (ls_config s) (ls_task s)
                 (ls_chan s) (ls_vars s) (ls_actions s) (ls_vscode s) (ls_ignore s)
  end.
Definition set_docs (m : smap text) (s : lsp_files) : lsp_files :=
  mkls (ls_tt s) (ls_bt s) m (ls_parser s) (ls_query s) (ls_config s) (ls_task s)
    (ls_chan s) (ls_vars s) (ls_actions s) (ls_vscode s) (ls_ignore s).
Definition set_vars (m : smap (list identifier)) (s : lsp_files) : lsp_files :=
  mkls (ls_tt s) (ls_bt s) (ls_docs s) (ls_parser s) (ls_query s) (ls_config s) (ls_task s)
    (ls_chan s) m (ls_actions s) (ls_vscode s) (ls_ignore s).
Definition set_actions (m : smap (list identifier)) (s : lsp_files) : lsp_files :=
  mkls (ls_tt s) (ls_bt s) (ls_docs s) (ls_parser s) (ls_query s) (ls_config s) (ls_task s)
    (ls_chan s) (ls_vars s) m (ls_vscode s) (ls_ignore s).
Definition set_task (t : option N) (s : lsp_files) : lsp_files :=
  mkls (ls_tt s) (ls_bt s) (ls_docs s) (ls_parser s) (ls_query s) (ls_config s) t
    (ls_chan s) (ls_vars s) (ls_actions s) (ls_vscode s) (ls_ignore s).
Definition set_vscode (v : bool) (s : lsp_files) : lsp_files :=
  mkls (ls_tt s) (ls_bt s) (ls_docs s) (ls_parser s) (ls_query s) (ls_config s) (ls_task s)
    (ls_chan s) (ls_vars s) (ls_actions s) v (ls_ignore s).
(** [update_backend] of parsers.rs:23-30 and search/queries.rs:42-52: only
    "python" has an effect. *)
Definition update_backend (lang : string) (s : lsp_files) : lsp_files :=
  if String.eqb lang "python" then
    mkls (ls_tt s) (ls_bt s) (ls_docs s) PPython PPython (ls_config s) (ls_task s)
      (ls_chan s) (ls_vars s) (ls_actions s) (ls_vscode s) (ls_ignore s)
  else s.

(** parsers.rs:11-21 [Parsers::parse]. *)
Definition parse (s : lsp_files) (l : lang_type) (content : string) (old : option (tree T))
  : option (tree T) :=
  t_parse T (match l with Template => PJinja | Backend => ls_parser s end) content old.

(** lsp_files.rs:124-146 [add_tree]: parses with the stored tree, if any, as
    old tree; a failed parse keeps what was there. *)
Definition add_tree (name : string) (l : lang_type) (content : string) (s : lsp_files) : lsp_files :=
  match parse s l content (sget name (trees_of l s)) with
  | Some t => set_trees l (sinsert name t (trees_of l s)) s
  | None => s
  end.

(** lsp_files.rs:79-122 [add_variables]. *)
Definition add_variables (name : string) (l : lang_type) (content : string) (s : lsp_files)
  : res lsp_files :=
  match sget name (trees_of l s) with
  | None => Ok s
  | Some tr =>
      let store vs := set_actions (sinsert name [] (ls_actions s))
                        (set_vars (sinsert name vs (ls_vars s)) s) in
      match l with
      | Backend =>
          ids <- backend_definition_query (t_captures T (QBackendDefs (ls_query s)) tr content)
                   pt0 content true;;
          tpl <- backend_templates_query (t_captures T (QBackendTemplates (ls_query s)) tr content)
                   pt0 content true;;
          Ok (store (ids ++ bt_templates tpl))
      | Template =>
          sn <- snippets_query (t_captures T QSnippets tr content) pt0 true;;
          if sn_error sn then Ok s
          else
            d <- definition_query (t_captures T QDefinitions tr content) (t_root_end T tr)
                   pt0 content true;;
            Ok (store (def_identifiers d))
      end
  end.

(** lsp_files.rs:65-77 [read_file]. *)
Definition file_uri (p : string) : string := ("file://" ++ p)%string.
Definition read_file (F : fs) (path : string) (l : lang_type) (s : lsp_files) : res lsp_files :=
  match f_canon F path with
  | CanonOk name =>
      match f_read F name with
      | None => Ok s
      | Some t =>
          let uri := file_uri name in
          let content := encode t in
          let s1 := set_docs (sinsert uri t (ls_docs s)) s in
          add_variables uri l content (add_tree uri l content s1)
      end
  | _ => Ok s
  end.

(** lsp_files.rs:148-163 [input_edit]: [old_tree.edit] mutates the stored tree
    even when the parse then fails. *)
Definition input_edit_tree (file : string) (code : string) (ie : input_edit)
  (l : option lang_type) (s : lsp_files) : lsp_files :=
  match l with
  | None => s
  | Some l =>
      match sget file (trees_of l s) with
      | None => s
      | Some old =>
          let edited := t_edit T old ie in
          let s1 := set_trees l (sinsert file edited (trees_of l s)) s in
          match parse s1 l code (Some edited) with
          | None => s1
          | Some new => set_trees l (sinsert file new (trees_of l s1)) s1
          end
      end
  end.

(** [TextDocumentContentChangeEvent]. *)
Record change := mkchange { ch_range : option range; ch_text : text }.

(** lsp_files.rs:170-186: the loop over the changes of one notification.  The
    rope is mutated in place, so the third component is the text also when the
    loop is left early by [change.range?] (the boolean is "left early"). *)
Fixpoint apply_changes (t : text) (cs : list change)
  : res (text * bool * list (string * input_edit)) :=
  match cs with
  | [] => Ok (t, false, [])
  | c :: rest =>
      match ch_range c with
      | None => Ok (t, true, [])
      | Some r =>
          te <- apply_change t r (ch_text c);;
          x <- apply_changes (fst te) rest;;
          let '(t2, early, edits) := x in
          Ok (t2, early, (rope_content (fst te), snd te) :: edits)
      end
  end.

Definition apply_edits (uri : string) (l : option lang_type) (edits : list (string * input_edit))
  (s : lsp_files) : lsp_files :=
  fold_left (fun s e => input_edit_tree uri (fst e) (snd e) l s) edits s.

(** What happens to the refresh timer: the task to abort and the one started. *)
Record timer_effect := mktimer { te_abort : option N; te_spawn : N }.

(** lsp_files.rs:165-205 [did_change]; [tid] is the identity of the timer task
    spawned, if any. *)
Definition did_change (tid : N) (uri : string) (cs : list change) (s : lsp_files)
  : res (lsp_files * option timer_effect) :=
  match sget uri (ls_docs s) with
  | None => Ok (s, None)
  | Some t =>
      x <- apply_changes t cs;;
      let '(t2, early, edits) := x in
      let s1 := set_docs (sinsert uri t2 (ls_docs s)) s in
      if early then Ok (s1, None)
      else
        let s2 := apply_edits uri (file_ext uri) edits s1 in
        Ok (set_task (Some tid) s2, Some (mktimer (ls_task s2) tid))
  end.

(** lsp_files.rs:207-225 [read_tree]. *)
Definition read_tree (F : fs) (b : build) (name : string) (s : lsp_files) : res (option errors) :=
  match sget name (ls_docs s) with
  | None => Ok None
  | Some t =>
      match file_ext name with
      | None => Ok None
      | Some l =>
          match sget name (trees_of l s) with
          | None => Ok None
          | Some tr =>
              search_errors T F b tr (rope_content t) (ls_vars s) name
                (cf_templates (ls_config s)) l (ls_ignore s)
          end
      end
  end.

(** lsp_files.rs:327-331 [delete_variables]. *)
Definition delete_variables (uri : string) (s : lsp_files) : lsp_files :=
  match sget uri (ls_vars s) with
  | None => s
  | Some _ => set_vars (sinsert uri [] (ls_vars s)) s
  end.

(** The map inside [DiagnosticMessage::Errors] (channels/diagnostics.rs:55-59). *)
Definition diag_msg := smap errors.

(** lsp_files.rs:227-246 [did_save]. *)
Definition did_save (F : fs) (b : build) (uri : string) (s : lsp_files)
  : res (lsp_files * option diag_msg) :=
  match file_ext uri with
  | None => Ok (s, None)
  | Some l =>
      match sget uri (ls_docs s) with
      | None => Ok (s, None)
      | Some t =>
          s1 <- add_variables uri l (rope_content t) (delete_variables uri s);;
          v <- read_tree F b uri s1;;
          Ok (s1, Some [(uri, match v with Some v => v | None => [] end)])
      end
  end.

(** lsp_files.rs:782-803 [did_open]. *)
Definition did_open (F : fs) (b : build) (uri : string) (t : text) (ignore : bool) (s : lsp_files)
  : res (lsp_files * option diag_msg) :=
  match file_ext uri with
  | None => Ok (s, None)
  | Some l =>
      let content := encode t in
      let s1 := delete_variables uri s in
      let s2 := set_docs (sinsert uri t (ls_docs s1)) s1 in
      s3 <- add_variables uri l content (add_tree uri l content s2);;
      if ignore then Ok (s3, Some [])
      else
        v <- read_tree F b uri s3;;
        match v with
        | None => Ok (s3, None)
        | Some v => Ok (s3, Some [(uri, v)])
        end
  end.

(** LSP [CompletionContext.trigger_kind]. *)
Inductive trigger_kind := TkInvoked | TkTriggerCharacter | TkIncomplete.

Definition point_of (p : position) : point := mkpt (line p) (character p).

(** lsp_files.rs:248-325 [completion]. *)
Definition completion (b : build) (uri : string) (pos : position) (ctx : option trigger_kind)
  (s : lsp_files) : res (option (completion_type * bool)) :=
  let can := match ctx with Some TkTriggerCharacter | Some TkInvoked => true | _ => false end in
  if negb can then Ok None
  else
    let tp := point_of pos in
    match file_ext uri with
    | None => Ok None
    | Some l =>
        match sget uri (trees_of l s) with
        | None => Ok None
        | Some tr =>
            match sget uri (ls_docs s) with
            | None => Ok None
            | Some t =>
                let content := rope_content t in
                match l with
                | Template =>
                    sn <- snippets_query (t_captures T QSnippets tr content) tp false;;
                    tc <- to_complete b sn tp;;
                    if is_some tc then
                      let p := to_position2 tp in
                      ch <- u32_add b (character p) 1;;
                      Ok (Some (CtSnippets (mkrange p (mkpos (line p) ch)), false))
                    else
                      objs <- objects_query b (t_captures T QObjects tr content) tp content false;;
                      c <- obj_completion b objs tp;;
                      match c with
                      | Some c => Ok (Some c)
                      | None =>
                          imps <- templates_query (t_captures T QImports tr content) tp content false;;
                          match in_template imps with
                          | None => Ok None
                          | Some im =>
                              match import_get im tp with
                              | None => Ok None
                              | Some i =>
                                  st <- completion_start b tp i;;
                                  match st with
                                  | None => Ok None
                                  | Some n =>
                                      Ok (Some (CtIncludedTemplate n
                                                  (to_range (id_start i, id_end i)), false))
                                  end
                              end
                          end
                      end
                | Backend =>
                    bt <- backend_templates_query
                            (t_captures T (QBackendTemplates (ls_query s)) tr content) tp content false;;
                    match bt_in_template bt tp with
                    | None => Ok None
                    | Some i =>
                        st <- completion_start b tp i;;
                        match st with
                        | None => Ok None
                        | Some n =>
                            Ok (Some (CtIncludedTemplate n (to_range (id_start i, id_end i)), false))
                        end
                    end
                end
            end
        end
    end.

(** lsp_files.rs:333-374 [hover]. *)
Definition hover (b : build) (uri : string) (pos : position) (s : lsp_files)
  : res (option (identifier * completion_type)) :=
  match file_ext uri with
  | Some Template =>
      let tp := point_of pos in
      match sget uri (ls_tt s) with
      | None => Ok None
      | Some tr =>
          match sget uri (ls_docs s) with
          | None => Ok None
          | Some t =>
              let content := rope_content t in
              objs <- objects_query b (t_captures T QObjects tr content) tp content false;;
              if is_hover objs tp then
                match get_last_id objs with
                | None => Ok None
                | Some o =>
                    Ok (Some (id_of_obj o,
                              if o_is_filter o then CtFilter
                              else if o_is_test o then CtTest else CtIdentifier))
                end
              else Ok None
          end
      end
  | _ => Ok None
  end.

Record location := mkloc { loc_uri : string; loc_range : range }.
(** [GotoDefinitionResponse]. *)
Inductive goto_response := GScalar (l : location) | GArray (l : list location).

(** [Url::parse]: the normalised URL, or an error. *)
Definition url_parser := string -> option string.

(** lsp_files.rs:404-417: the local definition. *)
Definition goto_visible (tp : point) (name : string) (v : identifier) : bool :=
  String.eqb (id_name v) name && pt_leb (id_start v) tp && pt_leb tp (snd (id_scope v)).
Definition goto_local (uri : string) (tp : point) (ident : option string) (s : lsp_files)
  : option goto_response :=
  match ident with
  | None => None
  | Some name =>
      match sget uri (ls_vars s) with
      | None => None
      | Some vs =>
          match iter_max (filter (goto_visible tp name) vs) with
          | None => None
          | Some m => Some (GScalar (mkloc uri (to_range (id_start m, id_end m))))
          end
      end
  end.

(** lsp_files.rs:423-430 and 470-477: the file a template reference resolves
    to.  The name is pushed as one path (no [path_items]). *)
Definition goto_template (F : fs) (url : url_parser) (name : string) (s : lsp_files)
  : option goto_response :=
  match f_canon F (path_push (cf_templates (ls_config s)) name) with
  | CanonOk p =>
      match url (file_uri p) with
      | Some u => Some (GScalar (mkloc u range0))
      | None => None
      end
  | _ => None
  end.

(** lsp_files.rs:442-457: the locations contributed by one other file. *)
Fixpoint goto_file (url : url_parser) (ident : string) (file : string) (vs : list identifier)
  : res (list location) :=
  match vs with
  | [] => Ok []
  | v :: rest =>
      if String.eqb (first_segment (id_name v)) ident then
        let raw := if pt_eqb (id_start v) pt0 && pt_eqb (id_end v) pt0
                   then (file ++ "-" ++ id_name v)%string else file in
        match url raw with
        | None => Panic                                        (* .unwrap() *)
        | Some u =>
            more <- goto_file url ident file rest;;
            Ok (mkloc u (to_range (id_start v, id_end v)) :: more)
        end
      else goto_file url ident file rest
  end.
(** lsp_files.rs:434-459. *)
Fixpoint goto_others (url : url_parser) (ident uri : string) (vars : smap (list identifier))
  : res (list location) :=
  match vars with
  | [] => Ok []
  | (file, vs) :: rest =>
      if String.eqb file uri then goto_others url ident uri rest
      else
        a <- goto_file url ident file vs;;
        more <- goto_others url ident uri rest;;
        Ok (a ++ more)
  end.

(** lsp_files.rs:376-480 [goto_definition]. *)
Definition goto_definition (F : fs) (url : url_parser) (b : build) (uri : string) (pos : position)
  (s : lsp_files) : res (option goto_response) :=
  match file_ext uri with
  | None => Ok None
  | Some l =>
      match sget uri (trees_of l s) with
      | None => Ok None
      | Some tr =>
          let tp := point_of pos in
          match sget uri (ls_docs s) with
          | None => Ok None
          | Some t =>
              let content := rope_content t in
              match l with
              | Template =>
                  objs <- objects_query b (t_captures T QObjects tr content) tp content false;;
                  let ident := is_ident objs tp in
                  match goto_local uri tp ident s with
                  | Some r => Ok (Some r)
                  | None =>
                      imps <- templates_query (t_captures T QImports tr content) tp content false;;
                      let tpl := match in_template imps with
                                 | None => None
                                 | Some im =>
                                     match import_get im tp with
                                     | None => None
                                     | Some i => goto_template F url (id_name i) s
                                     end
                                 end in
                      match tpl with
                      | Some r => Ok (Some r)
                      | None =>
                          let cur := match ident with Some n => n | None => EmptyString end in
                          locs <- goto_others url cur uri (ls_vars s);;
                          Ok (Some (GArray locs))
                      end
                  end
              | Backend =>
                  bt <- backend_templates_query
                          (t_captures T (QBackendTemplates (ls_query s)) tr content) tp content false;;
                  match bt_in_template bt tp with
                  | None => Ok None
                  | Some i => Ok (goto_template F url (id_name i) s)
                  end
              end
          end
      end
  end.

(** lsp_files.rs:1002-1005. *)
Inductive jcode_action := CaReset | CaCreate (name : string).

(** lsp_files.rs:482-519 [code_action]; [pos] is the start of the range. *)
Definition code_action (b : build) (uri : string) (pos : position) (s : lsp_files)
  : res (option jcode_action) :=
  match file_ext uri with
  | None => Ok None
  | Some l =>
      let tp := point_of pos in
      match sget uri (trees_of l s) with
      | None => Ok None
      | Some tr =>
          match sget uri (ls_actions s) with
          | None => Ok None
          | Some acts =>
              match l with
              | Template =>
                  match sget uri (ls_docs s) with
                  | None => Ok None
                  | Some t =>
                      let content := rope_content t in
                      match find (in_id tp) acts with
                      | Some i => Ok (Some (CaCreate (id_name i)))
                      | None =>
                          objs <- objects_query b (t_captures T QObjects tr content) tp content false;;
                          if in_expr objs tp then Ok (Some CaReset) else Ok None
                      end
                  end
              | Backend =>
                  match find (in_id tp) acts with
                  | Some i => Ok (Some (CaCreate (id_name i)))
                  | None => Ok None
                  end
              end
          end
      end
  end.

(** The code actions sent to the client (titles and fixed fields dropped):
    a command, or the creation of a file. *)
Inductive ca_item := CaCommand (title cmd : string) | CaCreateFile (uri : string).

(** lsp_files.rs:521-583 [process_code_actions]; the boolean says whether the
    1400 ms refresh timer is started. *)
Definition process_code_actions (F : fs) (url : url_parser) (a : jcode_action) (s : lsp_files)
  : res (list ca_item * bool) :=
  match a with
  | CaReset =>
      Ok ([CaCommand "Reset variables" "reset_variables"; CaCommand "Warn about unused" "warn"]%string,
          false)
  | CaCreate name =>
      match f_canon F (cf_templates (ls_config s)) with
      | CanonOk p =>
          match url ("file:///" ++ path_push p (path_items name))%string with
          | None => Panic                                      (* .unwrap() *)
          | Some u => Ok ([CaCreateFile u], true)
          end
      | _ => Ok ([], true)
      end
  end.

(** lsp_files.rs:585-593 [add_code_actions]. *)
Definition add_code_actions (m : smap (list identifier)) (s : lsp_files) : lsp_files :=
  set_actions (fold_left (fun acts kv => sinsert (fst kv) (snd kv) acts) m (ls_actions s)) s.

(** lsp_files.rs:595-602 [read_trees]. *)
Fixpoint read_trees_in (F : fs) (b : build) (names : list string) (s : lsp_files) (d : diag_msg)
  : res diag_msg :=
  match names with
  | [] => Ok d
  | n :: rest =>
      e <- read_tree F b n s;;
      read_trees_in F b rest s (match e with Some e => sinsert n e d | None => d end)
  end.
Definition read_trees (F : fs) (b : build) (s : lsp_files) : res diag_msg :=
  read_trees_in F b (map fst (ls_tt s)) s [].

(** LSP [TextEdit] / [CompletionTextEdit] / [CompletionItem] (used fields). *)
Record text_edit := mkte { te_range : range; te_text : string }.
Inductive ctext_edit := CEdit (e : text_edit) | CInsertReplace (new_text : string) (ins rep : range).
Record citem := mkci {
  ci_label : string; ci_detail : option string; ci_kind : kind;
  ci_edit : option ctext_edit; ci_additional : option (list text_edit) }.

Definition plain_item (v : identifier) : citem :=
  mkci (id_name v) (Some (completion_detail (id_type v))) (completion_kind (id_type v)) None None.

(** lsp_files.rs:639-668: the item for one local variable. *)
Definition local_item (vscode : bool) (start_item : string) (r : range) (v : identifier)
  : option citem :=
  if String.eqb start_item "" then Some (plain_item v)
  else if starts_with (id_name v) start_item then
    Some (if vscode then
            mkci (id_name v) (Some (completion_detail (id_type v))) (completion_kind (id_type v))
              (Some (CEdit (mkte (mkrange (rstart r) (rstart r)) EmptyString)))
              (Some [mkte r start_item])
          else
            mkci (id_name v) (Some (completion_detail (id_type v))) (completion_kind (id_type v))
              (Some (CInsertReplace (id_name v) r r)) None)
  else None.

(** lsp_files.rs:618-628. *)
Definition completion_visible (tp : point) (v : identifier) : bool :=
  negb (itype_eqb (id_type v) TemplateBlock) && negb (itype_eqb (id_type v) JinjaTemplate) &&
  (pt_leb (id_end v) tp && pt_leb tp (snd (id_scope v))).

(** lsp_files.rs:630-679: a name is considered only the first time. *)
Fixpoint local_items (vscode : bool) (start_item : string) (r : range) (names : list string)
  (vs : list identifier) : list citem :=
  match vs with
  | [] => []
  | v :: rest =>
      if str_mem (id_name v) names then local_items vscode start_item r names rest
      else
        let more := local_items vscode start_item r (id_name v :: names) rest in
        match local_item vscode start_item r v with
        | Some i => i :: more
        | None => more
        end
  end.

(** lsp_files.rs:680-696. *)
Definition backend_items (only : option string) (vars : smap (list identifier)) : list citem :=
  flat_map (fun kv =>
    match only with
    | Some u => if String.eqb (fst kv) u
                then map plain_item (filter (fun v => itype_eqb (id_type v) BackendVariable) (snd kv))
                else []
    | None => map plain_item (filter (fun v => itype_eqb (id_type v) BackendVariable) (snd kv))
    end) vars.

(** lsp_files.rs:604-698 [read_variables]. *)
Definition read_variables (uri : string) (pos : position) (starting : option (string * range))
  (only : option string) (s : lsp_files) : option (list citem) :=
  let tp := point_of pos in
  match sget uri (ls_vars s) with
  | None => None
  | Some vs =>
      let '(st, r) := match starting with Some x => x | None => (EmptyString, range0) end in
      Some (local_items (ls_vscode s) st r [] (filter (completion_visible tp) vs)
              ++ backend_items only (ls_vars s))
  end.

(** lsp_files.rs:716-757: the item for one template URI ([None]: the [?] on
    [parts.next()]). *)
Definition template_label (dir uri : string) : option string :=
  match split_str uri (strip_dots dir) with
  | _ :: p :: _ => Some (remove_first_slash p)
  | _ => None
  end.
Definition quoted (s : string) : string := String dquote (s ++ String dquote EmptyString).
Definition template_item (vscode : bool) (r : range) (start_point : position) (label : string) : citem :=
  if vscode then
    mkci label (Some "Jinja template"%string) KFile
      (Some (CEdit (mkte (mkrange start_point start_point) EmptyString)))
      (Some [mkte r (quoted label)])
  else
    mkci label (Some "Jinja template"%string) KFile (Some (CInsertReplace (quoted label) r r)) None.
Fixpoint template_items (vscode : bool) (dir : string) (r : range) (sp : position)
  (uris : list string) : option (list citem) :=
  match uris with
  | [] => Some []
  | u :: rest =>
      match template_label dir u with
      | None => None
      | Some l =>
          match template_items vscode dir r sp rest with
          | None => None
          | Some more => Some (template_item vscode r sp l :: more)
          end
      end
  end.
(** lsp_files.rs:700-761 [read_templates]. *)
Definition read_templates (prefix : string) (r : range) (sp : position) (s : lsp_files)
  : option (list citem) :=
  let prefix := if String.eqb prefix "" then "file:///"%string else prefix in
  template_items (ls_vscode s) (cf_templates (ls_config s)) r sp
    (filter (fun u => contains u prefix) (map fst (ls_tt s))).

(** lsp_files.rs:763-780 [get_variable]. *)
Definition get_variable (prefix id file_name : string) (s : lsp_files) : option (list string) :=
  let names vs := map id_name (filter (fun v => contains (id_name v) prefix) vs) in
  match sget id (ls_vars s) with
  | None => None
  | Some vs =>
      Some (names vs ++ names (match sget file_name (ls_vars s) with Some l => l | None => [] end))
  end.

(** lsp_files.rs:805-822 [read_objects]. *)
Definition read_objects (b : build) (uri : string) (s : lsp_files) : res (option (list jobject)) :=
  match sget uri (ls_docs s) with
  | None => Ok None
  | Some t =>
      match file_ext uri with
      | None => Ok None
      | Some l =>
          match sget uri (trees_of l s) with
          | None => Ok None
          | Some tr =>
              let content := rope_content t in
              objs <- objects_query b (t_captures T QObjects tr content) pt0 content true;;
              Ok (Some (os_objects objs))
          end
      end
  end.

(** lsp_files.rs:824-839 [read_python_ids]. *)
Definition read_python_ids (uri : string) (s : lsp_files) : res (option (list pyid)) :=
  match sget uri (ls_docs s) with
  | None => Ok None
  | Some t =>
      match file_ext uri with
      | None => Ok None
      | Some l =>
          match sget uri (trees_of l s) with
          | None => Ok None
          | Some tr =>
              let content := rope_content t in
              ids <- python_identifiers (t_captures T QPythonIds tr content) content 0;;
              Ok (Some ids)
          end
      end
  end.

(** lsp_files.rs:841-869 [data_type]. *)
Definition data_visible (h : identifier) (v : identifier) : bool :=
  negb (itype_eqb (id_type v) TemplateBlock) &&
  (pt_leb (id_end v) (id_start h) && pt_leb (id_start h) (snd (id_scope v))
   && String.eqb (id_name h) (id_name v)).
Fixpoint data_other (uri : string) (h : identifier) (vars : smap (list identifier))
  : option identifier_type :=
  match vars with
  | [] => None
  | (file, vs) :: rest =>
      if String.eqb file uri then data_other uri h rest
      else match filter (fun v => String.eqb (first_segment (id_name v)) (id_name h)) vs with
           | [] => data_other uri h rest
           | _ => Some BackendVariable
           end
  end.
Definition data_type (uri : string) (h : identifier) (s : lsp_files) : option identifier_type :=
  match sget uri (ls_vars s) with
  | None => None
  | Some vs =>
      match iter_max (filter (data_visible h) vs) with
      | Some v => Some (id_type v)
      | None => data_other uri h (ls_vars s)
      end
  end.

(** lsp_files.rs:871-892 [document_symbols]. *)
Record symbol := mksym { sy_name : string; sy_kind : kind; sy_range : range; sy_sel : range }.
Definition document_symbols (uri : string) (s : lsp_files) : option (list symbol) :=
  match sget uri (ls_vars s) with
  | None => None
  | Some vs =>
      Some (map (fun v => mksym (id_name v) (symbol_kind (id_type v))
                            (to_range (id_start v, id_end v)) (to_range (id_start v, id_end v))) vs)
  end.

(** lsp_files.rs:898-912 [delete_documents_with_id]. *)
Definition delete_one (uri : string) (s : lsp_files) : lsp_files :=
  set_trees Template (sremove uri (ls_tt s))
    (set_vars (sremove uri (ls_vars s)) (set_docs (sremove uri (ls_docs s)) s)).
Definition delete_documents_with_id (id : string) (s : lsp_files) : lsp_files :=
  fold_left (fun s u => delete_one u s)
    (filter (fun u => contains u id) (map fst (ls_docs s))) s.

(** lsp_files.rs:938-964 [Clone]: parsers and queries are rebuilt for the
    default backend language; the timer handle is not copied. *)
Definition ls_clone (s : lsp_files) : lsp_files :=
  mkls (ls_tt s) (ls_bt s) (ls_docs s) PRust PRust (ls_config s) None (ls_chan s)
    (ls_vars s) (ls_actions s) (ls_vscode s) (ls_ignore s).

(** config.rs:87-97: the entries of one walk; [None] is the early error
    return.  ([entry.metadata()?] failing is also [WErr].) *)
Fixpoint walk_entries (F : fs) (es : list wentry) (s : lsp_files) : res (option lsp_files) :=
  match es with
  | [] => Ok (Some s)
  | WErr :: _ => Ok None
  | WOther _ :: rest => walk_entries F rest s
  | WFile p :: rest =>
      match file_ext p with
      | None => walk_entries F rest s
      | Some l => s' <- read_file F p l s;; walk_entries F rest s'
      end
  end.
Fixpoint walk_dirs (F : fs) (dirs : list string) (s : lsp_files) : res (option lsp_files) :=
  match dirs with
  | [] => Ok (Some s)
  | d :: rest =>
      r <- walk_entries F (f_walk F d) s;;
      match r with
      | None => Ok None
      | Some s' => walk_dirs F rest s'
      end
  end.
(** config.rs:77-83: the fresh state [walkdir] starts from. *)
Definition walk_init (c : config) : lsp_files :=
  update_backend (cf_lang c)
    (mkls [] [] [] PRust PRust c None false [] [] false
       (match cf_hide c with Some h => h | None => false end)).
(** config.rs:73-102 [walkdir]. *)
Definition walkdir (F : fs) (b : build) (c : config) : res (option (diag_msg * lsp_files)) :=
  r <- walk_dirs F (cf_templates c :: cf_backend c) (walk_init c);;
  match r with
  | None => Ok None
  | Some s =>
      d <- read_trees F b s;;
      Ok (Some (d, s))
  end.

End LspFiles.

(** Every function takes the oracle [T] explicitly except where it can be read
    off a state argument. *)
Arguments ls_tt {T}. Arguments ls_bt {T}. Arguments ls_docs {T}. Arguments ls_parser {T}.
Arguments ls_query {T}. Arguments ls_config {T}. Arguments ls_task {T}. Arguments ls_chan {T}.
Arguments ls_vars {T}. Arguments ls_actions {T}. Arguments ls_vscode {T}. Arguments ls_ignore {T}.
Arguments mkls {T}.
Arguments trees_of {T}. Arguments set_trees {T}. Arguments set_docs {T}. Arguments set_vars {T}.
Arguments set_actions {T}. Arguments set_task {T}. Arguments set_vscode {T}.
Arguments update_backend {T}. Arguments parse {T}. Arguments add_tree {T}.
Arguments add_variables {T}. Arguments read_file {T}. Arguments input_edit_tree {T}.
Arguments apply_edits {T}. Arguments did_change {T}. Arguments read_tree {T}.
Arguments delete_variables {T}. Arguments did_save {T}. Arguments did_open {T}.
Arguments completion {T}. Arguments hover {T}. Arguments goto_local {T}.
Arguments goto_template {T}. Arguments goto_definition {T}. Arguments code_action {T}.
Arguments process_code_actions {T}. Arguments add_code_actions {T}. Arguments read_trees {T}.
Arguments read_trees_in {T}. Arguments read_variables {T}. Arguments read_templates {T}.
Arguments get_variable {T}. Arguments read_objects {T}. Arguments read_python_ids {T}.
Arguments data_type {T}. Arguments document_symbols {T}. Arguments delete_one {T}.
Arguments delete_documents_with_id {T}. Arguments ls_clone {T}. Arguments walk_entries {T}.
Arguments walk_dirs {T}.
