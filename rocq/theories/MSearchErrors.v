(** * MSearchErrors: linting one file.
    Model of jinja-lsp-queries/src/lsp_helper.rs. *)
From Verif Require Import Base RString Utf8 Rope Types Captures MObjects MTemplates.

(** [std::fs::canonicalize]: the resolved path, or an error whose kind is
    [NotFound] or something else.  Resolved paths are assumed to be UTF-8 (the
    code's [to_str()?] then always succeeds). *)
Inductive canon := CanonOk (p : string) | CanonNotFound | CanonOther.

(** The configuration, jinja-lsp/src/config.rs:18-26. *)
Record config := mkcfg {
  cf_templates : string;
  cf_backend : list string;
  cf_lang : string;
  cf_user : bool;
  cf_hide : option bool }.
Definition config0 : config := mkcfg EmptyString [] EmptyString false None.

(** A directory entry as yielded by [walkdir] (config.rs:86-97): an error, a
    regular file, or anything else. *)
Inductive wentry := WErr | WFile (path : string) | WOther (path : string).

(** The file system and the TOML parser at one moment.  [f_read] is
    [read_to_string] ([None]: error or invalid UTF-8). *)
Record fs := mkfs {
  f_canon : string -> canon;
  f_read : string -> option text;
  f_walk : string -> list wentry;
  f_toml : string -> option config }.

Definition errors := list (jdiag * identifier).

(** lsp_helper.rs:42-56: the two chained filters.  The closure of the second
    one sets [exist]. *)
Definition same_name (o : jobject) (v : identifier) : bool :=
  String.eqb (id_name v) (o_name o) && negb (itype_eqb (id_type v) TemplateBlock).
Definition visible_at (o : jobject) (v : identifier) : bool :=
  let bigger := pt_leb (id_start v) (snd (o_loc o)) in
  let global := pt_eqb (snd (id_scope v)) pt0 in
  let in_scope := pt_ltb (fst (o_loc o)) (snd (id_scope v)) in
  if bigger && global then true else bigger && in_scope.

(** lsp_helper.rs:65-75: is the name defined in any file (this one included)? *)
Definition defined_somewhere (vars : smap (list identifier)) (o : jobject) : bool :=
  existsb (fun kv => existsb (fun v => String.eqb (id_name v) (o_name o)) (snd kv)) vars.

(** lsp_helper.rs:33-84: the diagnostics of one object. *)
Definition lint_object (vars : smap (list identifier)) (this_file : list identifier)
  (ignore_globals : bool) (o : jobject) : errors :=
  if o_is_filter o || o_is_test o then []
  else
    let cands := filter (same_name o) this_file in
    let exist := match cands with [] => false | _ => true end in
    let empty := match filter (visible_at o) cands with [] => true | _ => false end in
    if empty && exist then
      (if ignore_globals then [] else [(Undefined, id_of_obj o)])
    else if empty then
      if ignore_globals then []
      else [((if defined_somewhere vars o then DefinedSomewhere else Undefined), id_of_obj o)]
    else [].

(** lsp_helper.rs:100-108 and 118-125: the file-system check. *)
Definition template_missing (F : fs) (templates : string) (name : string) : bool :=
  match f_canon F (path_push templates (path_items name)) with
  | CanonNotFound => true
  | _ => false
  end.

(** lsp_helper.rs:91-109. *)
Definition lint_templates (F : fs) (templates : string) (ids : list identifier) : errors :=
  flat_map (fun i =>
    if itype_eqb (id_type i) JinjaTemplate then
      if String.eqb (id_name i) "" then [(TemplateNotFound, i)]
      else if template_missing F templates (id_name i) then [(TemplateNotFound, i)] else []
    else []) ids.

(** lsp_helper.rs:113-126. *)
Definition lint_backend (F : fs) (templates : string) (ids : list identifier) : errors :=
  flat_map (fun i =>
    if itype_eqb (id_type i) JinjaTemplate then
      if template_missing F templates (id_name i) then [(TemplateNotFound, i)] else []
    else []) ids.

(** lsp_helper.rs:15-130 [search_errors]; the queries' results are looked up in
    the oracle. *)
Definition search_errors (T : ts) (F : fs) (b : build) (tr : tree T) (source : string)
  (vars : smap (list identifier)) (file : string) (templates : string)
  (lang : lang_type) (ignore_globals : bool) : res (option errors) :=
  match lang with
  | Template =>
      objs <- objects_query b (t_captures T QObjects tr source) pt0 source true;;
      match sget file vars with
      | None => Ok None
      | Some this_file =>
          let e1 := flat_map (lint_object vars this_file ignore_globals) (os_objects objs) in
          imps <- templates_query (t_captures T QImports tr source) pt0 source true;;
          Ok (Some (e1 ++ lint_templates F templates (imports_collect imps)))
      end
  | Backend =>
      match sget file vars with
      | None => Ok None
      | Some ids => Ok (Some (lint_backend F templates ids))
      end
  end.

(** lsp_helper.rs:132-147 [create_diagnostic] (the fields that vary; [source]
    is always "jinja-lsp"). *)
Record diagnostic := mkdiag { dg_range : range; dg_severity : severity; dg_message : string }.
Definition create_diagnostic (i : identifier) (s : severity) (m : string) : diagnostic :=
  mkdiag (to_range (id_start i, id_end i)) s m.
