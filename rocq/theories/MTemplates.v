(** * MTemplates: template references in templates and in backend code,
    backend variables, Python identifiers, snippets.
    Models of jinja-lsp-queries/src/search/{templates, rust_identifiers,
    rust_template_completion, python_identifiers, snippets_completion}.rs. *)
From Verif Require Import Base RString Utf8 Types Captures.

(** ** templates.rs *)

(** templates.rs:7-23. *)
Inductive import :=
| IExtends (template : identifier)
| IInclude (templates : list identifier)
| IFrom (template : identifier) (identifiers : list identifier)
| IImport (template : identifier) (ident : identifier).

Definition in_id (tp : point) (i : identifier) : bool :=
  pt_leb (id_start i) tp && pt_leb tp (id_end i).

(** templates.rs:26-44 [get_identifier]. *)
Definition import_get (im : import) (tp : point) : option identifier :=
  match im with
  | IExtends t | IFrom t _ | IImport t _ => if in_id tp t then Some t else None
  | IInclude ts => find (in_id tp) ts
  end.

(** templates.rs:46-67 [Import::collect]. *)
Definition import_collect (im : import) : list identifier :=
  match im with
  | IExtends t => [t]
  | IInclude ts => ts
  | IFrom t ids => t :: ids
  | IImport t _ => [t]
  end.

(** templates.rs:77-82; [current] is [Some id] for [Current::Id(id)]. *)
Record jimports := mkimps {
  im_imports : list (N * import);
  im_current : option N;
  im_last : N }.
Definition jimports0 : jimports := mkimps [] None 0.

(** templates.rs:85-91 [in_template]. *)
Definition in_template (s : jimports) : option import :=
  match im_current s with Some id => nget id (im_imports s) | None => None end.

(** Opening an import statement node (templates.rs:97-152); [again] is what
    [current] becomes when the node was already seen. *)
Definition open_import (s : jimports) (id : N) (fresh : import) (again : option N) : jimports :=
  match nget id (im_imports s) with
  | Some _ => mkimps (im_imports s) again (im_last s)
  | None => mkimps (ninsert id fresh (im_imports s)) (Some id) id
  end.

(** templates.rs:161-168 and the two identical arms below it: an existing
    template identifier is filled only once. *)
Definition fill_template (t : identifier) (name : string) (st en : point) : identifier :=
  if String.eqb (id_name t) "" then mkid st en name (id_scope t) JinjaTemplate (id_fields t)
  else t.

Definition add_template_name (im : import) (name : string) (st en : point) : import :=
  match im with
  | IExtends t => IExtends (fill_template t name st en)
  | IInclude ts => IInclude (ts ++ [with_type JinjaTemplate (id_new name st en)])
  | IFrom t ids => IFrom (fill_template t name st en) ids
  | IImport t i => IImport (fill_template t name st en) i
  end.

(** templates.rs:92-218 [JinjaImports::check]. *)
Definition imp_check (src : string) (s : jimports) (c : capture) : res (jimports * bool) :=
  let n := c_node c in
  match c_name c with
  | CError => Ok (s, false)
  | CExtends => Ok (open_import s (n_id n) (IExtends id_default) None, true)
  | CInclude => Ok (open_import s (n_id n) (IInclude []) (Some (n_id n)), true)
  | CImport => Ok (open_import s (n_id n) (IImport id_default id_default) (Some (n_id n)), true)
  | CFrom => Ok (open_import s (n_id n) (IFrom id_default []) (Some (n_id n)), true)
  | CTemplateName =>
      match im_current s with
      | None => Ok (s, true)
      | Some id =>
          match nget id (im_imports s) with
          | None => Ok (s, false)                            (* get_mut(&id)? *)
          | Some im =>
              t <- utf8_text n src;;
              match t with
              | None => Ok (s, false)
              | Some raw =>
                  let name := strip_quotes raw in
                  Ok (mkimps (ninsert id (add_template_name im name (n_start n) (n_end n))
                                (im_imports s)) (im_current s) (im_last s), true)
              end
          end
      end
  | CImportIdentifier =>
      match im_current s with
      | None => Ok (s, true)
      | Some id =>
          t <- utf8_text n src;;
          match t with
          | None => Ok (s, false)
          | Some name =>
              match nget id (im_imports s) with
              | None => Ok (s, false)
              | Some im =>
                  match im with
                  | IFrom tpl ids =>
                      Ok (mkimps (ninsert id (IFrom tpl (ids ++ [id_new name (n_start n) (n_end n)]))
                                    (im_imports s)) (im_current s) (im_last s), true)
                  | IImport tpl i =>
                      if String.eqb (id_name i) "" then
                        Ok (mkimps (ninsert id
                              (IImport tpl (mkid (id_start i) (id_end i) name (id_scope i)
                                              (id_type i) (id_fields i)))
                              (im_imports s)) None (im_last s), true)
                      else Ok (s, true)
                  | _ => Ok (mkimps (im_imports s) None (im_last s), true)
                  end
              end
          end
      end
  | _ => Ok (s, true)
  end.

(** templates.rs:220-224 [JinjaImports::collect] (hash-map order). *)
Definition imports_collect (s : jimports) : list identifier :=
  flat_map (fun kv => import_collect (snd kv)) (im_imports s).

(** templates.rs:226-251 [templates_query]. *)
Definition templates_query (ms : list (list capture)) (tp : point) (src : string) (all : bool)
  : res jimports :=
  run (imp_check src) jimports0 (flat_captures all tp ms).

(** ** rust_identifiers.rs *)

(** rust_identifiers.rs:22-47 [BackendIdentifiers::check]. *)
Definition backend_check (src : string) (vars : list identifier) (c : capture)
  : res (list identifier * bool) :=
  let n := c_node c in
  match c_name c with
  | CKeyId =>
      t <- utf8_text n src;;
      match t with
      | None => Ok (vars, false)
      | Some name =>
          Ok (vars ++ [with_type BackendVariable (id_new name (n_start n) (n_end n))], true)
      end
  | CName =>
      t <- utf8_text n src;;
      match t with
      | None => Ok (vars, false)
      | Some name =>
          Ok (vars ++ [with_type BackendVariable
                         (id_new (strip_quotes name) (n_start n) (n_end n))], true)
      end
  | CError => Ok (vars, false)
  | _ => Ok (vars, true)
  end.
(** rust_identifiers.rs:50-74 [backend_definition_query]. *)
Definition backend_definition_query (ms : list (list capture)) (tp : point) (src : string)
  (all : bool) : res (list identifier) :=
  run (backend_check src) [] (flat_captures all tp ms).

(** ** rust_template_completion.rs *)

(** rust_template_completion.rs:70. *)
Definition methods : list string := ["render_jinja"; "get_template"]%string.

(** rust_template_completion.rs:5-9. *)
Record btemplates := mkbt { bt_templates : list identifier; bt_in_method : bool }.

(** rust_template_completion.rs:21-39 [BackendTemplates::check]; the result is
    ignored by the caller, so the loop never stops early. *)
Definition bt_check (src : string) (s : btemplates) (c : capture) : res (btemplates * bool) :=
  let n := c_node c in
  match c_name c with
  | CTemplateName =>
      if bt_in_method s then
        t <- utf8_text n src;;
        match t with
        | None => Ok (s, true)
        | Some raw =>
            Ok (mkbt (bt_templates s ++
                        [with_type JinjaTemplate (id_new (strip_quotes raw) (n_start n) (n_end n))])
                  false, true)
        end
      else Ok (s, true)
  | CMethodName =>
      t <- utf8_text n src;;
      match t with
      | None => Ok (s, true)
      | Some content =>
          if str_mem content methods then Ok (mkbt (bt_templates s) true, true) else Ok (s, true)
      end
  | _ => Ok (s, true)
  end.
(** rust_template_completion.rs:46-68 [backend_templates_query]. *)
Definition backend_templates_query (ms : list (list capture)) (tp : point) (src : string)
  (all : bool) : res btemplates :=
  run (bt_check src) (mkbt [] false) (flat_captures all tp ms).
(** rust_template_completion.rs:12-19 [in_template]. *)
Definition bt_in_template (s : btemplates) (tp : point) : option identifier :=
  match last_opt (bt_templates s) with
  | Some i => if in_id tp i then Some i else None
  | None => None
  end.

(** ** snippets_completion.rs *)

(** snippets_completion.rs:7-13. *)
Record snippets := mksnip { sn_start : point; sn_end : point; sn_keyword : point; sn_error : bool }.

(** snippets_completion.rs:16-37 [Snippets::check]. *)
Definition snip_check (s : snippets) (c : capture) : res (snippets * bool) :=
  let n := c_node c in
  match c_name c with
  | CStart => Ok (mksnip (n_start n) (sn_end s) (sn_keyword s) (sn_error s), true)
  | CEnd => Ok (mksnip (sn_start s) (n_end n) (sn_keyword s) (sn_error s), true)
  | CErrorBlock => Ok (mksnip (sn_start s) (n_end n) (sn_keyword s) true, false)
  | CKeyword => Ok (mksnip (sn_start s) (sn_end s) (n_start n) (sn_error s), true)
  | _ => Ok (s, true)
  end.
(** snippets_completion.rs:56-82 [snippets_query]. *)
Definition snippets_query (ms : list (list capture)) (tp : point) (all : bool) : res snippets :=
  run snip_check (mksnip pt0 pt0 pt0 false)
    (flat_captures all (mkpt (row tp) (col tp + 2)) ms).
(** snippets_completion.rs:39-53 [to_complete]. *)
Definition to_complete (b : build) (s : snippets) (tp : point) : res (option range) :=
  if sn_error s && pt_leb tp (sn_end s) then Ok (Some range0)
  else if sn_error s && pt_leb (sn_start s) tp && pt_leb tp (sn_end s) then
    if pt_leb (sn_start s) (sn_keyword s) && pt_leb (sn_keyword s) (sn_end s) then Ok None
    else
      let p := to_position2 tp in
      ch <- u32_add b (character p) 1;;
      Ok (Some (mkrange p (mkpos (line p) ch)))
  else Ok None.

(** ** python_identifiers.rs *)

(** python_identifiers.rs:39-45. *)
Record pyid := mkpy { py_id : N; py_start : point; py_end : point; py_field : string }.

Definition pget {V} (k : point) (m : list (point * V)) := hm_get pt_eqb k m.
Definition pinsert {V} (k : point) (v : V) (m : list (point * V)) := hm_insert pt_eqb k v m.

(** python_identifiers.rs:61-78: one capture ([None] parent: ignored; invalid
    UTF-8: empty field). *)
Definition py_step (src : string) (m : list (point * list pyid)) (c : capture)
  : res (list (point * list pyid) * bool) :=
  let n := c_node c in
  match n_parent n with
  | None => Ok (m, true)
  | Some p =>
      t <- utf8_text n src;;
      let f := match t with Some f => f | None => EmptyString end in
      let old := match pget p m with Some l => l | None => [] end in
      Ok (pinsert p (old ++ [mkpy (n_id n) (n_start n) (n_end n) f]) m, true)
  end.

Definition shift_row (p : point) (l : N) : point := mkpt (row p + l) (col p).

(** python_identifiers.rs:16-24: names joined with dots. *)
Fixpoint join_dots (l : list string) : string :=
  match l with
  | [] => EmptyString
  | [x] => x
  | x :: r => (x ++ "." ++ join_dots r)%string
  end.
(** python_identifiers.rs:9-37 [merge]. *)
Definition py_merge (line : N) (m : list (point * list pyid)) : list pyid :=
  map (fun kv =>
         let e := match last_opt (snd kv) with Some i => py_end i | None => fst kv end in
         mkpy 0 (shift_row (fst kv) line) (shift_row e line)
           (join_dots (map py_field (snd kv)))) m.
(** python_identifiers.rs:47-80 [python_identifiers]. *)
Definition python_identifiers (ms : list (list capture)) (src : string) (line : N)
  : res (list pyid) :=
  m <- run (py_step src) [] (concat ms);;
  Ok (py_merge line m).
