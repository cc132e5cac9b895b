(** * Captures: the interface to tree-sitter.

    Parsing and query evaluation are not modelled: the record [ts] is an
    arbitrary implementation of them.  No law about it is assumed. *)
From Verif Require Import Base RString Utf8 Rope Types.

(** What the code reads from a [tree_sitter::Node]: its id, byte range, point
    range, the point ranges of its first and last child (its own range when it
    has none; objects.rs:86-95) and its parent's start (python_identifiers.rs:63). *)
Record node := mknode {
  n_id : N;
  n_sb : N; n_eb : N;
  n_start : point; n_end : point;
  n_first : point * point; n_last : point * point;
  n_parent : option point }.

(** [Node::utf8_text]: slices the source by the node's byte range (panics when
    out of bounds), then validates UTF-8 ([None] stands for [Err]). *)
Definition utf8_text (n : node) (src : string) : res (option string) :=
  if (n_sb n <=? n_eb n) && (n_eb n <=? slen src) then
    let s := String.substring (N.to_nat (n_sb n)) (N.to_nat (n_eb n - n_sb n)) src in
    Ok (if valid_utf8 s then Some s else None)
  else Panic.

(** Capture names of all queries in search/queries.rs:55-298.  [COther] stands
    for the captures no [check] function looks at (extends_keyword, context,
    macro, jinja, method, function, object, field, ...). *)
Inductive cname :=
| CError                                                   (* error *)
| CJustId | CDot | CPipe | CIs | CExpr                     (* OBJECTS *)
| CDefinition | CScope | CEndblock | CEquals | CId | CScopeEnd | CScopeStart (* DEFINITIONS *)
| CExtends | CInclude | CImport | CFrom | CTemplateName | CImportIdentifier  (* JINJA_IMPORTS *)
| CStart | CEnd | CErrorBlock | CKeyword                   (* JINJA_SNIPPETS *)
| CKeyId | CName                                           (* backend definitions *)
| CMethodName                                              (* backend templates *)
| CIdentifier                                              (* PYTHON_IDENTIFIERS *)
| COther.

Record capture := mkcap { c_name : cname; c_node : node }.

(** The languages a parser or query can be built for. *)
Inductive plang := PJinja | PRust | PPython.
(** search/queries.rs:4-12. *)
Inductive query :=
| QDefinitions | QObjects | QImports | QSnippets | QPythonIds
| QBackendDefs (l : plang) | QBackendTemplates (l : plang).

Record ts := mkts {
  tree : Type;
  t_parse : plang -> string -> option tree -> option tree;
  t_edit : tree -> input_edit -> tree;
  (** matches of a query, each a list of captures *)
  t_captures : query -> tree -> string -> list (list capture);
  t_root_end : tree -> point }.

(** The filter used by most queries ([matches.flat_map(captures.filter(..))],
    e.g. definition.rs:374-378). *)
Definition flat_captures (all : bool) (trigger : point) (ms : list (list capture)) : list capture :=
  flat_map (filter (fun c => all || pt_leb (n_start (c_node c)) trigger)) ms.
