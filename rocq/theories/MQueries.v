(** * MQueries: the tree-sitter queries of search/queries.rs, and what a query
    finds in a syntax tree.

    The queries are data of the repository.  Their evaluation is tree-sitter's;
    [matches] models it as far as these queries use it:
    - a pattern matches a node by kind; its steps match children of that node in
      order, not necessarily adjacent ones, and each possible choice is a match;
    - with an optional or repeated step only the largest choices are kept;
    - predicates are tested on the captures of a match afterwards, and hold for
      captures that are absent;
    - a match is reported when its last node is reached; matches that end at the
      same node in the order of their patterns, alternatives of one pattern from
      the last to the first (that order is the one under which the repository's
      test [find_jinja_completion] passes, see ExRepo.v);
    - a match lists its captures in the order of the nodes.
    Simplified: a pattern that ends with an optional or repeated step is reported
    by tree-sitter when no longer match is possible any more, by [matches] at the
    last node it found. *)
From Verif Require Import Base RString Utf8 Rope Types Captures.

(** ** Syntax trees *)
(** Named nodes with the field under which their parent has them, if any. *)
Inductive stree := SN (kind : string) (n : node) (children : list (string * stree)).
Definition s_kind (t : stree) : string := match t with SN k _ _ => k end.
Definition s_node (t : stree) : node := match t with SN _ n _ => n end.
Definition s_children (t : stree) : list (string * stree) := match t with SN _ _ ch => ch end.
Fixpoint preorder (t : stree) : list stree :=
  match t with SN k n ch => t :: flat_map (fun c => preorder (snd c)) ch end.
(** The bytes of a node. *)
Definition text_of (src : string) (n : node) : string :=
  String.substring (N.to_nat (n_sb n)) (N.to_nat (n_eb n - n_sb n)) src.

(** ** Queries *)
(** The regular expressions that occur: [^(a|b)$], [^(a|b)], [(a|b)], and digits:
    [^\d+$] and [^\d] (ASCII digits only). *)
Inductive regex :=
| ReIs (words : list string)
| ReStarts (words : list string)
| ReHas (words : list string)
| ReAllDigits
| ReDigitFirst.
Definition is_digit (c : ascii) : bool := let n := N_of_ascii c in (48 <=? n) && (n <=? 57).
Definition all_digits (s : string) : bool :=
  negb (String.eqb s "") && forallb is_digit (list_ascii_of_string s).
Definition regex_matches (r : regex) (s : string) : bool :=
  match r with
  | ReIs ws => existsb (String.eqb s) ws
  | ReStarts ws => existsb (starts_with s) ws
  | ReHas ws => existsb (contains s) ws
  | ReAllDigits => all_digits s
  | ReDigitFirst => match s with String c _ => is_digit c | EmptyString => false end
  end.
Inductive pred :=
| PEq (cap text : string)
| PNotEq (cap text : string)
| PAnyOf (cap : string) (texts : list string)
| PMatch (cap : string) (r : regex)
| PNotMatch (cap : string) (r : regex).

Inductive quant := One | Opt | Plus | Star.
(** A node pattern: kind, steps for its children, capture names. *)
Inductive qpat :=
| QN (kind : string) (steps : list qstep) (caps : list string)
with qstep :=
| QS (q : quant) (field : string) (alts : list qpat).
(** What a pattern starts with: a node, or several siblings. *)
Inductive qroot :=
| RNode (p : qpat)
| RSiblings (steps : list qstep).
Record pattern := mkpat { p_alts : list qroot; p_preds : list pred }.

(** ** Evaluation *)
Definition qcap := (string * node)%type.
(** A way to match: the captures, and the last node that was matched. *)
Definition emb := (list qcap * node)%type.
Definition join_emb (m1 : emb) (k : node -> list emb) : list emb :=
  map (fun m2 => (fst m1 ++ fst m2, snd m2)) (k (snd m1)).
(** One child matched by [one], then [k] on the children after it. *)
Fixpoint pick (one : string * stree -> list emb) (k : node -> list (string * stree) -> list emb)
  (ch : list (string * stree)) : list emb :=
  match ch with
  | [] => []
  | c :: r => flat_map (fun m => join_emb m (fun l => k l r)) (one c) ++ pick one k r
  end.
(** One child or several. *)
Fixpoint pick_some (one : string * stree -> list emb) (k : node -> list (string * stree) -> list emb)
  (ch : list (string * stree)) : list emb :=
  match ch with
  | [] => []
  | c :: r =>
      flat_map (fun m => join_emb m (fun l => pick_some one k r ++ k l r)) (one c) ++ pick_some one k r
  end.
Definition field_ok (wanted f : string) : bool := String.eqb wanted "" || String.eqb wanted f.
Fixpoint embed (p : qpat) (t : stree) {struct p} : list emb :=
  match p with
  | QN kind steps caps =>
      if String.eqb kind (s_kind t) then
        map (fun m => (map (fun c => (c, s_node t)) caps ++ fst m, snd m))
          ((fix go (ss : list qstep) (last : node) (ch : list (string * stree)) {struct ss} : list emb :=
              match ss with
              | [] => [([], last)]
              | QS q f alts :: r =>
                  let one c := if field_ok f (fst c) then flat_map (fun p' => embed p' (snd c)) alts else [] in
                  match q with
                  | One => pick one (go r) ch
                  | Opt => pick one (go r) ch ++ go r last ch
                  | Plus => pick_some one (go r) ch
                  | Star => pick_some one (go r) ch ++ go r last ch
                  end
              end) steps (s_node t) (s_children t))
      else []
  end.
Fixpoint embed_steps (ss : list qstep) (last : node) (ch : list (string * stree)) : list emb :=
  match ss with
  | [] => [([], last)]
  | QS q f alts :: r =>
      let one c := if field_ok f (fst c) then flat_map (fun p' => embed p' (snd c)) alts else [] in
      match q with
      | One => pick one (embed_steps r) ch
      | Opt => pick one (embed_steps r) ch ++ embed_steps r last ch
      | Plus => pick_some one (embed_steps r) ch
      | Star => pick_some one (embed_steps r) ch ++ embed_steps r last ch
      end
  end.
Definition embed_root (p : qroot) (t : stree) : list emb :=
  match p with
  | RNode p => embed p t
  | RSiblings ss => embed_steps ss (s_node t) (s_children t)
  end.

Definition qcap_eqb (a b : qcap) : bool := String.eqb (fst a) (fst b) && (n_id (snd a) =? n_id (snd b)).
Fixpoint sub_captures (a b : list qcap) : bool :=
  match a, b with
  | [], _ => true
  | _ :: _, [] => false
  | x :: a', y :: b' => if qcap_eqb x y then sub_captures a' b' else sub_captures a b'
  end.
Definition smaller (a b : emb) : bool :=
  (length (fst a) <? length (fst b))%nat && sub_captures (fst a) (fst b).
Definition largest (ms : list emb) : list emb := filter (fun m => negb (existsb (smaller m) ms)) ms.

Definition pred_holds (src : string) (m : list qcap) (p : pred) : bool :=
  let all cap (f : string -> bool) :=
    forallb (fun x => if String.eqb (fst x) cap then f (text_of src (snd x)) else true) m in
  match p with
  | PEq c s => all c (String.eqb s)
  | PNotEq c s => all c (fun x => negb (String.eqb s x))
  | PAnyOf c ss => all c (fun x => existsb (String.eqb x) ss)
  | PMatch c r => all c (regex_matches r)
  | PNotMatch c r => all c (fun x => negb (regex_matches r x))
  end.
(** The matches of a pattern that start at [t] (with siblings: at its children). *)
Definition pattern_at (src : string) (t : stree) (p : pattern) : list emb :=
  filter (fun m => forallb (pred_holds src (fst m)) (p_preds p))
    (flat_map (fun a => largest (embed_root a t)) (rev (p_alts p))).
Definition query_at (q : list pattern) (src : string) (t : stree) : list emb :=
  flat_map (pattern_at src t) q.
Definition ends_at (y : stree) (m : emb) : bool := n_id (snd m) =? n_id (s_node y).
Definition matches (q : list pattern) (src : string) (t : stree) : list (list qcap) :=
  map fst (flat_map (fun y => filter (ends_at y) (flat_map (query_at q src) (preorder t))) (preorder t)).

(** ** Capture names *)
Definition cname_of (s : string) : cname :=
  match find (fun e => String.eqb s (fst e))
    [("error", CError); ("just_id", CJustId); ("dot", CDot); ("pipe", CPipe); ("is", CIs); ("expr", CExpr);
     ("definition", CDefinition); ("scope", CScope); ("endblock", CEndblock); ("equals", CEquals); ("id", CId);
     ("scope_end", CScopeEnd); ("scope_start", CScopeStart);
     ("extends", CExtends); ("include", CInclude); ("import", CImport); ("from", CFrom);
     ("template_name", CTemplateName); ("import_identifier", CImportIdentifier);
     ("start", CStart); ("end", CEnd); ("error_block", CErrorBlock); ("keyword", CKeyword);
     ("key_id", CKeyId); ("name", CName); ("method_name", CMethodName); ("identifier", CIdentifier)]%string
  with
  | Some e => snd e
  | None => COther
  end.
Definition captured (q : list pattern) (src : string) (t : stree) : list (list capture) :=
  map (map (fun c => mkcap (cname_of (fst c)) (snd c))) (matches q src t).

(** ** The queries *)
Definition leaf (kind : string) (cap : string) : qroot := RNode (QN kind [] [cap]).
Definition one (p : qpat) : qstep := QS One "" [p].
Definition step (kind : string) (caps : list string) : qstep := one (QN kind [] caps).

(** queries.rs:55-83. *)
Definition OBJECTS : list pattern :=
  [mkpat [leaf "operator" "dot"; leaf "identifier" "just_id"; leaf "operator" "pipe";
          leaf "expression" "expr"; leaf "keyword" "is"; leaf "ERROR" "error"]
     [PEq "dot" "."; PNotMatch "just_id" ReAllDigits; PEq "is" "is"]]%string.
(** queries.rs:85-113. *)
Definition RUST_DEFINITIONS : list pattern :=
  [mkpat
     [RNode (QN "macro_invocation" [step "identifier" ["context"]] ["macro"]);
      RNode (QN "token_tree" [step "identifier" ["key_id"]] []);
      RSiblings [one (QN "field_expression" [step "identifier" ["jinja"]; step "field_identifier" ["method"]] ["function"]);
                 one (QN "arguments" [QS Plus "" [QN "string_literal" [] ["name"]]] [])];
      leaf "ERROR" "error"]
     [PEq "context" "context"; PNotEq "key_id" "context"; PEq "jinja" "jinja";
      PMatch "method" (ReHas ["add_global"; "add_filter"; "add_function"])]]%string.
(** queries.rs:115-165. *)
Definition JINJA_IMPORTS : list pattern :=
  [mkpat
     [RNode (QN "statement" [step "statement_begin" []; step "keyword" ["extends_keyword"];
                             step "string" ["template_name"]; step "statement_end" []] ["extends"]);
      RNode (QN "statement" [step "statement_begin" []; step "keyword" ["include_keyword"];
                             step "string" ["template_name"]; step "statement_end" []] ["include"]);
      RNode (QN "statement" [step "statement_begin" []; step "keyword" ["from_keyword"];
                             step "string" ["template_name"];
                             QS Opt "" [QN "keyword" [] ["import_keyword"]];
                             QS Opt "" [QN "identifier" [] ["import_identifier"]];
                             step "statement_end" []] ["from"]);
      RNode (QN "statement" [step "statement_begin" []; step "keyword" ["import_keyword"];
                             step "string" ["template_name"];
                             QS Opt "" [QN "identifier" [] ["as_keyword"]];
                             QS Opt "" [QN "identifier" [] ["import_identifier"]];
                             step "statement_end" []] ["import"]);
      leaf "ERROR" "error"]
     [PEq "extends_keyword" "extends"; PEq "include_keyword" "include";
      PNotMatch "import_identifier" ReDigitFirst; PEq "from_keyword" "from"; PEq "import_keyword" "import";
      PNotMatch "import_identifier" ReDigitFirst; PEq "import_keyword" "import"; PEq "as_keyword" "as"]]%string.
(** queries.rs:167-181. *)
Definition RUST_TEMPLATES : list pattern :=
  [mkpat
     [RNode (QN "call_expression"
        [QS One "" [QN "field_expression" [step "field_identifier" ["method_name"]] [];
                    QN "identifier" [] ["method_name"]];
         one (QN "arguments" [QS Plus "" [QN "string_literal" [] ["template_name"]]] [])] [])]
     [PAnyOf "method_name" ["render_jinja"; "get_template"]]]%string.
(** queries.rs:183-195. *)
Definition JINJA_SNIPPETS : list pattern :=
  [mkpat [leaf "statement_begin" "start"; leaf "statement_end" "end";
          RNode (QN "ERROR" [QS Opt "" [QN "ERROR" [] ["error"]]] ["error_block"]);
          leaf "keyword" "keyword"] []]%string.
(** queries.rs:197-229. *)
Definition DEFINITIONS : list pattern :=
  [mkpat [RNode (QN "statement" [step "statement_begin" ["scope_end"]; step "statement_end" ["scope_start"]] [])] [];
   mkpat [leaf "identifier" "id"] [PNotMatch "id" ReAllDigits];
   mkpat [leaf "keyword" "definition"]
     [PMatch "definition" (ReIs ["for"; "set"; "with"; "macro"; "block"])];
   mkpat [leaf "keyword" "scope"]
     [PMatch "scope" (ReIs ["if"; "elif"; "else"; "filter"; "autoescape"; "raw"])];
   mkpat [leaf "keyword" "endblock"] [PMatch "endblock" (ReStarts ["end"])];
   mkpat [leaf "operator" "equals"] [PMatch "equals" (ReHas ["="])];
   mkpat [leaf "ERROR" "error"] []]%string.
(** queries.rs:231-244. *)
Definition PYTHON_TEMPLATES : list pattern :=
  [mkpat
     [RNode (QN "call"
        [QS One "" [QN "attribute" [step "identifier" ["method_name"]] []; QN "identifier" [] ["method_name"]];
         one (QN "argument_list" [QS Plus "" [QN "string" [] ["template_name"]]] [])] [])]
     [PAnyOf "method_name" ["render_jinja"; "get_template"]]]%string.
(** queries.rs:246-290. *)
Definition PYTHON_DEFINITIONS : list pattern :=
  [mkpat
     [RNode (QN "subscript"
        [one (QN "attribute" [QS Star "object" [QN "identifier" [] ["object"]];
                              QS One "attribute" [QN "identifier" [] ["field"]]] []);
         one (QN "string" [step "string_content" ["key_id"]] [])] [])]
     [PMatch "field" (ReIs ["globals"; "filters"]); PEq "object" "jinja_env"];
   mkpat
     [RNode (QN "call"
        [QS One "function" [QN "identifier" [] ["method"]];
         QS One "arguments" [QN "argument_list"
           [one (QN "keyword_argument" [QS One "name" [QN "identifier" [] ["key_id"]]] [])] []]] []);
      RNode (QN "call"
        [QS One "function" [QN "attribute" [QS One "object" [QN "identifier" [] []];
                                            QS One "attribute" [QN "identifier" [] ["method"]]] []];
         QS One "arguments" [QN "argument_list"
           [one (QN "keyword_argument" [QS One "name" [QN "identifier" [] ["key_id"]]] [])] []]] [])]
     [PMatch "method" (ReIs ["render_template"; "render"])];
   mkpat [leaf "ERROR" "error"] []]%string.
(** queries.rs:292-298. *)
Definition PYTHON_IDENTIFIERS : list pattern :=
  [mkpat [RNode (QN "attribute" [step "identifier" ["identifier"]] [])] [];
   mkpat [leaf "ERROR" "error"] []]%string.

(** queries.rs:20-40 [Default::default] and 43-52 [update_backend]: the Rust
    queries, or the Python ones. *)
Definition query_of (q : query) : list pattern :=
  match q with
  | QDefinitions => DEFINITIONS
  | QObjects => OBJECTS
  | QImports => JINJA_IMPORTS
  | QSnippets => JINJA_SNIPPETS
  | QPythonIds => PYTHON_IDENTIFIERS
  | QBackendDefs PPython => PYTHON_DEFINITIONS
  | QBackendDefs _ => RUST_DEFINITIONS
  | QBackendTemplates PPython => PYTHON_TEMPLATES
  | QBackendTemplates _ => RUST_TEMPLATES
  end.

(** Tree-sitter with these queries; parsing and editing remain oracles. *)
Definition ts_with (parse : plang -> string -> option stree -> option stree)
  (edit : stree -> input_edit -> stree) : ts :=
  mkts stree parse edit (fun q t src => captured (query_of q) src t) (fun t => n_end (s_node t)).
