(** * SpecQueries: templates as the syntax trees tree-sitter builds for them.

    The trees are read as sequences of words, without reference to the queries:
    which nodes say something about names, and what. *)
From Verif Require Import Base RString Utf8 Types Captures MDefinition MObjects MQueries.
From Verif Require Import SpecScope SpecScope2 SpecObjects SpecObjects2 SpecLint.

(** No syntax error anywhere. *)
Definition no_error (t : stree) : Prop := Forall (fun x => s_kind x <> "ERROR"%string) (preorder t).
(** Nodes are told apart by their ids. *)
Definition told_apart (t : stree) : Prop := NoDup (map (fun x => n_id (s_node x)) (preorder t)).

(** A number is parsed as an identifier. *)
Definition digit (c : ascii) : Prop := In c (list_ascii_of_string "0123456789").
Definition number (s : string) : Prop := s <> EmptyString /\ Forall digit (list_ascii_of_string s).

(** ** Expressions *)
(** The nodes of a word, with kind and text. *)
Definition word_nodes (w : word) : list (string * node) :=
  match w with
  | WExpr n => [("expression", n)]
  | WName t => [("identifier", fst t)]
  | WAttr a => [("operator", a_dot a); ("identifier", fst (a_name a))]
  | WFilter p name => [("operator", fst p); ("identifier", fst name)]
  | WIs kw => [("keyword", kw)]
  | WOp t => [("operator", fst t)]
  end%string.
Definition piece_nodes (p : piece) : list (string * node) :=
  match p with
  | PExpr n => [("expression", n)]
  | PChain h fs =>
      ("identifier", fst h) :: flat_map (fun a => [("operator", a_dot a); ("identifier", fst (a_name a))]) fs
  | PFilter p name => [("operator", fst p); ("identifier", fst name)]
  | PTest kw nots name =>
      ("keyword", kw) :: map (fun t => ("identifier", fst t)) nots ++ [("identifier", fst name)]
  | PBuiltin t => [("identifier", fst t)]
  | POp t => [("operator", fst t)]
  end%string.
(** The nodes that are read as words: expressions, operators, the keyword [is],
    and identifiers that are not numbers. *)
Inductive speaks (src : string) : stree -> Prop :=
| SpExpr n ch : speaks src (SN "expression" n ch)
| SpOp n ch : speaks src (SN "operator" n ch)
| SpIs n ch : text_of src n = "is"%string -> speaks src (SN "keyword" n ch)
| SpName n ch : ~ number (text_of src n) -> speaks src (SN "identifier" n ch).
(** [ns] are the speaking nodes of a list, in order. *)
Inductive spoken (src : string) : list stree -> list (string * node) -> Prop :=
| SkNil : spoken src [] []
| SkSays t r ns : speaks src t -> spoken src r ns -> spoken src (t :: r) ((s_kind t, s_node t) :: ns)
| SkSilent t r ns : ~ speaks src t -> spoken src r ns -> spoken src (t :: r) ns.
Definition pipe_first (w : word) : Prop := match w with WAttr a => a_dot_first a = false | _ => True end.
Definition piece_pipe_first (p : piece) : Prop :=
  match p with PChain _ fs => Forall (fun a => a_dot_first a = false) fs | _ => True end.

(** ** Names introduced by statements *)
(** The words that matter: identifiers, operators with an equals sign, and
    keywords that define, that open a block, and that close one. *)
Inductive dkind := DkId | DkEq | DkDef | DkScope | DkEnd.
Inductive hears (src : string) : stree -> dkind -> Prop :=
| HeId n ch : ~ number (text_of src n) -> hears src (SN "identifier" n ch) DkId
| HeEq n ch a z : text_of src n = (a ++ "=" ++ z)%string -> hears src (SN "operator" n ch) DkEq
| HeDef n ch : In (text_of src n) ["for"; "set"; "with"; "macro"; "block"]%string -> hears src (SN "keyword" n ch) DkDef
| HeScope n ch : In (text_of src n) ["if"; "elif"; "else"; "filter"; "autoescape"; "raw"]%string ->
    hears src (SN "keyword" n ch) DkScope
| HeEnd n ch z : text_of src n = ("end" ++ z)%string -> hears src (SN "keyword" n ch) DkEnd.
(** A word, or the two brackets of a statement where it ends. *)
Inductive sign := SgWord (k : dkind) (n : node) | SgTail (b e : node).
Inductive heard (src : string) : list stree -> list sign -> Prop :=
| HdNil : heard src [] []
| HdSays t k r ss : hears src t k -> heard src r ss -> heard src (t :: r) (SgWord k (s_node t) :: ss)
| HdSilent t r ss : (forall k, ~ hears src t k) -> heard src r ss -> heard src (t :: r) ss.
(** Nodes that are neither statements nor their brackets. *)
Definition inner (l : list stree) : Prop :=
  Forall (fun x => ~ In (s_kind x) ["statement"; "statement_begin"; "statement_end"]%string) l.
(** The children of the root: statements with their brackets, and anything else
    (expressions, text). *)
Inductive told (src : string) : list stree -> list sign -> Prop :=
| TdNil : told src [] []
| TdStmt n b mid e f1 f2 r ms ss :
    inner (flat_map (fun c => preorder (snd c)) mid) ->
    heard src (flat_map (fun c => preorder (snd c)) mid) ms -> told src r ss ->
    told src (SN "statement" n ((f1, SN "statement_begin" b []) :: mid ++ [(f2, SN "statement_end" e [])]) :: r)
      (ms ++ SgTail b e :: ss)
| TdOther t r ms ss : inner (preorder t) -> heard src (preorder t) ms -> told src r ss -> told src (t :: r) (ms ++ ss).
(** The root is none of the nodes above. *)
Definition root_kind (k : string) : Prop :=
  ~ In k ["identifier"; "operator"; "keyword"; "expression"; "statement"; "statement_begin"; "statement_end"; "string"; "ERROR"]%string.

(** The same for the templates of SpecScope. *)
Definition noise_sign (e : noise) : sign :=
  match e with NId t => SgWord DkId (fst t) | NEq n => SgWord DkEq n | NIf n => SgWord DkScope n end.
Definition bind_signs (b : tok * list noise) : list sign := SgWord DkId (fst (fst b)) :: map noise_sign (snd b).
Definition header_signs (h : header) : list sign :=
  match h with
  | HFor kw key others es =>
      SgWord DkDef kw :: SgWord DkId (fst key) :: map (fun t => SgWord DkId (fst t)) others ++ map noise_sign es
  | HWith kw bs => SgWord DkDef kw :: flat_map bind_signs bs
  | HMacro kw name ps => SgWord DkDef kw :: SgWord DkId (fst name) :: flat_map bind_signs ps
  | HBlock kw name es => SgWord DkDef kw :: SgWord DkId (fst name) :: map noise_sign es
  | HPlain kw es => SgWord DkScope (fst kw) :: map noise_sign es
  end.
Definition end_signs (t : end_tag) : list sign :=
  SgWord DkEnd (et_kw t) :: map noise_sign (et_es t) ++ [SgTail (et_b t) (et_e t)].
Fixpoint signs (t : tpl) : list sign :=
  match t with
  | TNil => []
  | TExpr es r => map noise_sign es ++ signs r
  | TOther es b e r => map noise_sign es ++ SgTail b e :: signs r
  | TSet kw x es b e r => SgWord DkDef kw :: SgWord DkId (fst x) :: map noise_sign es ++ SgTail b e :: signs r
  | TBranch kw es b e r => SgWord DkScope (fst kw) :: map noise_sign es ++ SgTail b e :: signs r
  | TBlock h b e body et r => header_signs h ++ SgTail b e :: signs body ++ end_signs et ++ signs r
  | TBlockSet kw x b e body et r =>
      SgWord DkDef kw :: SgWord DkId (fst x) :: SgTail b e :: signs body ++ end_signs et ++ signs r
  end.

(** ** Statements that refer to templates *)
Definition kids := list (string * stree).
Definition of_kind (kind : string) (l : kids) : list node :=
  flat_map (fun c => if String.eqb (s_kind (snd c)) kind then [s_node (snd c)] else []) l.
Definition linking : list string := ["extends"; "include"; "from"; "import"]%string.
(** No keyword that refers to a template. *)
Definition no_link (src : string) (l : kids) : Prop :=
  Forall (fun x => ~ In (text_of src x) linking) (of_kind "keyword" l).
Definition digit_first (s : string) : Prop := exists c r, s = String c r /\ digit c.

(** What the words of a statement, between its brackets, refer to. *)
Inductive links (src : string) (n : node) : kids -> option istmt -> Prop :=
| LkNone l : no_link src l -> links src n l None
| LkExtends a f kw g z t :
    no_link src a -> no_link src z -> text_of src kw = "extends"%string -> of_kind "string" z = [fst t] ->
    links src n (a ++ (f, SN "keyword" kw g) :: z) (Some (SExtends n kw t))
| LkInclude a f kw g z ts :
    no_link src a -> no_link src z -> text_of src kw = "include"%string -> of_kind "string" z = map fst ts ->
    links src n (a ++ (f, SN "keyword" kw g) :: z) (Some (SInclude n kw ts))
| LkFrom a f kw g b f1 t g1 c f2 imp g2 z ids :
    no_link src a -> no_link src b -> no_link src c -> no_link src z ->
    text_of src kw = "from"%string -> text_of src imp = "import"%string ->
    of_kind "string" (b ++ c ++ z) = [] -> of_kind "identifier" (a ++ b ++ c) = [] ->
    of_kind "identifier" z = map fst ids -> Forall (fun x => ~ digit_first (text_of src (fst x))) ids ->
    links src n (a ++ (f, SN "keyword" kw g) :: b ++ (f1, SN "string" (fst t) g1) :: c ++ (f2, SN "keyword" imp g2) :: z)
      (Some (SFrom n kw t imp (match ids with [] => [None] | _ => map Some ids end)))
| LkImport a f kw g b f1 t g1 z :
    no_link src a -> no_link src b -> no_link src z -> text_of src kw = "import"%string ->
    of_kind "string" (b ++ z) = [] -> of_kind "identifier" (a ++ b ++ z) = [] ->
    links src n (a ++ (f, SN "keyword" kw g) :: b ++ (f1, SN "string" (fst t) g1) :: z) (Some (SImport n kw t [(None, None)]))
| LkImportAs a f kw g b f1 t g1 c f2 w g2 z i ids :
    no_link src a -> no_link src b -> no_link src c -> no_link src z -> text_of src kw = "import"%string ->
    of_kind "string" (b ++ c ++ z) = [] -> of_kind "identifier" (a ++ b ++ c) = [] -> of_kind "identifier" z = map fst (i :: ids) ->
    text_of src w = "as"%string -> Forall (fun x => text_of src (fst x) <> "as"%string /\ ~ digit_first (text_of src (fst x))) (i :: ids) ->
    links src n (a ++ (f, SN "keyword" kw g) :: b ++ (f1, SN "string" (fst t) g1) :: c ++ (f2, SN "identifier" w g2) :: z)
      (Some (SImport n kw t (map (fun x => (Some w, Some x)) (i :: ids) ++ [(None, Some (w, "as"%string))]))).
Inductive linked (src : string) : list stree -> list istmt -> Prop :=
| LdNil : linked src [] []
| LdStmt n b mid e f1 f2 r o sts :
    inner (flat_map (fun c => preorder (snd c)) mid) -> links src n mid o -> linked src r sts ->
    linked src (SN "statement" n ((f1, SN "statement_begin" b []) :: mid ++ [(f2, SN "statement_end" e [])]) :: r)
      (match o with Some s => s :: sts | None => sts end)
| LdOther t r sts : inner (preorder t) -> linked src r sts -> linked src (t :: r) sts.

(** ** A whole template *)
(** The tree [t] of [src] shows the template [tp], the pieces [ps] of its
    expressions and the references [sts].  Ids are addresses, hence not zero. *)
Record depicts (src : string) (t : stree) (tp : tpl) (ps : list piece) (sts : list istmt) : Prop := mkdepicts {
  dp_root : root_kind (s_kind t);
  dp_apart : told_apart t;
  dp_ids : Forall (fun x => n_id (s_node x) <> 0) (preorder t);
  dp_clean : no_error t;
  dp_tpl : tpl_ok src tp;
  dp_told : told src (map snd (s_children t)) (signs tp);
  dp_pieces : pieces_ok src ps;
  dp_dots : Forall piece_pipe_first ps;
  dp_spoken : spoken src (preorder t) (flat_map piece_nodes ps);
  dp_stmts : Forall (stmt_ok src) sts;
  dp_linked : linked src (map snd (s_children t)) sts }.
