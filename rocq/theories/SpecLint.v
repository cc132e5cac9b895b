(** * SpecLint: when a use or a template reference is reported. *)
From Verif Require Import Base RString Utf8 Types Captures MSearchErrors SpecScope SpecObjects.
From Coq Require Export Permutation.

(** ** Variables *)

(** A declaration of the file that can be meant by a name (a block cannot). *)
Definition means (name : string) (d : decl) : Prop :=
  dc_name d = name /\ dc_kind d <> TemplateBlock.
(** It can be seen from a use at [s]..[e]: it does not start behind the use, and
    the use starts inside its extent (none: everywhere). *)
Definition seen_from (s e : point) (d : decl) : Prop :=
  pt_le (dc_start d) e /\ (dc_until d = pt0 \/ pt_lt s (dc_until d)).

(** What linting says about a use of [name] at [s]..[e] in a file with
    declarations [this]; [anywhere] are the names some indexed file defines. *)
Inductive verdict (this : list decl) (anywhere : string -> Prop) (name : string) (s e : point)
  : option jdiag -> Prop :=
| VFine d : In d this -> means name d -> seen_from s e d -> verdict this anywhere name s e None
| VOutOfScope d :
    In d this -> means name d ->
    (forall d', In d' this -> means name d' -> ~ seen_from s e d') ->
    verdict this anywhere name s e (Some Undefined)
| VNowhere :
    (forall d, In d this -> ~ means name d) -> ~ anywhere name ->
    verdict this anywhere name s e (Some Undefined)
| VElsewhere :
    (forall d, In d this -> ~ means name d) -> anywhere name ->
    verdict this anywhere name s e (Some DefinedSomewhere).

(** The dotted chains of a list of pieces. *)
Definition chains (ps : list piece) : list (tok * list access) :=
  flat_map (fun p => match p with PChain h fs => [(h, fs)] | _ => [] end) ps.
(** The identifier a report points at. *)
Definition use_id (u : tok * list access) : identifier :=
  mkid (n_start (fst (fst u))) (n_end (fst (fst u))) (snd (fst u)) (0, pt0) UndefinedVariable
    (map field_of (snd u)).
(** The reports for a list of uses, in order. *)
Inductive reported (this : list decl) (anywhere : string -> Prop)
  : list (tok * list access) -> errors -> Prop :=
| RepNil : reported this anywhere [] []
| RepFine u us es :
    verdict this anywhere (snd (fst u)) (n_start (fst (fst u))) (n_end (fst (fst u))) None ->
    reported this anywhere us es -> reported this anywhere (u :: us) es
| RepFlag u us es d :
    verdict this anywhere (snd (fst u)) (n_start (fst (fst u))) (n_end (fst (fst u))) (Some d) ->
    reported this anywhere us es -> reported this anywhere (u :: us) ((d, use_id u) :: es).

(** The names defined in some file. *)
Definition indexed (vars : smap (list identifier)) (name : string) : Prop :=
  exists file vs v, In (file, vs) vars /\ In v vs /\ id_name v = name.

(** ** Template references *)

(** A quoted string: its node and the text between the quotes. *)
Definition sref := (node * string)%type.
Definition no_quotes (s : string) : Prop :=
  ~ In dquote (list_ascii_of_string s) /\ ~ In squote (list_ascii_of_string s).
Definition sref_ok (src : string) (r : sref) : Prop :=
  no_quotes (snd r) /\
  exists q, (q = dquote \/ q = squote) /\
    utf8_text (fst r) src = Ok (Some (String q (snd r ++ String q EmptyString))).

(** Import statements.  The JINJA_IMPORTS query (search/queries.rs:115-166)
    yields one match per quoted string of an include and one per imported name;
    a match lists the statement, its keyword, the string and what follows (for
    an import: [as] and the alias, each if there is one). *)
Inductive istmt :=
| SExtends (n kw : node) (t : sref)
| SInclude (n kw : node) (ts : list sref)
| SFrom (n kw : node) (t : sref) (imp : node) (ids : list (option tok))
| SImport (n kw : node) (t : sref) (aliases : list (option node * option tok)).
Definition stmt_node (s : istmt) : node :=
  match s with SExtends n _ _ | SInclude n _ _ | SFrom n _ _ _ _ | SImport n _ _ _ => n end.
Definition cap_stmt (s : istmt) : list (list capture) :=
  match s with
  | SExtends n kw t => [[cap CExtends n; cap COther kw; cap CTemplateName (fst t)]]
  | SInclude n kw ts => map (fun t => [cap CInclude n; cap COther kw; cap CTemplateName (fst t)]) ts
  | SFrom n kw t imp ids =>
      map (fun i => [cap CFrom n; cap COther kw; cap CTemplateName (fst t); cap COther imp] ++
                    match i with Some i => [cap CImportIdentifier (fst i)] | None => [] end) ids
  | SImport n kw t als =>
      map (fun a => [cap CImport n; cap COther kw; cap CTemplateName (fst t)] ++
                    match fst a with Some k => [cap COther k] | None => [] end ++
                    match snd a with Some i => [cap CImportIdentifier (fst i)] | None => [] end) als
  end.
Definition stmt_ok (src : string) (s : istmt) : Prop :=
  match s with
  | SExtends _ _ t => sref_ok src t
  | SInclude _ _ ts => ts <> [] /\ Forall (sref_ok src) ts
  | SFrom _ _ t _ ids =>
      sref_ok src t /\ ids <> [] /\
      Forall (fun i => match i with Some i => reads src i | None => True end) ids
  | SImport _ _ t als =>
      sref_ok src t /\ als <> [] /\
      Forall (fun a => match snd a with Some i => reads src i | None => True end) als
  end.
Definition stmts_ok (src : string) (sts : list istmt) : Prop :=
  Forall (stmt_ok src) sts /\ NoDup (map (fun s => n_id (stmt_node s)) sts).
(** The templates a statement refers to. *)
Definition refs (s : istmt) : list sref :=
  match s with
  | SExtends _ _ t | SFrom _ _ t _ _ | SImport _ _ t _ => [t]
  | SInclude _ _ ts => ts
  end.
Definition ref_id (r : sref) : identifier :=
  mkid (n_start (fst r)) (n_end (fst r)) (snd r) (0, pt0) JinjaTemplate [].

(** The file looked up for a template name: its non-empty segments below the
    directory (a trailing slash is kept). *)
Definition non_empty (s : string) : bool := negb (String.eqb s "").
Definition segments (name : string) : list string := filter non_empty (split_char slash name).
Definition relative (name : string) : string :=
  (String.concat "/" (segments name) ++
   if ends_with_slash name && negb (match segments name with [] => true | _ => false end)
   then "/" else "")%string.
Definition lookup_path (dir name : string) : string :=
  (if String.eqb dir "" then relative name
   else if ends_with_slash dir then dir ++ relative name
   else dir ++ "/" ++ relative name)%string.
Definition not_found (F : fs) (dir name : string) : bool :=
  match f_canon F (lookup_path dir name) with CanonNotFound => true | _ => false end.
Definition missing (F : fs) (dir name : string) : bool :=
  String.eqb name "" || not_found F dir name.

(** ** Hash-map order: two maps with the same entries *)
Definition same_map {V} (m m' : smap V) : Prop := NoDup (map fst m) /\ Permutation m m'.

(** ** One parsed template *)

(** Tree-sitter's view of [src]: the template [tp] for the definitions query,
    the pieces [ps] for the objects query, the statements [sts] for the imports
    query, and no syntax error. *)
Record parsed (T : ts) (tr : tree T) (src : string) (tp : tpl) (ps : list piece) (sts : list istmt)
  : Prop := mkparsed {
  pd_tpl : tpl_ok src tp;
  pd_nodes : distinct_nodes tp;
  pd_defs : concat (t_captures T QDefinitions tr src) = captures_of tp;
  pd_pieces : pieces_ok src ps;
  pd_objects : concat (t_captures T QObjects tr src) = cap_pieces ps;
  pd_stmts : stmts_ok src sts;
  pd_imports : t_captures T QImports tr src = flat_map cap_stmt sts;
  pd_clean : Forall (fun c => c_name c <> CErrorBlock) (concat (t_captures T QSnippets tr src)) }.

(** The report about a template reference. *)
Definition missing_reports (F : fs) (dir : string) (sts : list istmt) : errors :=
  map (fun r => (TemplateNotFound, ref_id r)) (filter (fun r => missing F dir (snd r)) (flat_map refs sts)).

(** ** Inside the template directory, lexically: no [..] climbs above it. *)
Fixpoint stays (depth : nat) (segs : list string) : bool :=
  match segs with
  | [] => true
  | s :: r =>
      if String.eqb s ".." then match depth with O => false | S d => stays d r end
      else if String.eqb s "" || String.eqb s "." then stays depth r
      else stays (S depth) r
  end.
Definition join (dir rel : string) : string :=
  (if String.eqb dir "" then rel else if ends_with_slash dir then dir ++ rel else dir ++ "/" ++ rel)%string.
Definition below (dir p : string) : Prop :=
  exists rel, is_absolute rel = false /\ stays 0 (split_char slash rel) = true /\ p = join dir rel.
Definition no_dotdot (name : string) : Prop := ~ In ".."%string (split_char slash name).
