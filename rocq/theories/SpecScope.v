(** * SpecScope: templates as trees of statements, the names they introduce, and
    the captures the definitions query yields for them.

    The names and their extents follow the Jinja template language; the capture
    sequence follows the DEFINITIONS query (search/queries.rs:197-229) and the
    order in which tree-sitter reports matches: a keyword, identifier or
    operator where it occurs, and the two brackets of a statement together when
    its closing bracket is reached. *)
From Verif Require Import Base Utf8 Types Captures MDefinition.

(** A token and its text. *)
Definition tok := (node * string)%type.
Definition reads (src : string) (t : tok) : Prop :=
  utf8_text (fst t) src = Ok (Some (snd t)) /\ snd t <> EmptyString.

(** What occurs inside an expression: identifiers, operators containing [=],
    and the keywords [if]/[else] of an inline conditional or a loop filter. *)
Inductive noise := NId (t : tok) | NEq (n : node) | NIf (n : node).

(** Opening tags. *)
Inductive header :=
| HFor (kw : node) (key : tok) (others : list tok) (es : list noise)
| HWith (kw : node) (bs : list (tok * list noise))
| HMacro (kw : node) (name : tok) (ps : list (tok * list noise))
| HBlock (kw : node) (name : tok) (es : list noise)
| HPlain (kw : tok) (es : list noise).        (* if, filter, autoescape, raw *)

(** End tags: keyword, anything after it, and the two brackets. *)
Record end_tag := mkend { et_kw : node; et_es : list noise; et_b : node; et_e : node }.
Definition et_at (t : end_tag) : point := n_start (et_b t).

(** A template: a sequence of pieces, some of them nested. *)
Inductive tpl :=
| TNil
| TExpr (es : list noise) (rest : tpl)                                  (* {{ .. }} *)
| TOther (es : list noise) (b e : node) (rest : tpl)                    (* include, import, .. *)
| TSet (kw : node) (x : tok) (es : list noise) (b e : node) (rest : tpl)
| TBranch (kw : tok) (es : list noise) (b e : node) (rest : tpl)        (* else, elif *)
| TBlock (h : header) (b e : node) (body : tpl) (et : end_tag) (rest : tpl)
| TBlockSet (kw : node) (x : tok) (b e : node) (body : tpl) (et : end_tag) (rest : tpl).

(** ** The names introduced, in order of appearance *)
Record decl := mkdecl {
  dc_name : string; dc_kind : identifier_type; dc_start : point; dc_end : point;
  dc_until : point }.
Definition decl_of (k : identifier_type) (until : point) (t : tok) : decl :=
  mkdecl (snd t) k (n_start (fst t)) (n_end (fst t)) until.

Definition header_decls (outer inner : point) (h : header) : list decl :=
  match h with
  | HFor _ key others _ => decl_of ForLoopKey inner key :: map (decl_of ForLoopValue inner) others
  | HWith _ bs => map (fun b => decl_of WithVariable inner (fst b)) bs
  | HMacro _ name ps =>
      decl_of MacroName outer name :: map (fun p => decl_of MacroParameter inner (fst p)) ps
  | HBlock _ name _ => [decl_of TemplateBlock inner name]
  | HPlain _ _ => []
  end.
(** [until] is the end of the enclosing block, or of the file. *)
Fixpoint introduced (until : point) (t : tpl) : list decl :=
  match t with
  | TNil => []
  | TExpr _ r | TOther _ _ _ r | TBranch _ _ _ _ r => introduced until r
  | TSet _ x _ _ _ r => decl_of SetVariable until x :: introduced until r
  | TBlock h _ _ body et r =>
      header_decls until (et_at et) h ++ introduced (et_at et) body ++ introduced until r
  | TBlockSet _ x _ _ body et r =>
      decl_of SetVariable until x :: introduced (et_at et) body ++ introduced until r
  end.
(** What an identifier record says. *)
Definition decl_of_id (i : identifier) : decl :=
  mkdecl (id_name i) (id_type i) (id_start i) (id_end i) (snd (id_scope i)).

(** ** Captures *)
Definition cap (c : cname) (n : node) : capture := mkcap c n.
Definition cap_noise (e : noise) : capture :=
  match e with NId t => cap CId (fst t) | NEq n => cap CEquals n | NIf n => cap CScope n end.
Definition cap_tail (b e : node) : list capture := [cap CScopeEnd b; cap CScopeStart e].
Definition cap_bind (b : tok * list noise) : list capture :=
  cap CId (fst (fst b)) :: map cap_noise (snd b).
Definition cap_header (h : header) : list capture :=
  match h with
  | HFor kw key others es =>
      cap CDefinition kw :: cap CId (fst key) :: map (fun t => cap CId (fst t)) others
        ++ map cap_noise es
  | HWith kw bs => cap CDefinition kw :: flat_map cap_bind bs
  | HMacro kw name ps => cap CDefinition kw :: cap CId (fst name) :: flat_map cap_bind ps
  | HBlock kw name es => cap CDefinition kw :: cap CId (fst name) :: map cap_noise es
  | HPlain kw es => cap CScope (fst kw) :: map cap_noise es
  end.
Definition cap_end (t : end_tag) : list capture :=
  cap CEndblock (et_kw t) :: map cap_noise (et_es t) ++ cap_tail (et_b t) (et_e t).
Fixpoint captures_of (t : tpl) : list capture :=
  match t with
  | TNil => []
  | TExpr es r => map cap_noise es ++ captures_of r
  | TOther es b e r => map cap_noise es ++ cap_tail b e ++ captures_of r
  | TSet kw x es b e r =>
      cap CDefinition kw :: cap CId (fst x) :: map cap_noise es ++ cap_tail b e ++ captures_of r
  | TBranch kw es b e r =>
      cap CScope (fst kw) :: map cap_noise es ++ cap_tail b e ++ captures_of r
  | TBlock h b e body et r =>
      cap_header h ++ cap_tail b e ++ captures_of body ++ cap_end et ++ captures_of r
  | TBlockSet kw x b e body et r =>
      cap CDefinition kw :: cap CId (fst x) :: cap_tail b e ++ captures_of body ++ cap_end et
        ++ captures_of r
  end.

(** ** Well-formedness: the tokens say what the tree says they say *)
Definition noise_ok (src : string) (e : noise) : Prop :=
  match e with NId t => reads src t | NEq _ => True | NIf _ => True end.
Definition bind_ok (src : string) (b : tok * list noise) : Prop :=
  reads src (fst b) /\ Forall (noise_ok src) (snd b).
Definition header_ok (src : string) (h : header) : Prop :=
  match h with
  | HFor kw key others es =>
      reads src (kw, "for"%string) /\ reads src key /\ Forall (reads src) others /\
      Forall (noise_ok src) es
  | HWith kw bs => reads src (kw, "with"%string) /\ Forall (bind_ok src) bs
  | HMacro kw name ps =>
      reads src (kw, "macro"%string) /\ reads src name /\ Forall (bind_ok src) ps
  | HBlock kw name es =>
      reads src (kw, "block"%string) /\ reads src name /\ Forall (noise_ok src) es
  | HPlain kw es =>
      reads src kw /\ In (snd kw) ["if"; "filter"; "autoescape"; "raw"]%string /\
      Forall (noise_ok src) es
  end.
Fixpoint tpl_ok (src : string) (t : tpl) : Prop :=
  match t with
  | TNil => True
  | TExpr es r => Forall (noise_ok src) es /\ tpl_ok src r
  | TOther es _ _ r => Forall (noise_ok src) es /\ tpl_ok src r
  | TSet kw x es _ _ r =>
      reads src (kw, "set"%string) /\ reads src x /\ Forall (noise_ok src) es /\ tpl_ok src r
  | TBranch kw es _ _ r =>
      reads src kw /\ In (snd kw) ["else"; "elif"]%string /\ Forall (noise_ok src) es /\
      tpl_ok src r
  | TBlock h _ _ body et r =>
      header_ok src h /\ tpl_ok src body /\ Forall (noise_ok src) (et_es et) /\ tpl_ok src r
  | TBlockSet kw x _ _ body et r =>
      reads src (kw, "set"%string) /\ reads src x /\ tpl_ok src body /\
      Forall (noise_ok src) (et_es et) /\ tpl_ok src r
  end.

(** The keyword nodes that open something; tree-sitter node ids are distinct
    and non-zero (they are addresses). *)
Definition ifs (es : list noise) : list N :=
  flat_map (fun e => match e with NIf n => [n_id n] | _ => [] end) es.
Definition header_kw (h : header) : N :=
  match h with
  | HFor kw _ _ _ | HWith kw _ | HMacro kw _ _ | HBlock kw _ _ => n_id kw
  | HPlain kw _ => n_id (fst kw)
  end.
Definition header_es (h : header) : list noise :=
  match h with
  | HFor _ _ _ es | HBlock _ _ es | HPlain _ es => es
  | HWith _ bs => flat_map snd bs
  | HMacro _ _ ps => flat_map snd ps
  end.
Fixpoint keyword_ids (t : tpl) : list N :=
  match t with
  | TNil => []
  | TExpr es r | TOther es _ _ r => ifs es ++ keyword_ids r
  | TSet kw _ es _ _ r => n_id kw :: ifs es ++ keyword_ids r
  | TBranch kw es _ _ r => n_id (fst kw) :: ifs es ++ keyword_ids r
  | TBlock h _ _ body et r =>
      header_kw h :: ifs (header_es h) ++ keyword_ids body ++ ifs (et_es et) ++ keyword_ids r
  | TBlockSet kw _ _ _ body et r => n_id kw :: keyword_ids body ++ ifs (et_es et) ++ keyword_ids r
  end.
Definition distinct_nodes (t : tpl) : Prop := NoDup (0 :: keyword_ids t).

(** ** Shapes *)
Definition is_nif (e : noise) : bool := match e with NIf _ => true | _ => false end.
Definition is_nid (e : noise) : bool := match e with NId _ => true | _ => false end.
Definition no_if (es : list noise) : Prop := Forall (fun e => is_nif e = false) es.
Definition no_id (es : list noise) : Prop := Forall (fun e => is_nid e = false) es.

(** No branches, no inline conditionals, no block set. *)
Fixpoint straight (t : tpl) : Prop :=
  match t with
  | TNil => True
  | TExpr es r | TOther es _ _ r | TSet _ _ es _ _ r => no_if es /\ straight r
  | TBranch _ _ _ _ _ | TBlockSet _ _ _ _ _ _ _ => False
  | TBlock h _ _ body et r =>
      no_if (header_es h) /\ straight body /\ no_if (et_es et) /\ straight r
  end.
(** Loops with one target; no names on the right-hand sides of [with] and in
    parameter defaults. *)
Fixpoint plain_headers (t : tpl) : Prop :=
  match t with
  | TNil => True
  | TExpr _ r | TOther _ _ _ r | TSet _ _ _ _ _ r | TBranch _ _ _ _ r => plain_headers r
  | TBlock h _ _ body _ r =>
      match h with
      | HFor _ _ others _ => others = []
      | HWith _ bs => Forall (fun b => no_id (snd b)) bs
      | HMacro _ _ ps => Forall (fun p => no_id (snd p)) ps
      | _ => True
      end /\ plain_headers body /\ plain_headers r
  | TBlockSet _ _ _ _ body _ r => plain_headers body /\ plain_headers r
  end.
(** No block set, and no inline conditional in the header of [with]/[macro] or
    in an end tag; branches, loop filters and inline conditionals elsewhere are
    allowed. *)
Fixpoint branching (t : tpl) : Prop :=
  match t with
  | TNil => True
  | TExpr _ r | TOther _ _ _ r | TSet _ _ _ _ _ r | TBranch _ _ _ _ r => branching r
  | TBlockSet _ _ _ _ _ _ _ => False
  | TBlock h _ _ body et r =>
      match h with
      | HWith _ bs => Forall (fun b => no_if (snd b)) bs
      | HMacro _ _ ps => Forall (fun p => no_if (snd p)) ps
      | _ => True
      end /\ branching body /\ no_if (et_es et) /\ branching r
  end.
(** End tags lie inside what encloses them. *)
Fixpoint nested (until : point) (t : tpl) : Prop :=
  match t with
  | TNil => True
  | TExpr _ r | TOther _ _ _ r | TSet _ _ _ _ _ r | TBranch _ _ _ _ r => nested until r
  | TBlock _ _ _ body et r | TBlockSet _ _ _ _ body et r =>
      nested (et_at et) body /\ pt_le (et_at et) until /\ nested until r
  end.

(** ** What is recorded for headers with more names than the language says
    (second loop targets dropped, right-hand names added). *)
Definition noise_toks (es : list noise) : list tok :=
  flat_map (fun e => match e with NId t => [t] | _ => [] end) es.
Definition bind_toks (b : tok * list noise) : list tok := fst b :: noise_toks (snd b).
Definition header_recorded (outer inner : point) (h : header) : list decl :=
  match h with
  | HFor _ key _ _ => [decl_of ForLoopKey inner key]
  | HWith _ bs => map (decl_of WithVariable inner) (flat_map bind_toks bs)
  | HMacro _ name ps =>
      decl_of MacroName outer name :: map (decl_of MacroParameter inner) (flat_map bind_toks ps)
  | HBlock _ name _ => [decl_of TemplateBlock inner name]
  | HPlain _ _ => []
  end.
Fixpoint recorded (until : point) (t : tpl) : list decl :=
  match t with
  | TNil => []
  | TExpr _ r | TOther _ _ _ r | TBranch _ _ _ _ r => recorded until r
  | TSet _ x _ _ _ r => decl_of SetVariable until x :: recorded until r
  | TBlock h _ _ body et r =>
      header_recorded until (et_at et) h ++ recorded (et_at et) body ++ recorded until r
  | TBlockSet _ x _ _ body et r =>
      decl_of SetVariable until x :: recorded (et_at et) body ++ recorded until r
  end.
(** Same name, kind and place, and at least as long an extent. *)
Definition covers (real found : decl) : Prop :=
  dc_name found = dc_name real /\ dc_kind found = dc_kind real /\
  dc_start found = dc_start real /\ dc_end found = dc_end real /\
  pt_le (dc_until real) (dc_until found).

(** The text of every keyword that starts a definition is readable, and the
    other tokens lie inside the text. *)
Definition readable (src : string) (c : capture) : Prop :=
  match c_name c with
  | CDefinition => exists s, utf8_text (c_node c) src = Ok (Some s)
  | CId => utf8_text (c_node c) src <> Panic
  | _ => True
  end.
