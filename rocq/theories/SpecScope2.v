(** * SpecScope2: how far names reach in templates of any shape.

    Two more descriptions beside [introduced] (SpecScope.v).  [extents] is what
    an editor user sees the analysis do: it counts, in textual order, what opens
    and what closes a block, where every [if], [else] and [elif] counts as
    opening and every end tag as closing.  [visible] is the Jinja rule for
    variables set inside an [if], which are visible after it. *)
From Verif Require Import Base Utf8 Types Captures MDefinition SpecScope.

(** ** Counting *)
Inductive mark := MOpen | MClose (at_ : point) | MName (k : identifier_type) (t : tok).
Definition opens (es : list noise) : list mark :=
  flat_map (fun e => match e with NIf _ => [MOpen] | _ => [] end) es.
(** In the list of a [with] or of the parameters of a macro every identifier
    counts as a name, until the first inline conditional. *)
Fixpoint listed (k : identifier_type) (live : bool) (es : list noise) : list mark :=
  match es with
  | [] => []
  | NId t :: r => (if live then [MName k t] else []) ++ listed k live r
  | NEq _ :: r => listed k live r
  | NIf _ :: r => MOpen :: listed k false r
  end.
Definition flat_binds (bs : list (tok * list noise)) : list noise :=
  flat_map (fun b => NId (fst b) :: snd b) bs.
Definition header_marks (h : header) : list mark :=
  match h with
  | HFor _ key _ es => MOpen :: MName ForLoopKey key :: opens es
  | HWith _ bs => MOpen :: listed WithVariable true (flat_binds bs)
  | HMacro _ name ps => MName MacroName name :: MOpen :: listed MacroParameter true (flat_binds ps)
  | HBlock _ name es => MOpen :: MName TemplateBlock name :: opens es
  | HPlain _ es => MOpen :: opens es
  end.
Fixpoint marks (t : tpl) : list mark :=
  match t with
  | TNil => []
  | TExpr es r | TOther es _ _ r => opens es ++ marks r
  | TSet _ x es _ _ r => MName SetVariable x :: opens es ++ marks r
  | TBranch _ es _ _ r => MOpen :: opens es ++ marks r
  | TBlock h _ _ body et r => header_marks h ++ marks body ++ MClose (et_at et) :: marks r
  | TBlockSet _ x _ _ body et r =>
      MName SetVariable x :: marks body ++ MClose (et_at et) :: marks r
  end.
(** The end tag that closes what is open now, after [d] further openings. *)
Fixpoint closing (d : nat) (ms : list mark) : option point :=
  match ms with
  | [] => None
  | MOpen :: r => closing (S d) r
  | MName _ _ :: r => closing d r
  | MClose p :: r => match d with O => Some p | S d' => closing d' r end
  end.
Definition reach_of (root_end : point) (open : nat) (r : list mark) : point :=
  match open with
  | O => root_end
  | S _ => match closing 0 r with Some p => p | None => root_end end
  end.
(** Names and extents, with [open] blocks open at the beginning. *)
Fixpoint extents (root_end : point) (open : nat) (ms : list mark) : list decl :=
  match ms with
  | [] => []
  | MOpen :: r => extents root_end (S open) r
  | MClose _ :: r => extents root_end (pred open) r
  | MName k t :: r => decl_of k (reach_of root_end open r) t :: extents root_end open r
  end.

(** All names of a template with the extents the analysis gives them. *)
Definition tallied (root_end : point) (t : tpl) : list decl := extents root_end 0 (marks t).

(** No inline conditional inside an end tag. *)
Fixpoint plain_ends (t : tpl) : Prop :=
  match t with
  | TNil => True
  | TExpr _ r | TOther _ _ _ r | TSet _ _ _ _ _ r | TBranch _ _ _ _ r => plain_ends r
  | TBlock _ _ _ body et r | TBlockSet _ _ _ _ body et r =>
      plain_ends body /\ no_if (et_es et) /\ plain_ends r
  end.

(** ** Block sets outside every block *)
(** Like [straight], but block sets are allowed where no block is open, with
    bodies that introduce no names. *)
Fixpoint top_sets (t : tpl) : Prop :=
  match t with
  | TNil => True
  | TExpr es r | TOther es _ _ r | TSet _ _ es _ _ r => no_if es /\ top_sets r
  | TBranch _ _ _ _ _ => False
  | TBlock h _ _ body et r =>
      no_if (header_es h) /\ straight body /\ no_if (et_es et) /\ top_sets r
  | TBlockSet _ _ _ _ body et r =>
      straight body /\ introduced pt0 body = [] /\ no_if (et_es et) /\ top_sets r
  end.

(** ** Variables set inside an [if] *)
Definition is_if (h : header) : bool :=
  match h with HPlain kw _ => String.eqb (snd kw) "if" | _ => false end.
Fixpoint visible (until : point) (t : tpl) : list decl :=
  match t with
  | TNil => []
  | TExpr _ r | TOther _ _ _ r | TBranch _ _ _ _ r => visible until r
  | TSet _ x _ _ _ r => decl_of SetVariable until x :: visible until r
  | TBlock h _ _ body et r =>
      header_decls until (et_at et) h ++
      visible (if is_if h then until else et_at et) body ++ visible until r
  | TBlockSet _ x _ _ body et r =>
      decl_of SetVariable until x :: visible (et_at et) body ++ visible until r
  end.
(** Nothing here introduces a name into the enclosing block. *)
Fixpoint bare (t : tpl) : Prop :=
  match t with
  | TNil => True
  | TExpr _ r | TOther _ _ _ r | TBranch _ _ _ _ r => bare r
  | TSet _ _ _ _ _ _ | TBlockSet _ _ _ _ _ _ _ => False
  | TBlock h _ _ body _ r =>
      match h with HMacro _ _ _ => False | _ => True end /\
      (is_if h = true -> bare body) /\ bare r
  end.
(** No [if] introduces names. *)
Fixpoint sets_outside_ifs (t : tpl) : Prop :=
  match t with
  | TNil => True
  | TExpr _ r | TOther _ _ _ r | TSet _ _ _ _ _ r | TBranch _ _ _ _ r => sets_outside_ifs r
  | TBlock h _ _ body _ r =>
      (is_if h = true -> bare body) /\ sets_outside_ifs body /\ sets_outside_ifs r
  | TBlockSet _ _ _ _ body _ r => sets_outside_ifs body /\ sets_outside_ifs r
  end.

(** ** Identifiers before the first inline conditional *)
Fixpoint before_if (es : list noise) : list tok :=
  match es with
  | [] => []
  | NId t :: r => t :: before_if r
  | NEq _ :: r => before_if r
  | NIf _ :: _ => []
  end.
