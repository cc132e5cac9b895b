(** * SpecObjects: expressions as sequences of pieces, the uses they contain, and
    the captures the objects query yields for them.

    The capture sequence follows the OBJECTS query (search/queries.rs:55-83):
    every operator is reported as a possible pipe, a dot operator additionally
    as a dot, an expression before what it contains.  In which order the two
    captures of a dot come is left open; the repository's test
    [find_jinja_completion] passes only if the pipe capture comes first (see
    ExRepo.v), so the witnesses and examples use that order. *)
From Verif Require Import Base RString Utf8 Types Captures MObjects SpecScope.

(** Names the server treats as built in. *)
Definition built_in (s : string) : Prop :=
  In s ["loop"; "true"; "false"; "not"; "as"; "module"; "super"; "url_for"]%string.

(** One attribute access: the dot (and which of its two captures comes first)
    and the attribute name. *)
Record access := mkacc { a_dot : node; a_dot_first : bool; a_name : tok }.

Inductive piece :=
| PExpr (n : node)                                (* an expression begins *)
| PChain (h : tok) (fs : list access)             (* a.b.c *)
| PFilter (p : tok) (name : tok)                  (* | name *)
| PTest (kw : node) (nots : list tok) (name : tok)   (* is not name *)
| PBuiltin (t : tok)                              (* true, loop, .. *)
| POp (t : tok).                                  (* any other operator *)

Definition loc (t : tok) : point * point := (n_start (fst t), n_end (fst t)).
Definition field_of (a : access) : field := (snd (a_name a), loc (a_name a)).

(** ** The uses of a piece *)
Definition uses (p : piece) : list jobject :=
  match p with
  | PChain h fs => [mkobj (snd h) (loc h) false false (map field_of fs) false]
  | PFilter _ name => [mkobj (snd name) (loc name) true false [] false]
  | PTest _ _ name => [mkobj (snd name) (loc name) false true [] false]
  | PExpr _ | PBuiltin _ | POp _ => []
  end.

(** ** Captures *)
Definition cap_access (a : access) : list capture :=
  (if a_dot_first a then [cap CDot (a_dot a); cap CPipe (a_dot a)]
   else [cap CPipe (a_dot a); cap CDot (a_dot a)]) ++ [cap CJustId (fst (a_name a))].
Definition cap_piece (p : piece) : list capture :=
  match p with
  | PExpr n => [cap CExpr n]
  | PChain h fs => cap CJustId (fst h) :: flat_map cap_access fs
  | PFilter p name => [cap CPipe (fst p); cap CJustId (fst name)]
  | PTest kw nots name =>
      cap CIs kw :: map (fun t => cap CJustId (fst t)) nots ++ [cap CJustId (fst name)]
  | PBuiltin t => [cap CJustId (fst t)]
  | POp t => [cap CPipe (fst t)]
  end.
Definition cap_pieces (ps : list piece) : list capture := flat_map cap_piece ps.

(** ** Well-formedness *)
Definition access_ok (src : string) (a : access) : Prop :=
  reads src (a_dot a, "."%string) /\ reads src (a_name a) /\
  n_end (a_dot a) = n_start (fst (a_name a)).
Definition piece_ok (src : string) (p : piece) : Prop :=
  match p with
  | PExpr _ => True
  | PChain h fs => reads src h /\ ~ built_in (snd h) /\ Forall (access_ok src) fs
  | PFilter p name =>
      reads src p /\ (exists r, snd p = ("|" ++ r)%string) /\ n_end (fst p) = n_start (fst name) /\
      reads src name /\ ~ built_in (snd name)
  | PTest kw nots name =>
      Forall (fun t => reads src t /\ built_in (snd t)) nots /\ reads src name /\
      ~ built_in (snd name)
  | PBuiltin t => reads src t /\ built_in (snd t)
  | POp t => reads src t /\ ~ (exists r, snd t = ("|" ++ r)%string) /\ snd t <> "."%string
  end.

(** Tokens follow each other without overlapping; an expression starts no later
    than what it contains. *)
Definition pt_max (a b : point) : point := if pt_leb a b then b else a.
Inductive mark := MTok (n : node) | MExpr (n : node).
Definition marks_access (a : access) : list mark := [MTok (a_dot a); MTok (fst (a_name a))].
Definition marks (p : piece) : list mark :=
  match p with
  | PExpr n => [MExpr n]
  | PChain h fs => MTok (fst h) :: flat_map marks_access fs
  | PFilter p name => [MTok (fst p); MTok (fst name)]
  | PTest kw nots name => MTok kw :: map (fun t => MTok (fst t)) nots ++ [MTok (fst name)]
  | PBuiltin t | POp t => [MTok (fst t)]
  end.
Fixpoint ordered (after : point) (ms : list mark) : Prop :=
  match ms with
  | [] => True
  | MTok n :: r => pt_le after (n_start n) /\ pt_lt (n_start n) (n_end n) /\ ordered (n_end n) r
  | MExpr n :: r => ordered (pt_max after (n_start n)) r
  end.
(** A sequence of pieces read from [src], after the very beginning of the file
    (which is taken by an opening bracket). *)
Definition pieces_ok (src : string) (ps : list piece) : Prop :=
  Forall (piece_ok src) ps /\
  exists p0, pt_lt pt0 p0 /\ ordered p0 (flat_map marks ps).

(** The cursor is on a token (its end included, as in an editor). *)
Definition on_tok (tp : point) (t : tok) : Prop :=
  pt_le (n_start (fst t)) tp /\ pt_le tp (n_end (fst t)).

(** Identifiers and expressions all start behind the cursor. *)
Definition behind (tp : point) (c : capture) : Prop :=
  match c_name c with CJustId | CExpr => pt_lt tp (n_start (c_node c)) | _ => True end.

(** Positions that fit the protocol's 32-bit integers. *)
Definition small (p : point) : Prop := row p < two32 /\ col p < two32.

(** The text of the nodes whose text is read can be read. *)
Definition text_ok (src : string) (c : capture) : Prop :=
  match c_name c with CJustId | CPipe => utf8_text (c_node c) src <> Panic | _ => True end.

(** A syntax error ends the analysis; nothing behind it is looked at. *)
Definition stops (tail : list capture) : Prop :=
  tail = [] \/ exists c r, tail = c :: r /\ c_name c = CError.

(** The segment of a chain the cursor is on, given the accesses up to it. *)
Definition segment (h : tok) (fs : list access) : tok :=
  match last_opt fs with Some a => a_name a | None => h end.
Definition all_small (cs : list capture) : Prop :=
  Forall (fun c => small (n_start (c_node c)) /\ small (n_end (c_node c))) cs.
(** The next piece is no attribute chain. *)
Definition plain_start (post : list piece) : Prop :=
  match post with PChain _ (_ :: _) :: _ => False | _ => True end.
(** Where the marks end. *)
Definition mark_end (after : point) (m : mark) : point :=
  match m with MTok n => n_end n | MExpr n => pt_max after (n_start n) end.
Definition marks_end (after : point) (ms : list mark) : point := fold_left mark_end ms after.
(** Everything of [ps] ends before [p]. *)
Definition ends_before (src : string) (ps : list piece) (p : point) : Prop :=
  Forall (piece_ok src) ps /\
  exists p0, pt_lt pt0 p0 /\ ordered p0 (flat_map marks ps) /\ pt_le (marks_end p0 (flat_map marks ps)) p.
(** The cursor is inside the expression the pieces end in, or outside of all. *)
Definition inside (ps : list piece) (tp : point) : Prop :=
  exists pre n p2, ps = pre ++ PExpr n :: p2 /\
    Forall (fun p => match p with PExpr _ => False | _ => True end) p2 /\ pt_lt tp (n_end n).
Definition outside (ps : list piece) (tp : point) : Prop :=
  forall n, In (PExpr n) ps -> pt_le (n_end n) tp.
(** The next capture starts behind the cursor. *)
Definition before_all (tp : point) (cs : list capture) : Prop :=
  match cs with [] => True | c :: _ => pt_lt tp (n_start (c_node c)) end.
(** [n] is the first syntax error that starts at most at [lim]. *)
Definition first_error (lim : point) (cs : list capture) (n : node) : Prop :=
  exists before c after, cs = before ++ c :: after /\ c_name c = CErrorBlock /\ c_node c = n /\ pt_le (n_start n) lim /\
    forall d, In d before -> c_name d = CErrorBlock -> pt_lt lim (n_start (c_node d)).
(** The first syntax error in front of the cursor (which would ask for snippets)
    does not reach it. *)
Definition clean_before (tp : point) (ms : list (list capture)) : Prop :=
  forall n, first_error (mkpt (row tp) (col tp + 2)) (concat ms) n -> pt_lt (n_end n) tp.
