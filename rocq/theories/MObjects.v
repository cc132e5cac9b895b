(** * MObjects: uses of variables, filters and tests; cursor queries.
    Model of jinja-lsp-queries/src/search/objects.rs and of [completion_start]
    (search/mod.rs:56-75). *)
From Verif Require Import Base RString Utf8 Types Captures.

(** search/mod.rs:56-75 [completion_start]. *)
Definition completion_start (b : build) (tp : point) (i : identifier) : res (option string) :=
  let c := if 0 <? col tp then col tp - 1 else col tp in
  let len := slen (id_name i) in
  if len =? 0 then Ok (Some EmptyString)
  else
    diff <- usize_sub b (col (id_end i)) c;;
    if (diff =? 0) || (diff =? 1) then Ok (Some (id_name i))
    else if len <? diff then Ok (Some (id_name i))
    else Ok (get_to (id_name i) (len - diff + 1)).

(** objects.rs:6-14. *)
Record jobject := mkobj {
  o_name : string;
  o_loc : point * point;
  o_is_filter : bool;
  o_is_test : bool;
  o_fields : list field;
  o_capture_first : bool }.

(** objects.rs:16-26. *)
Definition obj_new (name : string) (s e : point) (is_filter is_test : bool) : jobject :=
  mkobj name (s, e) is_filter is_test [] false.
Definition obj_add_field (f : field) (o : jobject) : jobject :=
  mkobj (o_name o) (o_loc o) (o_is_filter o) (o_is_test o) (o_fields o ++ [f]) (o_capture_first o).
Definition obj_capture_first (o : jobject) : jobject :=
  mkobj (o_name o) (o_loc o) (o_is_filter o) (o_is_test o) (o_fields o) true.
(** objects.rs:32-35. *)
Definition last_field_end (o : jobject) : point :=
  match last_opt (o_fields o) with Some f => snd (snd f) | None => snd (o_loc o) end.
(** objects.rs:37-41. *)
Definition obj_full_range (o : jobject) : range := to_range (fst (o_loc o), last_field_end o).

(** search/mod.rs:48-54 [From<&JinjaObject> for Identifier]. *)
Definition id_of_obj (o : jobject) : identifier :=
  mkid (fst (o_loc o)) (snd (o_loc o)) (o_name o) (0, pt0) UndefinedVariable (o_fields o).

(** objects.rs:331-335. *)
Record expr_range := mkexpr { e_begin : point * point; e_end : point * point }.
Definition expr0 : expr_range := mkexpr (pt0, pt0) (pt0, pt0).

(** objects.rs:44-52. *)
Record jobjects := mkobjs {
  os_objects : list jobject;
  os_dot : point * point;
  os_pipe : point * point;
  os_test : (point * point) * bool;
  os_expr : (point * point) * expr_range;
  os_ident : point * point }.
Definition jobjects0 : jobjects :=
  mkobjs [] (pt0, pt0) (pt0, pt0) ((pt0, pt0), false) ((pt0, pt0), expr0) (pt0, pt0).

(** objects.rs:327-329. *)
Definition valid_identifiers : list string :=
  ["loop"; "true"; "false"; "not"; "as"; "module"; "super"; "url_for"]%string.

(** objects.rs:337-345. *)
Inductive object_action := AExpression | AInvalid | ANewField | ANewFilter | ANewTest | ANewObject.

(** objects.rs:230-234. *)
Definition os_full_range (s : jobjects) : range :=
  match last_opt (os_objects s) with Some o => obj_full_range o | None => range0 end.
(** objects.rs:212-216 ([&&] binds tighter than [||]). *)
Definition is_hover (s : jobjects) (tp : point) : bool :=
  (pt_leb (fst (os_ident s)) tp && pt_leb tp (snd (os_ident s)))
  || to_range2 (os_full_range s) tp.
(** objects.rs:218-220. *)
Definition is_filter (s : jobjects) : bool := pt_eqb (snd (os_pipe s)) (fst (os_ident s)).
(** objects.rs:236-238. *)
Definition is_test (s : jobjects) (tp : point) : bool :=
  snd (os_test s) && pt_leb (snd (fst (os_test s))) tp
  && (row tp =? row (snd (fst (os_test s)))).

(** objects.rs:121-128 and 136-147: the new-object path (identical in both
    branches); [self.ident] is set before [is_hover]/[is_filter] read it. *)
Definition new_object (s : jobjects) (value : string) (st en : point) : jobjects * object_action :=
  if str_mem value valid_identifiers then (s, AInvalid)
  else
    let s1 := mkobjs (os_objects s) (os_dot s) (os_pipe s) (os_test s) (os_expr s) (st, en) in
    let flt := is_hover s1 st && is_filter s1 in
    let o := obj_new value st en flt (snd (os_test s)) in
    (mkobjs (os_objects s ++ [o]) (os_dot s) (os_pipe s) (fst (os_test s), false) (os_expr s)
       (st, en), ANewObject).

(** objects.rs:104-151 [build_object]. *)
Definition build_object (src : string) (s : jobjects) (n : node) : res (jobjects * object_action) :=
  value <- utf8_text n src;;
  let st := n_start n in
  let en := n_end n in
  match value with
  | None => Ok (s, AInvalid)
  | Some v =>
      if (row st =? row (snd (os_dot s))) && (col st =? col (snd (os_dot s))) then
        match os_objects s with
        | [] => Ok (new_object s v st en)
        | _ => Ok (mkobjs (update_last (obj_add_field (v, (st, en))) (os_objects s)) (os_dot s)
                     (os_pipe s) (os_test s) (os_expr s) (st, en), AInvalid)
        end
      else Ok (new_object s v st en)
  end.

(** objects.rs:55-102 [JinjaObjects::check]; [None] is the Rust [None]. *)
Definition obj_check (src : string) (s : jobjects) (c : capture)
  : res (jobjects * option object_action) :=
  let n := c_node c in
  let st := n_start n in
  let en := n_end n in
  match c_name c with
  | CError => Ok (s, None)
  | CJustId =>
      r <- build_object src s n;; Ok (fst r, Some (snd r))
  | CDot =>
      Ok (mkobjs (os_objects s) (st, en) (os_pipe s) (os_test s) (os_expr s) (os_ident s),
          Some ANewField)
  | CPipe =>
      t <- utf8_text n src;;
      match t with
      | None => Ok (s, None)
      | Some content =>
          let s' := if starts_with content "|" then
                      mkobjs (os_objects s) (os_dot s) (st, en) (os_test s) (os_expr s) (os_ident s)
                    else s in
          Ok (s', Some ANewFilter)
      end
  | CIs =>
      Ok (mkobjs (os_objects s) (os_dot s) (os_pipe s) ((st, en), true) (os_expr s) (os_ident s),
          Some ANewTest)
  | CExpr =>
      Ok (mkobjs (os_objects s) (os_dot s) (os_pipe s) (os_test s)
            ((st, en), mkexpr (n_first n) (n_last n)) (os_ident s), Some AExpression)
  | _ => Ok (s, Some AInvalid)
  end.

(** Loop state of [objects_query] (objects.rs:249-258). *)
Record oloop := mkol {
  l_objs : jobjects;
  l_continued : bool;
  l_my_id : N;
  l_my_expr : (point * point) * expr_range }.
Definition oloop0 : oloop := mkol jobjects0 false 0 ((pt0, pt0), expr0).

Definition set_ident (s : jobjects) (i : point * point) : jobjects :=
  mkobjs (os_objects s) (os_dot s) (os_pipe s) (os_test s) (os_expr s) i.
Definition set_objects (s : jobjects) (l : list jobject) : jobjects :=
  mkobjs l (os_dot s) (os_pipe s) (os_test s) (os_expr s) (os_ident s).
Definition set_expr (s : jobjects) (e : (point * point) * expr_range) : jobjects :=
  mkobjs (os_objects s) (os_dot s) (os_pipe s) (os_test s) e (os_ident s).

(** objects.rs:295-306: leaving the look-ahead. *)
Definition finish_lookahead (b : build) (l : oloop) (s : jobjects) : res jobjects :=
  let s1 :=
    match nth_error (os_objects s) (N.to_nat (l_my_id l)) with
    | Some o => set_objects (set_ident s (o_loc o))
                  (update_nth (N.to_nat (l_my_id l)) obj_capture_first (os_objects s))
    | None => s
    end in
  n <- usize_sub b (N.of_nat (length (os_objects s1))) 1;;
  if negb (l_my_id l =? n)
  then Ok (set_expr (set_objects s1 (removelast (os_objects s1))) (l_my_expr l))
  else Ok s1.

(** objects.rs:260-312: one capture; the boolean is "keep going" (both
    [break 'loop1] and the end of a match leave or continue the same flat
    sequence of captures). *)
Definition obj_step (b : build) (src : string) (tp : point) (all : bool)
  (l : oloop) (c : capture) : res (oloop * bool) :=
  let s := l_objs l in
  let cs := n_start (c_node c) in
  if all || pt_leb cs tp then
    r <- obj_check src s c;;
    let l' := mkol (fst r) (l_continued l) (l_my_id l) (l_my_expr l) in
    Ok (l', is_some (snd r))
  else if pt_leb tp cs then
    if is_filter s || match c_name c with CExpr => true | _ => false end then Ok (l, false)
    else if negb (l_continued l) then
      if is_hover s tp then
        n <- usize_sub b (N.of_nat (length (os_objects s))) 1;;
        Ok (mkol s true n (os_expr s), true)
      else Ok (l, false)
    else
      r <- obj_check src s c;;
      match snd r with
      | None => Ok (mkol (fst r) true (l_my_id l) (l_my_expr l), false)
      | Some AExpression | Some ANewObject | Some AInvalid =>
          s' <- finish_lookahead b l (fst r);;
          Ok (mkol s' true (l_my_id l) (l_my_expr l), false)
      | Some _ => Ok (mkol (fst r) true (l_my_id l) (l_my_expr l), true)
      end
  else Ok (l, true).

(** objects.rs:241-314 [objects_query], on the matches of the query. *)
Definition objects_query (b : build) (ms : list (list capture)) (tp : point)
  (src : string) (all : bool) : res jobjects :=
  l <- run (obj_step b src tp all) oloop0 (concat ms);;
  Ok (l_objs l).

(** objects.rs:316-325. *)
Inductive completion_type :=
| CtFilter | CtTest | CtIdentifier
| CtIncludedTemplate (name : string) (r : range)
| CtSnippets (r : range)
| CtIncompleteIdentifier (name : string) (r : range)
| CtIncompleteFilter (name : string) (r : range).

(** objects.rs:186-188. *)
Definition in_pipe (s : jobjects) (tp : point) : bool :=
  pt_leb (fst (os_pipe s)) tp && pt_leb tp (snd (os_pipe s)).
(** objects.rs:190-198. *)
Definition in_expr (s : jobjects) (tp : point) : bool :=
  let '((es, ee), er) := os_expr s in
  let in_e := pt_leb es tp && pt_ltb tp ee in
  let after_ident := pt_ltb (fst (os_ident s)) tp in
  let no_ident := pt_eqb (snd (e_begin er)) (fst (e_end er)) in
  if negb in_e then false else (in_e && after_ident) || no_ident.
(** objects.rs:200-202. *)
Definition should_autoclose (s : jobjects) : bool :=
  let e := e_end (snd (os_expr s)) in pt_eqb (fst e) (snd e).
(** objects.rs:204-210. *)
Definition is_ident (s : jobjects) (tp : point) : option string :=
  if pt_leb (fst (os_ident s)) tp && pt_leb tp (snd (os_ident s))
  then match last_opt (os_objects s) with Some o => Some (o_name o) | None => None end
  else None.
(** objects.rs:222-224. *)
Definition get_last_id (s : jobjects) : option jobject := last_opt (os_objects s).

(** objects.rs:153-184 [completion]. *)
Definition obj_completion (b : build) (s : jobjects) (tp : point)
  : res (option (completion_type * bool)) :=
  let auto := should_autoclose s in
  let er := snd (os_expr s) in
  if in_pipe s tp then Ok (Some (CtFilter, auto))
  else if in_expr s tp then
    if pt_eqb tp (snd (e_begin er)) && pt_eqb tp (fst (e_end er)) then
      Ok (Some (CtIdentifier, auto))
    else if pt_ltb (snd (os_ident s)) tp then Ok (Some (CtIdentifier, auto))
    else match is_ident s tp with
         | Some name =>
             st <- completion_start b tp (id_new name (fst (os_ident s)) (snd (os_ident s)));;
             match st with
             | None => Ok None
             | Some n => Ok (Some (CtIncompleteIdentifier n (os_full_range s), auto))
             end
         | None => Ok (Some (CtIdentifier, auto))
         end
  else if is_test s tp then Ok (Some (CtTest, false))
  else Ok None.
