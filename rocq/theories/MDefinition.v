(** * MDefinition: variables and scopes.
    Model of jinja-lsp-queries/src/search/definition.rs. *)
From Verif Require Import Base RString Utf8 Types Captures.

(** definition.rs:7-27. *)
Inductive definition :=
| DForLoop (key : identifier) (value : option identifier)
| DSet (key : identifier) (equals : bool)
| DWith (keys : list identifier)
| DMacro (keys : list identifier) (scope : N)
| DBlock (name : identifier).

(** definition.rs:29-66 [Definition::collect]: what is appended to [ids]. *)
Definition def_collect (d : definition) : list identifier :=
  match d with
  | DForLoop key value =>
      with_type ForLoopKey key ::
      match value with Some v => [with_type ForLoopValue v] | None => [] end
  | DSet key _ => [with_type SetVariable key]
  | DWith keys => map (with_type WithVariable) keys
  | DMacro keys _ =>
      match keys with
      | [] => []
      | k :: ks => with_type MacroName k :: map (with_type MacroParameter) ks
      end
  | DBlock name => [with_type TemplateBlock name]
  end.

(** definition.rs:68-93 [From<&str>]: unknown keywords become a for loop, and
    [value] starts as [None]. *)
Definition def_from (s : string) : definition :=
  if String.eqb s "for" then DForLoop id_default None
  else if String.eqb s "set" then DSet id_default false
  else if String.eqb s "with" then DWith []
  else if String.eqb s "macro" then DMacro [] 0
  else if String.eqb s "block" then DBlock id_default
  else DForLoop id_default None.

(** definition.rs:129-144. *)
Record scope := mkscope { s_id : N; s_start : point; s_end : point }.
Definition scope_default : scope := mkscope 0 pt0 pt0.

(** definition.rs:146-156.  [d_stack] is the linked list, front first;
    [d_ids] the hash set of definition node ids. *)
Record jdefs := mkdefs {
  d_defs : list definition;
  d_close : bool;          (* can_close_scope *)
  d_open : bool;           (* can_open_scope *)
  d_add : bool;            (* can_add_id *)
  d_isend : bool;          (* is_end *)
  d_stack : list scope;    (* current_scope *)
  d_scopes : list scope;   (* all_scopes *)
  d_ids : list N }.        (* all_ids *)
Definition jdefs0 : jdefs := mkdefs [] false false false false [] [] [].

(** [self.current_scope.front().unwrap_or(&Scope::default()).id]. *)
Definition front_id (st : list scope) : N :=
  match st with s :: _ => s_id s | [] => 0 end.

(** definition.rs:230-262: what one identifier does to the last definition;
    the boolean is the new [can_add_id]. *)
Definition add_id (d : definition) (i : identifier) (add : bool) : definition * bool :=
  match d with
  | DForLoop key value =>
      if String.eqb (id_name key) "" then (DForLoop i value, add)
      else match value with
           | Some v =>
               if String.eqb (id_name v) "" then (DForLoop key (Some i), false)
               else (d, add)
           | None => (d, add)
           end
  | DSet key eq =>
      if String.eqb (id_name key) "" then (DSet i eq, false) else (d, add)
  | DWith keys => (DWith (keys ++ [i]), add)
  | DMacro keys sc =>
      match keys with
      | [] => (DMacro [with_scope_id sc i] sc, add)
      | _ => (DMacro (keys ++ [i]) sc, add)
      end
  | DBlock name =>
      if String.eqb (id_name name) "" then (DBlock i, false) else (d, add)
  end.

(** [last_mut] followed by a mutation that also produces a flag. *)
Definition add_id_last (defs : list definition) (i : identifier) (add : bool)
  : list definition * bool :=
  match last_opt defs with
  | None => (defs, add)
  | Some d =>
      let '(d', add') := add_id d i add in
      (update_last (fun _ => d') defs, add')
  end.

(** definition.rs:159-288 [JinjaDefinitions::check].  The boolean is
    [is_some()] of the result (the caller breaks on [None]). *)
Definition def_check (src : string) (s : jdefs) (c : capture) : res (jdefs * bool) :=
  let n := c_node c in
  let id := n_id n in
  match c_name c with
  | CDefinition =>
      if existsb (N.eqb id) (d_ids s) then Ok (s, true)
      else
        t <- utf8_text n src;;
        match t with
        | None => Panic                                     (* .unwrap() *)
        | Some content =>
            let ids := id :: d_ids s in
            match def_from content with
            | DSet k e =>
                Ok (mkdefs (d_defs s ++ [DSet k e]) (d_close s) (d_open s) true (d_isend s)
                      (d_stack s) (d_scopes s) ids, true)
            | d0 =>
                let d1 := match d0 with
                          | DMacro ks _ => DMacro ks (front_id (d_stack s))
                          | d => d
                          end in
                Ok (mkdefs (d_defs s ++ [d1]) false true true false
                      (mkscope id pt0 pt0 :: d_stack s) (d_scopes s) ids, true)
            end
        end
  | CScope =>
      Ok (mkdefs (d_defs s) false true false false
            (mkscope id pt0 pt0 :: d_stack s) (d_scopes s) (d_ids s), true)
  | CEndblock =>
      Ok (mkdefs (d_defs s) true false (d_add s) true
            (d_stack s) (d_scopes s) (d_ids s), true)
  | CEquals =>
      match last_opt (d_defs s) with
      | Some (DSet k _) =>
          Ok (mkdefs (update_last (fun _ => DSet k true) (d_defs s)) (d_close s) false (d_add s)
                (d_isend s) (d_stack s) (d_scopes s) (d_ids s), true)
      | _ => Ok (s, true)
      end
  | CError => Ok (s, false)
  | CId =>
      if negb (d_add s) then Ok (s, true)
      else
        t <- utf8_text n src;;
        match t with
        | None => Ok (s, false)                             (* .ok()? *)
        | Some content =>
            let i := mkid (n_start n) (n_end n) content (front_id (d_stack s), pt0)
                       UndefinedVariable [] in
            let '(defs, add) := add_id_last (d_defs s) i (d_add s) in
            Ok (mkdefs defs (d_close s) (d_open s) add (d_isend s)
                  (d_stack s) (d_scopes s) (d_ids s), true)
        end
  | CScopeEnd =>
      if d_close s && d_isend s then
        match d_stack s with
        | sc :: st =>
            Ok (mkdefs (d_defs s) false (d_open s) false false st
                  (d_scopes s ++ [mkscope (s_id sc) (s_start sc) (n_start n)]) (d_ids s), true)
        | [] =>
            Ok (mkdefs (d_defs s) false (d_open s) false false []
                  (d_scopes s) (d_ids s), true)
        end
      else Ok (s, true)
  | CScopeStart =>
      if d_open s then
        match d_stack s with
        | sc :: st =>
            Ok (mkdefs (d_defs s) (d_close s) false false (d_isend s)
                  (mkscope (s_id sc) (n_end n) (s_end sc) :: st) (d_scopes s) (d_ids s), true)
        | [] =>
            Ok (mkdefs (d_defs s) (d_close s) false false (d_isend s)
                  [] (d_scopes s) (d_ids s), true)
        end
      else Ok (s, true)
  | _ => Ok (s, true)
  end.

(** [self.all_scopes.iter().find(|item| item.id == id)], end position, with the
    global scope as fallback (definition.rs:299-359). *)
Definition scope_end_of (scopes : list scope) (root_end : point) (id : N) : point :=
  match find (fun sc => s_id sc =? id) scopes with
  | Some sc => s_end sc
  | None => root_end
  end.
Definition fix_id (scopes : list scope) (root_end : point) (i : identifier) : identifier :=
  with_scope_end (scope_end_of scopes root_end (fst (id_scope i))) i.
(** definition.rs:299-359 [fix_end]. *)
Definition fix_def (scopes : list scope) (root_end : point) (d : definition) : definition :=
  match d with
  | DForLoop key value =>
      let e := scope_end_of scopes root_end (fst (id_scope key)) in
      DForLoop (with_scope_end e key)
        (match value with Some v => Some (with_scope_end e v) | None => None end)
  | DSet key eq => DSet (fix_id scopes root_end key) eq
  | DWith keys => DWith (map (fix_id scopes root_end) keys)
  | DMacro keys sc =>
      DMacro (match keys with
              | [] => []
              | k :: ks =>
                  with_scope_end (scope_end_of scopes root_end sc) k ::
                  map (fix_id scopes root_end) ks
              end) sc
  | DBlock name => DBlock (fix_id scopes root_end name)
  end.
Definition fix_end (root_end : point) (s : jdefs) : jdefs :=
  mkdefs (map (fix_def (d_scopes s) root_end) (d_defs s)) (d_close s) (d_open s) (d_add s)
    (d_isend s) (d_stack s) (d_scopes s) (d_ids s).

(** definition.rs:290-297. *)
Definition def_identifiers (s : jdefs) : list identifier := flat_map def_collect (d_defs s).

(** definition.rs:362-389 [definition_query], on the matches of the query. *)
Definition definition_query (ms : list (list capture)) (root_end : point)
  (trigger : point) (src : string) (all : bool) : res jdefs :=
  s <- run (def_check src) jdefs0 (flat_captures all trigger ms);;
  Ok (fix_end root_end s).
