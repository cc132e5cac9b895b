(** * MNode: the Node binding.
    Model of jinja-lsp-nodejs/src/lib.rs. *)
From Coq Require Import ZArith.
From Verif Require Import Base RString Utf8 Rope Types Captures.
From Verif Require Import MDefinition MObjects MTemplates MSearchErrors MLspFiles MLspTask.

(** lib.rs:699-707. *)
Record naction := mknact { na_name : string; na_desc : string }.
Definition action_object := list string.
(** lib.rs:709-718, 720-729, 731-742 [ActionObject::from]. *)
Definition ao_of_action (a : naction) : action_object := split_char dot (na_name a).
Definition ao_of_obj (o : jobject) : action_object := o_name o :: map fst (o_fields o).
Definition ao_of_py (p : pyid) : action_object := split_char dot (py_field p).
(** lib.rs:744-749 [compare]. *)
Fixpoint ao_eqb (a c : list string) : bool :=
  match a, c with
  | [], [] => true
  | x :: a', y :: c' => String.eqb x y && ao_eqb a' c'
  | _, _ => false
  end.

Section Node.
Context (T : ts).

(** lib.rs:32-46 [basic]; [len as i32] wraps. *)
Definition as_i32 (n : N) : Z :=
  let m := Z.of_N (n mod 4294967296) in
  if (m <? 2147483648)%Z then m else (m - 4294967296)%Z.
Definition basic (b : build) (content : string) : res (option Z) :=
  match t_parse T PJinja content None with
  | None => Ok None
  | Some tr =>
      objs <- objects_query b (t_captures T QObjects tr content) pt0 content true;;
      Ok (Some (as_i32 (N.of_nat (length (os_objects objs)))))
  end.

(** lib.rs:50-57 ([filters] and [_snippets] are constants). *)
Record node_state := mknd {
  nd_files : lsp_files T;
  nd_counter : N;
  nd_actions : smap (list naction);
  nd_objs : smap (list action_object) }.

(** lib.rs:62-74 [new]. *)
Definition node_new : node_state := mknd (update_backend "python" (ls_default T)) 0 [] [].

Definition hint_ids (acts : list naction) : list identifier :=
  map (fun a => with_type BackendVariable (id_new (na_name a) pt0 pt0)) acts.
Definition temp_key : string := "temp".
Definition hint_key (h : option string) : string := match h with Some h => h | None => temp_key end.

(** lib.rs:78-93 [add_link_hints]. *)
Definition add_link_hints (uri : string) (acts : option (list naction)) (s : node_state) : node_state :=
  match acts with
  | None => s
  | Some acts =>
      mknd (nd_files s) (nd_counter s) (sinsert uri acts (nd_actions s))
        (sinsert uri (map ao_of_action acts) (nd_objs s))
  end.

(** lib.rs:96-115 [save_link_hint]. *)
Definition save_link_hint (acts : option (list naction)) (h : option string) (s : node_state)
  : node_state :=
  let k := hint_key h in
  match acts with
  | None => s
  | Some acts =>
      mknd (set_vars (sinsert k (hint_ids acts) (ls_vars (nd_files s))) (nd_files s)) (nd_counter s)
        (sinsert k acts (nd_actions s)) (sinsert k (map ao_of_action acts) (nd_objs s))
  end.

(** lib.rs:118-123 [remove_temp_link_hint]. *)
Definition remove_temp_link_hint (h : option string) (s : node_state) : node_state :=
  let k := hint_key h in
  mknd (set_vars (sremove k (ls_vars (nd_files s))) (nd_files s)) (nd_counter s)
    (sremove k (nd_actions s)) (sremove k (nd_objs s)).

(** lib.rs:126-130 [delete_all]. *)
Definition delete_all (filename : string) (s : node_state) : node_state :=
  mknd (delete_documents_with_id filename (nd_files s)) 0 (nd_actions s) (nd_objs s).

(** lib.rs:548-573.  [error] is always [None]. *)
Inductive js_type := JsOf (t : identifier_type) | JsLink.
Record js_identifier := mkjs { js_start : position; js_end : position; js_name : string; js_kind : js_type }.

(** [position.line += line] on [u32]. *)
Definition shift_pos (b : build) (p : position) (l : N) : res position :=
  x <- u32_add b (line p) l;; Ok (mkpos x (character p)).
Definition unshift_pos (b : build) (p : position) (l : N) : res position :=
  x <- u32_sub b (line p) l;; Ok (mkpos x (character p)).
Definition shift_range (b : build) (r : range) (l : N) : res range :=
  s <- shift_pos b (rstart r) l;; e <- shift_pos b (rend r) l;; Ok (mkrange s e).

(** The URL [file:///home/{filename}.{id}.{ext}] with [id] in decimal. *)
Fixpoint dec_aux (fuel : nat) (n : N) (acc : string) : string :=
  let acc' := String (ascii_of_N (48 + n mod 10)) acc in
  match fuel with
  | O => acc'
  | S k => if n / 10 =? 0 then acc' else dec_aux k (n / 10) acc'
  end.
Definition dec (n : N) : string := dec_aux 10 n EmptyString.
Definition home_url (filename : string) (id : N) (ext : string) : string :=
  ("file:///home/" ++ filename ++ "." ++ dec id ++ "." ++ ext)%string.

Fixpoint spaces (n : nat) : text := match n with O => [] | S k => 32 :: spaces k end.

(** lib.rs:166-184 and 194-212: one link identifier per matching action. *)
Definition link_id (b : build) (line : N) (st en : point) (name : string) : res js_identifier :=
  s <- shift_pos b (to_position2 st) line;;
  e <- shift_pos b (to_position2 en) line;;
  Ok (mkjs s e name JsLink).
Fixpoint links_of (b : build) (line : N) (st en : point) (name : string) (fields : action_object)
  (acts : list action_object) : res (list js_identifier) :=
  match acts with
  | [] => Ok []
  | a :: rest =>
      if ao_eqb a fields then
        i <- link_id b line st en name;;
        more <- links_of b line st en name fields rest;;
        Ok (i :: more)
      else links_of b line st en name fields rest
  end.
Fixpoint obj_links (b : build) (line : N) (acts : list action_object) (os : list jobject)
  : res (list js_identifier) :=
  match os with
  | [] => Ok []
  | o :: rest =>
      l <- links_of b line (fst (o_loc o)) (last_field_end o) (o_name o) (ao_of_obj o) acts;;
      more <- obj_links b line acts rest;;
      Ok (l ++ more)
  end.
Fixpoint py_links (b : build) (line : N) (acts : list action_object) (ps : list pyid)
  : res (list js_identifier) :=
  match ps with
  | [] => Ok []
  | p :: rest =>
      l <- links_of b line (py_start p) (py_end p) (py_field p) (ao_of_py p) acts;;
      more <- py_links b line acts rest;;
      Ok (l ++ more)
  end.

(** lib.rs:133-240 [add_one].  (In the released code the shifts of matching
    links happen inside the loops; all of them precede the return.) *)
Definition add_one (F : fs) (url : url_parser) (b : build) (id : N) (filename : string)
  (content : text) (line : N) (ext : string) (col : option N) (s : node_state)
  : res (node_state * list js_identifier) :=
  let content' := spaces (N.to_nat (match col with Some c => c | None => 0 end)) ++ content in
  match url (home_url filename id ext) with
  | None => Panic                                              (* .unwrap() *)
  | Some uri =>
      r <- did_open F b uri content' true (nd_files s);;
      let s1 := mknd (fst r) (nd_counter s) (nd_actions s) (nd_objs s) in
      if String.eqb ext "jinja" then
        os <- read_objects b uri (nd_files s1);;
        match os, sget temp_key (nd_objs s1) with
        | Some os, Some acts => l <- obj_links b line acts os;; Ok (s1, l)
        | _, _ => Ok (s1, [])
        end
      else if String.eqb ext "py" then
        ps <- read_python_ids uri (nd_files s1);;
        match ps, sget temp_key (nd_objs s1) with
        | Some ps, Some acts => l <- py_links b line acts ps;; Ok (s1, l)
        | _, _ => Ok (s1, [])
        end
      else Ok (s1, [])
  end.

(** lib.rs:243-253 [get_variables]. *)
Fixpoint js_vars (b : build) (line : N) (vs : list identifier) : res (list js_identifier) :=
  match vs with
  | [] => Ok []
  | v :: rest =>
      s <- shift_pos b (to_position2 (id_start v)) line;;
      e <- shift_pos b (to_position2 (id_end v)) line;;
      more <- js_vars b line rest;;
      Ok (mkjs s e (id_name v) (JsOf (id_type v)) :: more)
  end.
Definition get_variables (b : build) (id : string) (line : N) (s : node_state)
  : res (option (list js_identifier)) :=
  match sget id (ls_vars (nd_files s)) with
  | None => Ok None
  | Some vs => l <- js_vars b line vs;; Ok (Some l)
  end.

(** What [hover] shows: the documentation of a filter, the description of a
    registered action, or the default text for a kind and name. *)
Inductive js_hover_value := HvFilter (name : string) | HvAction (desc : string)
                          | HvDefault (detail name : string).

(** lib.rs:256-336 [hover]. *)
Definition node_hover (url : url_parser) (b : build) (id : N) (filename : string) (ln : N)
  (pos : position) (s : node_state) : res (option (js_hover_value * range)) :=
  p <- unshift_pos b pos ln;;
  match url (home_url filename id "jinja") with
  | None => Panic
  | Some uri =>
      h <- hover b uri p (nd_files s);;
      match h with
      | None => Ok None
      | Some (i, ct) =>
          r <- shift_range b (mkrange (to_position2 (id_start i)) (to_position2 (id_end i))) ln;;
          match ct with
          | CtFilter =>
              if str_mem (id_name i) filter_names then Ok (Some (HvFilter (id_name i), r)) else Ok None
          | _ =>
              match data_type uri i (nd_files s) with
              | None => Ok None
              | Some t =>
                  let acts := match sget temp_key (nd_actions s) with Some l => l | None => [] end in
                  match find (fun a => starts_with (na_name a) (id_name i)) acts with
                  | Some a => Ok (Some (HvAction (na_desc a), r))
                  | None => Ok (Some (HvDefault (completion_detail t) (id_name i), r))
                  end
              end
          end
      end
  end.

(** lib.rs:650-677; the completion items (the description of a filter is its
    documentation). *)
Inductive js_item :=
| JsFilter (label : string)
| JsIdent (label desc : string)
| JsIncomplete (label : string) (r : range).

(** lib.rs:339-467 [complete].  Note the key "temp_". *)
Definition node_complete (url : url_parser) (b : build) (id : N) (filename : string) (ln : N)
  (pos : position) (s : node_state) : res (option (list js_item)) :=
  p <- unshift_pos b pos ln;;
  match url (home_url filename id "jinja") with
  | None => Panic
  | Some uri =>
      c <- completion b uri p (Some TkTriggerCharacter) (nd_files s);;
      match c with
      | None => Ok None
      | Some (ct, _) =>
          match ct with
          | CtFilter => Ok (Some (map JsFilter filter_names))
          | CtIdentifier =>
              let acts := match sget "temp_"%string (nd_actions s) with Some l => l | None => [] end in
              match read_variables uri p None None (nd_files s) with
              | None => Ok None
              | Some vs =>
                  Ok (Some (map (fun a => JsIdent (na_name a) (na_desc a)) acts ++
                            map (fun i => JsIdent (ci_label i)
                                   (match ci_detail i with Some d => d | None => EmptyString end)) vs))
              end
          | CtIncompleteIdentifier name r =>
              r' <- shift_range b r ln;;
              match get_variable name filename temp_key (nd_files s) with
              | None => Ok None
              | Some vs => Ok (Some (map (fun v => JsIncomplete v r') vs))
              end
          | _ => Ok None
          end
      end
  end.

Record js_location := mkjl { jl_uri : string; jl_range : range; jl_backend : bool }.

(** lib.rs:503-515. *)
Fixpoint node_goto_array (url : url_parser) (b : build) (ln : N) (ls : list location)
  : res (list js_location) :=
  match ls with
  | [] => Ok []
  | l :: rest =>
      if contains (loc_uri l) "temp" then
        match url (loc_uri l) with
        | None => Panic
        | Some u =>
            r <- shift_range b (loc_range l) ln;;
            more <- node_goto_array url b ln rest;;
            Ok (mkjl u r true :: more)
        end
      else node_goto_array url b ln rest
  end.

(** lib.rs:470-519 [goto_definition]. *)
Definition node_goto (F : fs) (url : url_parser) (b : build) (id : N) (filename : string) (ln : N)
  (pos : position) (s : node_state) : res (option (list js_location)) :=
  p <- unshift_pos b pos ln;;
  match url (home_url filename id "jinja") with
  | None => Panic
  | Some uri =>
      g <- goto_definition F url b uri p (nd_files s);;
      match g with
      | None => Ok None
      | Some (GScalar l) =>
          if contains (loc_uri l) filename then
            match url filename with
            | None => Panic
            | Some u =>
                r <- shift_range b (loc_range l) ln;;
                Ok (Some [mkjl u r false])
            end
          else Ok (Some [])
      | Some (GArray ls) => l <- node_goto_array url b ln ls;; Ok (Some l)
      end
  end.

End Node.
Arguments mknd {T}. Arguments nd_files {T}. Arguments nd_counter {T}. Arguments nd_actions {T}.
Arguments nd_objs {T}. Arguments add_link_hints {T}. Arguments save_link_hint {T}.
Arguments remove_temp_link_hint {T}. Arguments delete_all {T}. Arguments add_one {T}.
Arguments get_variables {T}. Arguments node_hover {T}. Arguments node_complete {T}.
Arguments node_goto {T}.
