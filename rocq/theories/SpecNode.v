(** * SpecNode: what the Node binding should do. *)
From Verif Require Import Base RString Utf8 Rope Types Captures.
From Verif Require Import MObjects MTemplates MSearchErrors MLspFiles MNode.

(** ** Line offsets *)

(** A position [n] lines further down. *)
Definition lower (n : N) (p : position) : position := mkpos (line p + n) (character p).
Definition lower_range (n : N) (r : range) : range := mkrange (lower n (rstart r)) (lower n (rend r)).
(** The place of a tree position in the caller's document. *)
Definition place (n : N) (p : point) : position := mkpos (row p + n) (col p).
(** Lines and columns of the host are 32-bit numbers. *)
Definition in_host (n : N) (p : point) : Prop := row p + n < 4294967296 /\ col p < 4294967296.
Definition fits (n : N) (r : range) : Prop :=
  line (rstart r) + n < 4294967296 /\ line (rend r) + n < 4294967296.
Definition lower_item (n : N) (i : js_item) : js_item :=
  match i with JsIncomplete l r => JsIncomplete l (lower_range n r) | _ => i end.
Definition item_fits (n : N) (i : js_item) : Prop :=
  match i with JsIncomplete _ r => fits n r | _ => True end.
Definition lower_location (n : N) (l : js_location) : js_location :=
  mkjl (jl_uri l) (lower_range n (jl_range l)) (jl_backend l).

(** ** Histories of calls *)
Inductive node_op :=
| OHints (uri : string) (acts : option (list naction))
| OSave (acts : option (list naction)) (h : option string)
| ORemove (h : option string)
| ODelete (filename : string)
| OOne (id : N) (filename : string) (content : text) (line : N) (ext : string) (col : option N).

Section Ops.
Context {T : ts} (F : fs) (url : url_parser) (b : build).
Definition node_do (o : node_op) (s : node_state T) : res (node_state T) :=
  match o with
  | OHints u a => Ok (add_link_hints u a s)
  | OSave a h => Ok (save_link_hint a h s)
  | ORemove h => Ok (remove_temp_link_hint h s)
  | ODelete f => Ok (delete_all f s)
  | OOne id f c l e k => r <- add_one F url b id f c l e k s;; Ok (fst r)
  end.
Fixpoint node_run (os : list node_op) (s : node_state T) : res (node_state T) :=
  match os with
  | [] => Ok s
  | o :: r => s' <- node_do o s;; node_run r s'
  end.
End Ops.

(** The hints registered under a key: those of the last call about it. *)
Definition key_of (h : option string) : string := match h with Some k => k | None => "temp"%string end.
Definition sets (o : node_op) : option (string * option (list naction)) :=
  match o with
  | OHints u (Some a) => Some (u, Some a)
  | OSave (Some a) h => Some (key_of h, Some a)
  | ORemove h => Some (key_of h, None)
  | _ => None
  end.
Definition registered (key : string) (os : list node_op) : option (list naction) :=
  fold_left (fun r o => match sets o with
                        | Some (k, v) => if String.eqb k key then v else r
                        | None => r
                        end) os None.
Definition temporary (os : list node_op) : list naction :=
  match registered "temp" os with Some a => a | None => [] end.

(** ** Links *)

(** A name without dots. *)
Definition undotted (s : string) : bool :=
  forallb (fun a => negb (Ascii.eqb a "."%char)) (list_ascii_of_string s).
(** A hint names a chain of segments. *)
Definition names_chain (segs : list string) (a : naction) : bool :=
  String.eqb (na_name a) (String.concat "." segs) && forallb undotted segs.
Definition segments (o : jobject) : list string := o_name o :: map fst (o_fields o).
Definition chain_end (o : jobject) : point := last (map (fun f => snd (snd f)) (o_fields o)) (snd (o_loc o)).
Definition use_link (n : N) (o : jobject) : js_identifier :=
  mkjs (place n (fst (o_loc o))) (place n (chain_end o)) (o_name o) JsLink.
Definition py_link (n : N) (p : pyid) : js_identifier :=
  mkjs (place n (py_start p)) (place n (py_end p)) (py_field p) JsLink.
Definition times {A} (x : A) (sel : naction -> bool) (acts : list naction) : list A :=
  repeat x (length (filter sel acts)).
