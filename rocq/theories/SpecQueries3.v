(** * SpecQueries3: dotted names in Python code, read off its syntax tree. *)
From Verif Require Import Base RString Utf8 Rope Types Captures MLspFiles MNode MQueries.
From Verif Require Import SpecNode SpecQueries.

(** What a node says about its parent is where the parent starts. *)
Definition parents (t : stree) : Prop :=
  Forall (fun x => Forall (fun c => n_parent (s_node (snd c)) = Some (n_start (s_node x))) (s_children x)) (preorder t).
(** Names joined by dots and nothing else, as in [user.name] and [a.b.c]. *)
Inductive dotted_name (src : string) : stree -> list string -> Prop :=
| DnTwo n f o g a :
    n_end a = n_end n ->
    dotted_name src (SN "attribute" n [(f, SN "identifier" o []); (g, SN "identifier" a [])])
      [text_of src o; text_of src a]
| DnMore n f t ws g a :
    dotted_name src t ws -> n_start (s_node t) = n_start n -> n_end a = n_end n ->
    dotted_name src (SN "attribute" n [(f, t); (g, SN "identifier" a [])]) (ws ++ [text_of src a]).
(** [t] is the whole of it: no call or subscript of [t] is the object of another
    attribute, as in [a.b().c]. *)
Definition alone (tr t : stree) : Prop :=
  forall x, In x (preorder tr) -> s_kind x = "attribute"%string -> n_start (s_node x) = n_start (s_node t) -> In x (preorder t).
Definition pure (src : string) (tr t : stree) (ws : list string) : Prop :=
  In t (preorder tr) /\ dotted_name src t ws /\ alone tr t.
(** The document of a call of [add_one] with a column. *)
Definition padded (k : option N) (content : text) : text := repeat 32 (N.to_nat (match k with Some c => c | None => 0 end)) ++ content.
(** Links at a position; the link of a dotted name; the hints that name it. *)
Definition pos_at (p : position) (l : js_identifier) : bool :=
  (line (js_start l) =? line p) && (character (js_start l) =? character p).
Definition link_to (n : N) (t : stree) (ws : list string) : js_identifier :=
  mkjs (place n (n_start (s_node t))) (place n (n_end (s_node t))) (String.concat "." ws) JsLink.
Definition called (ws : list string) (a : naction) : bool := String.eqb (na_name a) (String.concat "." ws).
