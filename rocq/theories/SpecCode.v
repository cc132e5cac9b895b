(** * SpecCode: Rust and Python code that loads templates. *)
From Verif Require Import Base RString Utf8 Rope Types Captures MSearchErrors MLspFiles MLspTask MQueries.
From Verif Require Import SpecText SpecFiles SpecBackend SpecObjects SpecLint SpecNav SpecConfig SpecQueries SpecQueries2 SpecQueries4.

(** A call of [render_jinja] or [get_template]: the node of its arguments, and the
    first string among them ([loads] of SpecQueries2 is the same without the
    arguments). *)
Definition loads_in (call member name args str : string) (src : string) (t ar : stree) (n : node) : Prop :=
  exists x f callee g h method rest,
    In x (preorder t) /\ s_kind x = call /\ in_order (s_children x) f callee g ar /\
    (s_kind callee = "identifier"%string /\ method = callee \/
     s_kind callee = member /\ has (s_children callee) h method /\ s_kind method = name) /\
    In (said src method) ["render_jinja"; "get_template"]%string /\
    s_kind ar = args /\ of_kind str (s_children ar) = n :: rest.
Definition loading (lang : plang) : string -> stree -> stree -> node -> Prop :=
  match lang with
  | PPython => loads_in "call" "attribute" "identifier" "argument_list" "string"
  | _ => loads_in "call_expression" "field_expression" "field_identifier" "arguments" "string_literal"
  end.
Definition string_kind (lang : plang) : string :=
  match lang with PPython => "string" | _ => "string_literal" end.

(** The text is code without syntax errors, [tr] its syntax tree in [lang]. *)
Record code_conveys (parse : plang -> string -> option stree -> option stree) (lang : plang) (t : text) (tr : stree) : Prop := mkcode {
  cc_scalars : scalars t;
  cc_parse : forall old, parse lang (encode t) old = Some tr;
  cc_chars : on_characters t tr;
  cc_apart : told_apart tr;
  cc_clean : no_error tr;
  cc_laid : laid_out tr;
  cc_strings : Forall (fun x => s_kind x = string_kind lang -> pt_lt (n_start (s_node x)) (n_end (s_node x))) (preorder tr);
  cc_small : small_tree tr }.

(** The string [n] as a template reference. *)
Definition loaded_ref (src : string) (n : node) : sref := (n, unquoted (text_of src n)).
(** Every other call that loads a template is over before [n], or names it behind
    the cursor. *)
Definition first_in_line (lang : plang) (src : string) (tr : stree) (cur : point) (n : node) : Prop :=
  forall ar' n', loading lang src tr ar' n' ->
    n' = n \/ pt_lt cur (n_start n') \/ pt_le (n_end (s_node ar')) (n_start n).

(** The names the code hands to templates. *)
Definition handing (lang : plang) : string -> stree -> node -> string -> Prop :=
  match lang with PPython => python_variable | _ => rust_variable end.
(** A template that is loaded but was not on the disk [F]. *)
Definition unloaded (F : fs) (dir : string) (lang : plang) (src : string) (tr : stree) (r : sref) : Prop :=
  exists ar n, loading lang src tr ar n /\ r = loaded_ref src n /\ not_found F dir (snd r) = true.
(** The code [c] hands [name] to templates; the name stands at [n]. *)
Definition supplies (parse : plang -> string -> option stree -> option stree) (lang : plang) (c : text) (n : node) (name : string) : Prop :=
  exists tr, code_conveys parse lang c tr /\ handing lang (encode c) tr n name.
