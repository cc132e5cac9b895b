(** * SpecQueries2: what backend files say, read off their syntax trees. *)
From Verif Require Import Base RString Utf8 Rope Types Captures MSearchErrors MLspFiles MQueries.
From Verif Require Import SpecBackend SpecLint SpecQueries.

(** Every node covers whole characters of the text. *)
Definition on_characters (t : text) (tr : stree) : Prop :=
  Forall (fun x => exists a m z, t = a ++ m ++ z /\ n_sb (s_node x) = slen (encode a) /\ n_eb (s_node x) = slen (encode (a ++ m))) (preorder tr).
(** The text of every node can be read. *)
Definition readable (src : string) (t : stree) : Prop :=
  Forall (fun x => utf8_text (s_node x) src = Ok (Some (text_of src (s_node x)))) (preorder t).
Definition said (src : string) (x : stree) : string := text_of src (s_node x).
(** Children: one of them; one and a later one. *)
Definition has (l : kids) (f : string) (x : stree) : Prop := In (f, x) l.
Definition in_order (l : kids) (f : string) (x : stree) (g : string) (y : stree) : Prop :=
  exists a b c, l = a ++ (f, x) :: b ++ (g, y) :: c.

(** ** Rust *)
Definition adds (s : string) : Prop :=
  exists a w z, In w ["add_global"; "add_filter"; "add_function"]%string /\ s = (a ++ w ++ z)%string.
(** An identifier inside the brackets of a macro, whatever the macro; and a
    string argument of [jinja.add_global(...)] and its like. *)
Inductive rust_variable (src : string) (t : stree) : node -> string -> Prop :=
| RvToken tt f x :
    In tt (preorder t) -> s_kind tt = "token_tree"%string -> has (s_children tt) f x -> s_kind x = "identifier"%string ->
    said src x <> "context"%string -> rust_variable src t (s_node x) (said src x)
| RvAdd p f1 callee f2 args f3 obj f4 method f5 x :
    In p (preorder t) -> in_order (s_children p) f1 callee f2 args ->
    s_kind callee = "field_expression"%string -> in_order (s_children callee) f3 obj f4 method ->
    s_kind obj = "identifier"%string -> said src obj = "jinja"%string ->
    s_kind method = "field_identifier"%string -> adds (said src method) ->
    s_kind args = "arguments"%string -> has (s_children args) f5 x -> s_kind x = "string_literal"%string ->
    rust_variable src t (s_node x) (unquoted (said src x)).

(** ** Python *)
(** The key of a subscript of [jinja_env.globals] or [jinja_env.filters] (or of
    any such attribute of something that is not a plain name); and a keyword
    argument of a call of [render] or [render_template]. *)
Inductive python_variable (src : string) (t : stree) : node -> string -> Prop :=
| PvKey s f1 at_ f2 str a field b f3 x :
    In s (preorder t) -> s_kind s = "subscript"%string -> in_order (s_children s) f1 at_ f2 str ->
    s_kind at_ = "attribute"%string -> s_children at_ = a ++ ("attribute"%string, field) :: b ->
    s_kind field = "identifier"%string -> In (said src field) ["globals"; "filters"]%string ->
    (forall o, In ("object"%string, o) a -> s_kind o = "identifier"%string -> said src o = "jinja_env"%string) ->
    s_kind str = "string"%string -> has (s_children str) f3 x -> s_kind x = "string_content"%string ->
    python_variable src t (s_node x) (said src x)
| PvArgument c callee args method f3 kw x :
    In c (preorder t) -> s_kind c = "call"%string -> in_order (s_children c) "function" callee "arguments" args ->
    (callee = method \/
     s_kind callee = "attribute"%string /\ exists o, s_kind o = "identifier"%string /\
       in_order (s_children callee) "object" o "attribute" method) ->
    s_kind method = "identifier"%string -> In (said src method) ["render_template"; "render"]%string ->
    s_kind args = "argument_list"%string -> has (s_children args) f3 kw -> s_kind kw = "keyword_argument"%string ->
    has (s_children kw) "name" x -> s_kind x = "identifier"%string ->
    python_variable src t (s_node x) (said src x).

(** ** Template references *)
(** The first string argument of a call of [render_jinja] or [get_template];
    the kinds of nodes are those of the language. *)
Definition loads (call member name args str : string) (src : string) (t : stree) (n : node) : Prop :=
  exists x f callee g ar h method rest,
    In x (preorder t) /\ s_kind x = call /\ in_order (s_children x) f callee g ar /\
    (s_kind callee = "identifier"%string /\ method = callee \/
     s_kind callee = member /\ has (s_children callee) h method /\ s_kind method = name) /\
    In (said src method) ["render_jinja"; "get_template"]%string /\
    s_kind ar = args /\ of_kind str (s_children ar) = n :: rest.
Definition rust_loads := loads "call_expression" "field_expression" "field_identifier" "arguments" "string_literal".
Definition python_loads := loads "call" "attribute" "identifier" "argument_list" "string".

(** ** What is remembered about a backend file *)
Definition at_node (k : identifier_type) (n : node) (name : string) : identifier :=
  mkid (n_start n) (n_end n) name (0, pt0) k [].
Definition remembered (variable : node -> string -> Prop) (loaded : node -> Prop) (src : string) (v : identifier) : Prop :=
  (exists n name, variable n name /\ v = at_node BackendVariable n name) \/
  (exists n, loaded n /\ v = at_node JinjaTemplate n (unquoted (text_of src n))).
(** What is known after a backend file was opened, and what is reported. *)
Definition backend_known {T : ts} (F : fs) (uri : string) (s s' : lsp_files T) (e : errors) (src : string)
  (variable : node -> string -> Prop) (loaded : node -> Prop) : Prop :=
  (exists vs, sget uri (ls_vars s') = Some vs /\ forall v, In v vs <-> remembered variable loaded src v) /\
  (forall k i, In (k, i) e <-> k = TemplateNotFound /\ exists n, loaded n /\ i = at_node JinjaTemplate n (unquoted (text_of src n)) /\
     f_canon F (lookup_path (cf_templates (ls_config s)) (id_name i)) = CanonNotFound) /\
  (forall f, f <> uri -> sget f (ls_vars s') = sget f (ls_vars s)).

(** ** Names handed to templates *)
(** Rust: an identifier in the brackets of [context!], or what [jinja.add_global]
    and its like are given. *)
Definition handed_rust (src : string) (t : stree) (n : node) : Prop :=
  (exists m f1 name f2 tt inner f3 x,
     In m (preorder t) /\ s_kind m = "macro_invocation"%string /\ in_order (s_children m) f1 name f2 tt /\
     s_kind name = "identifier"%string /\ said src name = "context"%string /\
     In inner (preorder tt) /\ s_kind inner = "token_tree"%string /\
     has (s_children inner) f3 x /\ s_kind x = "identifier"%string /\ n = s_node x) \/
  (exists callee f1 f2 args f3 obj f4 method f5 x p,
     In p (preorder t) /\ in_order (s_children p) f1 callee f2 args /\
     s_kind callee = "field_expression"%string /\ in_order (s_children callee) f3 obj f4 method /\
     s_kind obj = "identifier"%string /\ said src obj = "jinja"%string /\
     s_kind method = "field_identifier"%string /\
     In (said src method) ["add_global"; "add_filter"; "add_function"]%string /\
     s_kind args = "arguments"%string /\ has (s_children args) f5 x /\ s_kind x = "string_literal"%string /\
     n = s_node x).
(** Python: a keyword argument of a call of [render_template], or of the method
    [render] of anything. *)
Definition handed_python (src : string) (t : stree) (n : node) : Prop :=
  exists c callee args method f kw x,
    In c (preorder t) /\ s_kind c = "call"%string /\ in_order (s_children c) "function" callee "arguments" args /\
    (callee = method /\ said src method = "render_template"%string \/
     s_kind callee = "attribute"%string /\ has (s_children callee) "attribute" method /\ said src method = "render"%string) /\
    s_kind method = "identifier"%string /\
    s_kind args = "argument_list"%string /\ has (s_children args) f kw /\ s_kind kw = "keyword_argument"%string /\
    has (s_children kw) "name" x /\ s_kind x = "identifier"%string /\ n = s_node x.
(** The template a call of [render_template] names. *)
Definition rendered_python (src : string) (t : stree) (n : node) : Prop :=
  exists c callee args rest,
    In c (preorder t) /\ s_kind c = "call"%string /\ in_order (s_children c) "function" callee "arguments" args /\
    s_kind callee = "identifier"%string /\ said src callee = "render_template"%string /\
    s_kind args = "argument_list"%string /\ of_kind "string" (s_children args) = n :: rest.

(** ** Blocks *)
Definition tag (src kw : string) (x : stree) : Prop :=
  s_kind x = "statement"%string /\ exists f k, has (s_children x) f k /\ s_kind k = "keyword"%string /\ said src k = kw.
(** [u] is a use of the loop variable between a [for] tag and the [endfor] that
    belongs to it. *)
Definition in_loop (src : string) (t : stree) (u : stree) : Prop :=
  exists a for_ body endfor z key rest,
    map snd (s_children t) = a ++ for_ :: body ++ endfor :: z /\
    tag src "for" for_ /\ tag src "endfor" endfor /\
    Forall (fun x => ~ tag src "for" x /\ ~ tag src "endfor" x) body /\
    of_kind "identifier" (s_children for_) = key :: rest /\
    In u (flat_map preorder body) /\ s_kind u = "identifier"%string /\ said src u = text_of src key.
(** The words of a statement after its first string. *)
Definition says_after (src : string) (x : stree) (ws : list string) : Prop :=
  exists a f str z g e, s_children x = a ++ (f, str) :: z ++ [(g, e)] /\ s_kind str = "string"%string /\
    Forall (fun c => s_kind (snd c) <> "string"%string) a /\ s_kind e = "statement_end"%string /\
    map (fun c => said src (snd c)) z = ws.
