(** * SpecQueries4: where the nodes of a template's syntax tree lie, and which
    of them a cursor is on. *)
From Verif Require Import Base RString Utf8 Rope Types Captures MDefinition MLspFiles MSearchErrors MLspTask MQueries.
From Verif Require Import SpecFiles SpecScope SpecScope2 SpecObjects SpecLint SpecNav SpecQueries SpecQueries2.

(** The children of a node lie one behind the other and inside it. *)
Definition laid_out (t : stree) : Prop :=
  Forall (fun x =>
    pt_le (n_start (s_node x)) (n_end (s_node x)) /\
    ForallOrdPairs (fun a b => pt_le (n_end (s_node (snd a))) (n_start (s_node (snd b)))) (s_children x) /\
    Forall (fun c => pt_le (n_start (s_node x)) (n_start (s_node (snd c))) /\
                     pt_le (n_end (s_node (snd c))) (n_end (s_node x))) (s_children x)) (preorder t).
(** Names and opening brackets are not empty and have no parts. *)
Definition tokens_whole (t : stree) : Prop :=
  Forall (fun x => In (s_kind x) ["identifier"; "statement_begin"]%string ->
            s_children x = [] /\ pt_lt (n_start (s_node x)) (n_end (s_node x))) (preorder t).
(** Lines and columns fit the protocol's 32-bit integers. *)
Definition small_tree (t : stree) : Prop :=
  Forall (fun x => small (n_start (s_node x)) /\ small (n_end (s_node x))) (preorder t).
Definition well_placed (t : stree) : Prop := laid_out t /\ tokens_whole t /\ small_tree t.

(** The cursor is on the name [n]; where the name ends no other name, no
    expression and no statement begins. *)
Definition cursor_on (t : stree) (tp : point) (n : node) : Prop :=
  on_node tp n /\
  Forall (fun x => In (s_kind x) ["identifier"; "expression"; "statement_begin"]%string ->
            n_start (s_node x) <> n_end n) (preorder t).
(** The cursor is on no string. *)
Definition no_string_at (t : stree) (tp : point) : Prop :=
  Forall (fun x => s_kind x = "string"%string -> ~ on_node tp (s_node x)) (preorder t).

(** The server holds the template [uri] with its tree. *)
Record displayed {parse edit} (s : lsp_files (ts_with parse edit)) (uri : string) (t : text) (tr : stree) (tp : tpl)
  (ps : list piece) (sts : list istmt) : Prop := mkdisp {
  sh_kind : file_ext uri = Some Template;
  sh_text : scalars t;
  sh_doc : sget uri (ls_docs s) = Some t;
  sh_tree : sget uri (ls_tt s) = Some tr;
  sh_chars : on_characters t tr;
  sh_depicts : depicts (encode t) tr tp ps sts;
  sh_placed : well_placed tr }.
(** It also knows what the tree introduces. *)
Definition shown {parse edit} (s : lsp_files (ts_with parse edit)) (uri : string) (t : text) (tr : stree) (tp : tpl)
  (ps : list piece) (sts : list istmt) : Prop :=
  displayed s uri t tr tp ps sts /\ knows s uri (tallied (n_end (s_node tr)) tp).

(** The cursor is between the words [ps1] and the words [ps2]: behind the end of
    every word and the start of every expression of [ps1], in front of [ps2]. *)
Definition passed (cur : point) (w : string * node) : Prop :=
  if String.eqb (fst w) "expression" then pt_lt (n_start (snd w)) cur else pt_lt (n_end (snd w)) cur.
Definition between (cur : point) (ps1 ps2 : list piece) : Prop :=
  pt_lt (mkpt 0 1) cur /\ Forall (passed cur) (flat_map piece_nodes ps1) /\
  match flat_map piece_nodes ps2 with [] => True | w :: _ => pt_lt cur (n_start (snd w)) end.

(** The diagnostics [e], goto and hover agree about the use [h] (with accesses
    [fs]) of the document [uri], whose definitions are [ds].  If it is not
    reported, goto leads to a definition in the document and hover tells what it
    is (unless the use is itself a definition).  If it is reported, goto leads to
    a block of that name or to other files, and hover tells that it is a backend
    variable or nothing. *)
Definition answers_agree {T} (s : lsp_files T) (uri : string) (tr : stree) (ds : list decl) (e : errors) (h : tok) (fs : list access) : Prop :=
  forall F url b pos, let cur := point_of pos in cursor_on tr cur (fst h) ->
    ((forall k, ~ In (k, use_id (h, fs)) e) ->
       (exists d, latest (goto_sees cur (snd h)) ds d /\
          goto_definition F url b uri pos s = Ok (Some (GScalar (mkloc uri (lsp_range (dc_start d) (dc_end d)))))) /\
       ((forall d, In d ds -> dc_start d <> n_start (fst h)) ->
          exists d, latest (hover_sees (n_start (fst h)) (snd h)) ds d /\ do_hover b uri pos s = Ok (Some (DocKind (kind_text (dc_kind d)))))) /\
    (forall k, In (k, use_id (h, fs)) e ->
       ((exists d, latest (goto_sees cur (snd h)) ds d /\ dc_kind d = TemplateBlock /\
           goto_definition F url b uri pos s = Ok (Some (GScalar (mkloc uri (lsp_range (dc_start d) (dc_end d)))))) \/
        ((forall d, In d ds -> ~ goto_sees cur (snd h) d) /\
         (let here := filter (fun fv => heads (snd h) (id_name (snd fv))) (other_vars uri (ls_vars s)) in
          no_string_at tr cur -> Forall (fun fv => small_id (snd fv)) (other_vars uri (ls_vars s)) ->
          Forall (fun fv => url (target_name fv) <> None) here ->
          exists locs, goto_definition F url b uri pos s = Ok (Some (GArray locs)) /\ Forall2 (found url) here locs))) /\
       (((exists fv, In fv (other_vars uri (ls_vars s)) /\ heads (snd h) (id_name (snd fv)) = true) /\
           do_hover b uri pos s = Ok (Some (DocKind "Backend variable"))) \/
        ((forall fv, In fv (other_vars uri (ls_vars s)) -> heads (snd h) (id_name (snd fv)) = false) /\
           do_hover b uri pos s = Ok None))).
