(** * SpecQueries5: which text the answers about a template are taken from. *)
From Verif Require Import Base RString Utf8 Rope Types Captures MDefinition MLspFiles MSearchErrors MLspTask MQueries.
From Verif Require Import SpecFiles SpecScope SpecScope2 SpecObjects SpecLint SpecNav SpecQueries SpecQueries2 SpecQueries4 SpecClient.

(** The messages at which the server reads a template again. *)
Definition refreshes (uri : string) (m : msg) : Prop :=
  match m with MDidOpen u _ | MDidSave u => u = uri | _ => False end.
(** The template is not read again, though it may be edited. *)
Definition unrefreshed (uri : string) (m : msg) : Prop :=
  match m with MDidOpen u _ | MDidSave u => u <> uri | MInitialized => False | _ => True end.
(** After [ms] the editor shows [t]; when the template was last read it showed
    [t0]. *)
Definition last_read (uri : string) (ms : list msg) (t0 t : text) : Prop :=
  exists pre m mid, ms = pre ++ m :: mid /\ refreshes uri m /\ editor_text uri (pre ++ [m]) t0 /\
    Forall (unrefreshed uri) mid /\ editor_text uri ms t.
(** It has not been edited since. *)
Definition just_read (uri : string) (ms : list msg) (t : text) : Prop :=
  exists pre m mid, ms = pre ++ m :: mid /\ refreshes uri m /\ editor_text uri (pre ++ [m]) t /\
    Forall (elsewhere uri) mid.

(** What is written in [t]: whatever old tree the parser is given, it makes of
    [t] the tree [tr], in which one reads the template [tp], the words [ps] and
    the statements [sts]. *)
Record conveys (parse : plang -> string -> option stree -> option stree) (t : text) (tr : stree) (tp : tpl) (ps : list piece)
  (sts : list istmt) : Prop := mkreads {
  rd_text : scalars t;
  rd_parse : forall old, parse PJinja (encode t) old = Some tr;
  rd_chars : on_characters t tr;
  rd_depicts : depicts (encode t) tr tp ps sts;
  rd_placed : well_placed tr;
  rd_ends : plain_ends tp }.
(** The definitions the server takes from a tree. *)
Definition defines (tr : stree) (tp : tpl) : list decl := tallied (n_end (s_node tr)) tp.

(** What hover tells of [name], used at [p] in the document [uri] with the
    definitions [ds]. *)
Definition hover_tells {T} (st : lsp_files T) (uri : string) (ds : list decl) (name : string) (p : point) (r : option doc) : Prop :=
  (exists d, latest (hover_sees p name) ds d /\ r = Some (DocKind (kind_text (dc_kind d)))) \/
  ((forall d, In d ds -> ~ hover_sees p name d) /\
   (exists fv, In fv (other_vars uri (ls_vars st)) /\ heads name (id_name (snd fv)) = true) /\
   r = Some (DocKind "Backend variable")) \/
  ((forall d, In d ds -> ~ hover_sees p name d) /\
   (forall fv, In fv (other_vars uri (ls_vars st)) -> heads name (id_name (snd fv)) = false) /\ r = None).
