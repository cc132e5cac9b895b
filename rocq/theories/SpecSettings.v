(** * SpecSettings: what settings say (C111, C112), and documents of other types
    (C113). *)
From Verif Require Import Base RString Utf8 Types MSearchErrors MLspFiles MLspTask MSettings.
From Verif Require Import SpecConfig.

(** An object says what the directories and the language are, and perhaps
    whether undefined variables are hidden. *)
Definition object_says (m : list (string * value)) (c : config) : Prop :=
  In ("templates"%string, VStr (cf_templates c)) m /\
  In ("backend"%string, VArr (map VStr (cf_backend c))) m /\
  In ("lang"%string, VStr (cf_lang c)) m /\
  match cf_hide c with
  | Some h => In ("hide_undefined"%string, VBool h) m
  | None => forall v, In ("hide_undefined"%string, v) m -> v = VNull
  end.
(** The same as a list of exactly these four. *)
Definition list_says (l : list value) (c : config) : Prop :=
  l = [VStr (cf_templates c); VArr (map VStr (cf_backend c)); VStr (cf_lang c);
       match cf_hide c with Some h => VBool h | None => VNull end].
Definition json_says (v : value) (c : config) : Prop :=
  (exists m, v = VMap m /\ object_says m c) \/ (exists l, v = VArr l /\ list_says l c).
(** A TOML document, in its table [jinja-lsp]. *)
Definition toml_says (doc : list (string * value)) (c : config) : Prop :=
  (exists m, In ("jinja-lsp"%string, VMap m) doc /\ object_says m c) \/
  (exists l more, In ("jinja-lsp"%string, VArr (l ++ more)) doc /\ list_says l c).
(** Parsed maps have distinct keys, at every level that matters. *)
Definition distinct_keys (v : value) : Prop :=
  match v with VMap m => NoDup (map fst m) | _ => True end.
Definition distinct_doc (doc : list (string * value)) : Prop :=
  NoDup (map fst doc) /\ forall k v, In (k, v) doc -> distinct_keys v.

(** ** Documents of other types *)
Definition unserved (uri : string) : Prop := forall l, ~ classified uri l.
(** Resolving a path does not change what kind of file it is. *)
Definition kinds_kept (F : fs) : Prop :=
  forall p n l, f_canon F p = CanonOk n -> classified p l -> classified ("file://" ++ n)%string l.
(** Messages about a document, with the identity of the reply channel. *)
Definition concerning (uri : string) (m : msg) : Prop :=
  match m with
  | MDidOpen u _ | MDidChange u _ | MDidSave u | MCompletion _ u _ _ | MHover _ u _ | MGoto _ u _
  | MCodeAction _ u _ | MDocumentSymbol _ u => u = uri
  | _ => False
  end.
