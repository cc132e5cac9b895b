(** * SpecQueries6: cursors in template references. *)
From Verif Require Import Base RString Utf8 Types Captures MSearchErrors MLspFiles MLspTask.
From Verif Require Import SpecObjects SpecLint SpecNav.

(** The cursor is between the quotes. *)
Definition in_quotes (cur : point) (r : sref) : Prop := pt_lt (n_start (fst r)) cur /\ pt_lt cur (n_end (fst r)).
(** A name that is one or more non-empty names with slashes between them. *)
Definition proper_name (name : string) : Prop := ~ In EmptyString (split_char slash name).
(** The file a reference stands for, as a URI. *)
Definition stands_for (F : fs) (url : url_parser) (dir name u : string) : Prop :=
  exists p, f_canon F (lookup_path dir name) = CanonOk p /\ url (file_uri p) = Some u.
(** No file has a variable without a name. *)
Definition named_vars {T} (uri : string) (s : lsp_files T) : Prop :=
  forall fv, In fv (other_vars uri (ls_vars s)) -> heads EmptyString (id_name (snd fv)) = false.

(** A reference of ASCII characters, written on one line without escapes. *)
Definition plain_line (r : sref) : Prop :=
  Forall (fun c => c < 128) (map N_of_ascii (list_ascii_of_string (snd r))) /\
  col (n_end (fst r)) = col (n_start (fst r)) + slen (snd r) + 2.
(** The URIs searched for the name [n]: those it occurs in (all, if it is empty). *)
Definition sought (n u : string) : Prop := occurs (if String.eqb n "" then "file:///"%string else n) u.
(** The name of a filter or of a test, and its documentation. *)
Definition documents (p : piece) (name : node * string) : Prop :=
  match p with PFilter _ n | PTest _ _ n => n = name | _ => False end.
Definition known_docs (p : piece) : list string := match p with PFilter _ _ => filter_names | _ => test_names end.
Definition doc_of (p : piece) (name : string) : doc := match p with PFilter _ _ => DocFilter name | _ => DocTest name end.
