(** * SpecHistory: two servers that hold the same text of a template. *)
From Verif Require Import Base RString Utf8 Rope Types Captures MSearchErrors MLspFiles MLspTask.
From Verif Require Import SpecText SpecFiles SpecLint.

(** Whatever tree of an earlier text the parser is given, it makes of [t] the tree
    [tr]. *)
Definition becomes (T : ts) (t : text) (tr : tree T) : Prop :=
  scalars t /\ forall old, t_parse T PJinja (encode t) old = Some tr.
(** The server has definitions of the template [uri], perhaps none. *)
Definition analysed {T} (s : task_state T) (uri : string) : Prop := sget uri (ls_vars (tk_data s)) <> None.
(** Some document defines the name for one server iff some document does for the
    other. *)
Definition same_names {T} (s s' : task_state T) : Prop :=
  forall name, indexed (ls_vars (tk_data s)) name <-> indexed (ls_vars (tk_data s')) name.
(** The same template names lead to a file. *)
Definition same_templates (F : fs) (dir : string) (F' : fs) (dir' : string) : Prop :=
  forall name, missing F dir name = missing F' dir' name.
(** The two servers agree about everything but the template [uri]: the definitions
    of the other documents, which templates there are, where they are kept, and
    whether the editor is Visual Studio Code. *)
Record agree_around {T} (uri : string) (s s' : lsp_files T) : Prop := mkaround {
  ar_vars : forall u, u <> uri -> sget u (ls_vars s) = sget u (ls_vars s');
  ar_files : forall u, In u (map fst (ls_tt s)) <-> In u (map fst (ls_tt s'));
  ar_dir : cf_templates (ls_config s) = cf_templates (ls_config s');
  ar_editor : ls_vscode s = ls_vscode s' }.
(** Requests that ask something about a template. *)
Definition asks_about (uri : string) (rid : N) (m : msg) : Prop :=
  match m with
  | MCompletion r u _ _ | MHover r u _ | MGoto r u _ | MDocumentSymbol r u => r = rid /\ u = uri
  | _ => False
  end.
