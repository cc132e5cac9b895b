(** * SpecFiles: histories of document notifications. *)
From Verif Require Import Base Utf8 Rope Types Captures MSearchErrors MLspFiles.

(** Document notifications of one session; [fs] is the file system at that
    moment (it is only consulted for missing templates). *)
Inductive doc_event :=
| EvOpen (F : fs) (uri : string) (t : text)
| EvChange (tid : N) (uri : string) (cs : list change)
| EvSave (F : fs) (uri : string).

Definition doc_step {T} (b : build) (s : lsp_files T) (e : doc_event) : res (lsp_files T) :=
  match e with
  | EvOpen F uri t => r <- did_open F b uri t false s;; Ok (fst r)
  | EvChange tid uri cs => r <- did_change tid uri cs s;; Ok (fst r)
  | EvSave F uri => r <- did_save F b uri s;; Ok (fst r)
  end.
Fixpoint doc_history {T} (b : build) (es : list doc_event) (s : lsp_files T) : res (lsp_files T) :=
  match es with
  | [] => Ok s
  | e :: rest => s' <- doc_step b s e;; doc_history b rest s'
  end.

(** Texts are sequences of Unicode scalar values. *)
Definition scalars (t : text) : Prop := Forall (fun c => is_scalar c = true) t.
Definition event_ok (e : doc_event) : Prop :=
  match e with
  | EvOpen _ _ t => scalars t
  | EvChange _ _ cs => Forall (fun c => ch_range c <> None /\ scalars (ch_text c)) cs
  | EvSave _ _ => True
  end.

(** The tree stored for every document is a parse of exactly its text. *)
Definition trees_current {T} (s : lsp_files T) : Prop :=
  forall uri l t, file_ext uri = Some l -> sget uri (ls_docs s) = Some t ->
    scalars t /\
    exists tr old,
      sget uri (trees_of l s) = Some tr /\
      t_parse T (match l with Template => PJinja | Backend => ls_parser s end) (encode t) old = Some tr.

(** The parser always returns a tree (tree-sitter fails only without a
    language, on cancellation or timeout, none of which the code uses). *)
Definition parse_total (T : ts) : Prop := forall l c old, t_parse T l c old <> None.

(** Files on disk hold Unicode text, and resolving a path keeps the kind of
    file it names (no [a.html] linking to [a.py]). *)
Definition disk_ok (F : fs) : Prop :=
  (forall p n, f_canon F p = CanonOk n -> file_ext (file_uri n) = file_ext p) /\
  (forall n t, f_read F n = Some t -> scalars t).

(** Everything about the URIs other than [uri], and everything global. *)
Definition same_elsewhere {T} (uri : string) (s s' : lsp_files T) : Prop :=
  (forall k, k <> uri ->
     sget k (ls_docs s') = sget k (ls_docs s) /\
     sget k (ls_tt s') = sget k (ls_tt s) /\
     sget k (ls_bt s') = sget k (ls_bt s) /\
     sget k (ls_vars s') = sget k (ls_vars s) /\
     sget k (ls_actions s') = sget k (ls_actions s)) /\
  ls_parser s' = ls_parser s /\ ls_query s' = ls_query s /\ ls_config s' = ls_config s /\
  ls_chan s' = ls_chan s /\ ls_vscode s' = ls_vscode s /\ ls_ignore s' = ls_ignore s.
