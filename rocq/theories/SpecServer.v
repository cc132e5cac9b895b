(** * SpecServer: sessions in which nobody misbehaves (C08, C85).
    What the editor, the disk, the URL library and tree-sitter are expected to
    do; nothing here is about the server itself except the texts it holds. *)
From Verif Require Import Base Utf8 Rope Types Captures MSearchErrors MLspFiles MLspTask MChannels.
From Verif Require Import SpecText SpecFiles.

(** A capture whose node is a piece of the text; an operator is never the first
    thing of a document (it is inside an expression). *)
Definition inside (c : string) (x : capture) : Prop :=
  (exists s, utf8_text (c_node x) c = Ok (Some s)) /\ (c_name x = CPipe -> n_start (c_node x) <> pt0).
(** A name or a quoted template name without line break. *)
Definition one_row (x : capture) : Prop :=
  c_name x = CJustId \/ c_name x = CTemplateName -> row (n_start (c_node x)) = row (n_end (c_node x)).

(** ** tree-sitter
    What its documentation promises, as far as bytes are concerned:
    [fits l tr c]: [tr] is a syntax tree of the text [c];
    [ready l tr c]: [tr] may be given to the parser as old tree for [c].
    A parse from nothing or from a ready tree gives a tree of the text; a tree
    is ready for its own text, and after [edit] with the right bytes for the
    edited text.  Nothing is promised for old trees of other texts. *)
Record parser_contract (T : ts) := mkpc {
  fits : plang -> tree T -> string -> Prop;
  ready : plang -> tree T -> string -> Prop;
  pc_fresh : forall l c tr, t_parse T l c None = Some tr -> fits l tr c;
  pc_reuse : forall l c o tr, ready l o c -> t_parse T l c (Some o) = Some tr -> fits l tr c;
  pc_same : forall l tr c, fits l tr c -> ready l tr c;
  pc_edit : forall l tr a old new z ie,
    fits l tr (encode (a ++ old ++ z)) -> bytes_truthful a old new ie ->
    ready l (t_edit T tr ie) (encode (a ++ new ++ z));
  pc_inside : forall l tr c q x, fits l tr c -> In x (concat (t_captures T q tr c)) -> inside c x }.
Arguments fits {T}. Arguments ready {T}.
Definition names_on_one_row {T} (P : parser_contract T) : Prop :=
  forall l tr c q x, fits P l tr c -> In x (concat (t_captures T q tr c)) -> one_row x.
(** A parser that ignores whether the old tree matches the text. *)
Definition trusting_inside (T : ts) : Prop :=
  forall l c old tr q x, t_parse T l c old = Some tr -> In x (concat (t_captures T q tr c)) -> inside c x.
Definition trusting_rows (T : ts) : Prop :=
  forall l c old tr q x, t_parse T l c old = Some tr -> In x (concat (t_captures T q tr c)) -> one_row x.

(** The parser of a kind of file. *)
Definition lang_of {T} (l : lang_type) (d : lsp_files T) : plang :=
  match l with Template => PJinja | Backend => ls_parser d end.
(** Every stored document has a tree, and it is a tree of its text. *)
Definition trees_fit {T} (P : parser_contract T) (d : lsp_files T) : Prop :=
  forall uri l t, file_ext uri = Some l -> sget uri (ls_docs d) = Some t ->
    exists tr, sget uri (trees_of l d) = Some tr /\ fits P (lang_of l d) tr (encode t).

(** ** URLs and paths
    Anything under [file:///] is a URL; a URI sent by the client is one and
    stays one when its path is extended.  Resolved paths are absolute. *)
Definition urls_ok (url : url_parser) : Prop := forall r, url ("file:///" ++ r)%string <> None.
Definition linkable (url : url_parser) (u : string) : Prop :=
  url u <> None /\ forall n, url (u ++ "-" ++ n)%string <> None.
Definition rooted (F : fs) : Prop := forall p n, f_canon F p = CanonOk n -> exists r, n = ("/" ++ r)%string.

(** ** Messages the server should be able to process
    Edits are legal and everything before them is ASCII (otherwise C02 and C04
    apply); a document the server has is opened only with the text the server
    has (otherwise C56 applies). *)
Definition honest {T} (url : url_parser) (b : build) (F : fs) (s : task_state T) (m : msg) : Prop :=
  match m with
  | MInitialized => disk_ok F /\ rooted F
  | MDidOpen uri t =>
      scalars t /\ linkable url uri /\
      forall t0, sget uri (ls_docs (tk_data s)) = Some t0 -> t0 = t
  | MDidChange uri cs =>
      Forall (fun c => scalars (ch_text c)) cs /\
      forall t, sget uri (ls_docs (tk_data s)) = Some t -> exists t', honest_changes t cs t'
  | MCompletion _ _ pos _ => b = Debug -> character pos + 1 < two32
  | _ => True
  end.
(** For the trusting parser: edits are applied correctly (C02), documents are
    opened freely. *)
Definition lenient {T} (url : url_parser) (b : build) (F : fs) (s : task_state T) (m : msg) : Prop :=
  match m with
  | MInitialized => disk_ok F /\ rooted F
  | MDidOpen uri t => scalars t /\ linkable url uri
  | MDidChange uri cs =>
      Forall (fun c => scalars (ch_text c)) cs /\
      forall t, sget uri (ls_docs (tk_data s)) = Some t -> exists t', easy_changes t cs t'
  | MCompletion _ _ pos _ => b = Debug -> character pos + 1 < two32
  | _ => True
  end.
(** A sequence of messages each of which is fine when its turn comes. *)
Fixpoint session {T} (url : url_parser) (b : build) (ok : fs -> task_state T -> msg -> Prop)
  (s : task_state T) (ms : list (msg * fs)) : Prop :=
  match ms with
  | [] => True
  | (m, F) :: rest =>
      ok F s m /\ forall s' es, step F url b s m = Ok (s', es) -> session url b ok s' rest
  end.
(** Only the texts and files are as they should be; edits may go anywhere (as
    long as they carry ranges). *)
Definition ranged_only (F : fs) (m : msg) : Prop :=
  match m with
  | MInitialized => disk_ok F
  | MDidOpen _ t => scalars t
  | MDidChange _ cs => Forall (fun c => ch_range c <> None /\ scalars (ch_text c)) cs
  | _ => True
  end.
(** The state of a living server. *)
Definition state_of {T} (y : sys T) (s : task_state T) : Prop :=
  y_task y = TIdle s \/ exists es, y_task y = TBusy s es.
