(** * SpecNav: what goto, hover, completion, symbols and code actions should
    answer. *)
From Verif Require Import Base RString Utf8 Rope Types Captures MDefinition MLspFiles.
From Verif Require Import SpecScope SpecObjects SpecLint.

(** The server holds the text [t] and the tree [tr] of the template [uri]. *)
Definition holds {T} (st : lsp_files T) (uri : string) (tr : tree T) (t : text) : Prop :=
  file_ext uri = Some Template /\ sget uri (ls_tt st) = Some tr /\ sget uri (ls_docs st) = Some t.
(** Its stored variables are the declarations [ds]. *)
Definition knows {T} (st : lsp_files T) (uri : string) (ds : list decl) : Prop :=
  option_map (map decl_of_id) (sget uri (ls_vars st)) = Some ds.

(** ** Visibility, as each request defines it *)

(** Goto: the cursor lies between the start of the definition and the end of
    its scope. *)
Definition goto_sees (tp : point) (name : string) (d : decl) : Prop :=
  dc_name d = name /\ pt_le (dc_start d) tp /\ pt_le tp (dc_until d).
(** Hover: not a block; the use starts behind the definition and not behind the
    end of its scope. *)
Definition hover_sees (s : point) (name : string) (d : decl) : Prop :=
  dc_name d = name /\ dc_kind d <> TemplateBlock /\ pt_le (dc_end d) s /\ pt_le s (dc_until d).
(** Completion: neither a block nor a template; the cursor is behind the
    definition and not behind the end of its scope. *)
Definition offered_at (tp : point) (d : decl) : Prop :=
  dc_kind d <> TemplateBlock /\ dc_kind d <> JinjaTemplate /\
  pt_le (dc_end d) tp /\ pt_le tp (dc_until d).

(** A declaration satisfying [P] that starts no earlier than any other. *)
Definition latest (P : decl -> Prop) (ds : list decl) (d : decl) : Prop :=
  In d ds /\ P d /\ forall d', In d' ds -> P d' -> pt_le (dc_start d') (dc_start d).

Definition lsp_pos (p : point) : position := mkpos (row p) (col p).
Definition lsp_range (s e : point) : range := mkrange (lsp_pos s) (lsp_pos e).
Definition small_decl (d : decl) : Prop := small (dc_start d) /\ small (dc_end d).

(** ** Other files *)

(** [x] is the first dotted segment of [n]. *)
Definition has_dot (x : string) : bool := existsb (Ascii.eqb "."%char) (list_ascii_of_string x).
Definition heads (x n : string) : bool :=
  negb (has_dot x) && (String.eqb n x || String.prefix (x ++ ".") n).
(** The variables of all files but [uri]. *)
Definition other_vars (uri : string) (vars : smap (list identifier)) : list (string * identifier) :=
  flat_map (fun kv => map (pair (fst kv)) (snd kv))
    (filter (fun kv => negb (String.eqb (fst kv) uri)) vars).
(** Where goto sends the client for a variable of another file: the file, or,
    for a variable without a position, a name made of both. *)
Definition target_name (fv : string * identifier) : string :=
  if pt_eqb (id_start (snd fv)) pt0 && pt_eqb (id_end (snd fv)) pt0
  then (fst fv ++ "-" ++ id_name (snd fv))%string else fst fv.
Definition small_id (i : identifier) : Prop := small (id_start i) /\ small (id_end i).

(** ** Template references *)

(** The cursor is inside the quoted string [r] of the statement [st], and what
    follows [r] in the statement lies behind the cursor. *)
Definition on_node (tp : point) (n : node) : Prop := pt_le (n_start n) tp /\ pt_le tp (n_end n).
Definition after (tp : point) (n : node) : Prop := pt_lt tp (n_start n).
Definition upto (tp : point) (n : node) : Prop := pt_le (n_start n) tp.
Definition cursor_in (tp : point) (st : istmt) (r : sref) : Prop :=
  upto tp (stmt_node st) /\ on_node tp (fst r) /\
  match st with
  | SExtends _ kw t => r = t /\ upto tp kw
  | SInclude _ kw ts =>
      upto tp kw /\
      exists a z, ts = a ++ r :: z /\
        Forall (fun x => upto tp (fst x) /\ pt_lt (n_end (fst x)) tp) a /\
        Forall (fun x => after tp (fst x)) z
  | SFrom _ kw t imp ids =>
      r = t /\ upto tp kw /\ after tp imp /\
      Forall (fun i => match i with Some i => after tp (fst i) | None => True end) ids
  | SImport _ kw t als =>
      r = t /\ upto tp kw /\
      Forall (fun a => match fst a with Some k => after tp k | None => True end /\
                       match snd a with Some i => after tp (fst i) | None => True end) als
  end.
(** Statements before and behind the cursor. *)
Definition all_before (tp : point) (st : istmt) : Prop :=
  Forall (fun c => pt_le (n_start (c_node c)) tp) (concat (cap_stmt st)).
Definition all_behind (tp : point) (st : istmt) : Prop :=
  Forall (fun c => pt_lt tp (n_start (c_node c))) (concat (cap_stmt st)).

(** ** Kinds *)
Definition kind_text (k : identifier_type) : string :=
  match k with
  | ForLoopKey => "For loop key" | ForLoopValue => "For loop value"
  | ForLoopCount => "For loop count" | SetVariable => "Set variable"
  | WithVariable => "With variable" | MacroName => "Macro"
  | MacroParameter => "Macro parameter" | TemplateBlock => "Template block"
  | BackendVariable => "Backend variable" | UndefinedVariable => "Undefined variable"
  | JinjaTemplate => "Jinja template"
  end%string.
Definition lsp_kind (k : identifier_type) : kind :=
  match k with
  | MacroName => KFunction | TemplateBlock => KModule | JinjaTemplate => KFile
  | UndefinedVariable => KConstant | ForLoopCount | MacroParameter => KField
  | ForLoopKey | ForLoopValue | SetVariable | WithVariable | BackendVariable => KVariable
  end.

(** ** Completion *)

(** A name is wanted for a typed prefix (nothing typed: every name). *)
Definition wanted (typed name : string) : Prop := exists more, name = (typed ++ more)%string.
(** An item that presents a declaration. *)
Definition presents (d : decl) (i : citem) : Prop :=
  ci_label i = dc_name d /\ ci_detail i = Some (kind_text (dc_kind d)) /\
  ci_kind i = lsp_kind (dc_kind d).
(** [x] occurs in [s]. *)
Definition occurs (x s : string) : Prop := exists a z, s = (a ++ x ++ z)%string.
(** [uri] lies at [label] below the directory [d], whose name occurs nowhere
    else in it. *)
Definition lies_below (d uri label : string) : Prop :=
  d <> EmptyString /\
  exists pre, uri = (pre ++ d ++ "/" ++ label)%string /\
    forall a z, uri = (a ++ d ++ z)%string -> a = pre.

(** ** Answers *)

(** The location for a variable of another file. *)
Definition found (url : url_parser) (fv : string * identifier) (l : location) : Prop :=
  url (target_name fv) = Some (loc_uri l) /\ loc_range l = lsp_range (id_start (snd fv)) (id_end (snd fv)).
(** The cursor is on no template reference. *)
Definition no_ref_at (tp : point) (ms : list (list capture)) : Prop :=
  Forall (fun c => c_name c = CTemplateName -> ~ on_node tp (c_node c)) (concat ms).
(** The cursor is behind some pieces and before all others. *)
Definition no_use_at (src : string) (cs : list capture) (tp : point) : Prop :=
  exists ps cs2 p, cs = cap_pieces ps ++ cs2 /\ ends_before src ps p /\ pt_lt p tp /\ before_all tp cs2.
(** What is searched for when [typed] is typed of the template name. *)
Definition quoted_prefix (typed name n : string) : Prop :=
  (slen typed <= 1 /\ n = name) \/
  (exists a, typed = (n ++ String a EmptyString)%string /\ n <> EmptyString).
(** Every variable of every file. *)
Definition all_vars (vars : smap (list identifier)) : list (string * identifier) :=
  flat_map (fun kv => map (pair (fst kv)) (snd kv)) vars.
Definition is_backend (fv : string * identifier) : bool := itype_eqb (id_type (snd fv)) BackendVariable.
(** An item without edits for a variable. *)
Definition plain_for (fv : string * identifier) (i : citem) : Prop :=
  presents (decl_of_id (snd fv)) i /\ ci_edit i = None /\ ci_additional i = None.
(** What completion answers for a typed prefix. *)
Definition variables_offered {T} (st : lsp_files T) (uri : string) (ds : list decl) (tp : point) (typed : string) (r : range)
  (items : list citem) : Prop :=
  exists local back, items = local ++ back /\
    NoDup (map ci_label local) /\
    (forall n, In n (map ci_label local) <-> exists d, In d ds /\ dc_name d = n /\ offered_at tp d /\ wanted typed n) /\
    Forall (fun i => exists d, In d ds /\ offered_at tp d /\ presents d i) local /\
    (typed <> EmptyString -> ls_vscode st = false ->
       Forall (fun i => ci_edit i = Some (CInsertReplace (ci_label i) r r) /\ ci_additional i = None) local) /\
    (typed <> EmptyString -> ls_vscode st = true ->
       Forall (fun i => ci_edit i = Some (CEdit (mkte (mkrange (rstart r) (rstart r)) EmptyString)) /\
                        ci_additional i = Some [mkte r typed]) local) /\
    (typed = EmptyString -> Forall (fun i => ci_edit i = None /\ ci_additional i = None) local) /\
    Forall2 plain_for (filter is_backend (all_vars (ls_vars st))) back.
(** The item for the template [uri]: it writes the quoted path over the old name. *)
Definition template_for (d : string) (vscode : bool) (r : range) (uri : string) (i : citem) : Prop :=
  lies_below d uri (ci_label i) /\ ci_detail i = Some "Jinja template"%string /\ ci_kind i = KFile /\
  (vscode = false -> ci_edit i = Some (CInsertReplace (String dquote (ci_label i ++ String dquote EmptyString)) r r) /\ ci_additional i = None) /\
  (vscode = true -> ci_additional i = Some [mkte r (String dquote (ci_label i ++ String dquote EmptyString))]).
(** The cursor is on a reported reference. *)
Definition on_id (tp : point) (i : identifier) : Prop := pt_le (id_start i) tp /\ pt_le tp (id_end i).
Definition wf_decl (d : decl) : Prop := pt_le (dc_start d) (dc_end d).
