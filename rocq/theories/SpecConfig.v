(** * SpecConfig: what a path names, where a configuration comes from, which
    files an index holds.  Nothing here uses the functions of the model except
    the file-system oracle and (for the analysis of one file) the queries. *)
From Verif Require Import Base RString Utf8 Rope Types Captures.
From Verif Require Import MDefinition MTemplates MSearchErrors MLspFiles.

(** ** Paths *)
(** A string without the character [c]. *)
Definition free_of (c : ascii) (s : string) : Prop := ~ In c (list_ascii_of_string s).

(** What may follow the file name: slashes and [/.] change nothing. *)
Inductive trailing : string -> Prop :=
| tr_end : trailing ""
| tr_slash t : trailing t -> trailing ("/" ++ t)%string
| tr_dot t : trailing t -> trailing ("/." ++ t)%string.

(** [f] is the last component of [p]. *)
Definition base_name (p f : string) : Prop :=
  exists pre post, p = (pre ++ f ++ post)%string /\
    (pre = ""%string \/ exists q, pre = (q ++ "/")%string) /\ trailing post /\
    free_of "/" f /\ f <> ""%string /\ f <> "."%string /\ f <> ".."%string.

(** [f] is [stem.e] with a non-empty stem. *)
Definition has_ext (f e : string) : Prop :=
  exists stem, f = (stem ++ "." ++ e)%string /\ stem <> ""%string /\ free_of "." e.

Definition classified (p : string) (l : lang_type) : Prop :=
  exists f e, base_name p f /\ has_ext f e /\
    match l with
    | Template => e = "html" \/ e = "jinja" \/ e = "j2"
    | Backend => e = "rs" \/ e = "py"
    end%string.

(** ** Configuration *)
(** A configuration with the mark that the user provided it. *)
Definition user_config (c0 c : config) : Prop :=
  cf_templates c = cf_templates c0 /\ cf_backend c = cf_backend c0 /\ cf_lang c = cf_lang c0 /\
  cf_hide c = cf_hide c0 /\ cf_user c = true.

(** File [f] holds configuration [c]. *)
Definition file_gives (F : fs) (f : string) (c : config) : Prop :=
  exists t c0, f_read F f = Some t /\ t <> [] /\ f_toml F (encode t) = Some c0 /\ user_config c0 c.

(** The first of the files that holds one. *)
Definition first_of (F : fs) (files : list string) (c : config) : Prop :=
  exists before f after, files = before ++ f :: after /\ file_gives F f c /\
    forall g c', In g before -> ~ file_gives F g c'.

Definition searched : list string := ["pyproject.toml"; "Cargo.toml"; "jinja-lsp.toml"]%string.

(** The configuration chosen at [initialize]; [opts] are the options of the
    client: absent, present but unusable, or a configuration. *)
Definition chosen (F : fs) (opts : option (option config)) (old c : config) : Prop :=
  (exists c0, opts = Some (Some c0) /\ user_config c0 c) \/
  ((opts = None \/ opts = Some None) /\ first_of F searched c) \/
  ((opts = None \/ opts = Some None) /\ (forall f c', In f searched -> ~ file_gives F f c') /\ c = old).

(** ** Indexing *)
(** The entries below the configured directories. *)
Definition entry (F : fs) (c : config) (e : wentry) : Prop :=
  exists d, (d = cf_templates c \/ In d (cf_backend c)) /\ In e (f_walk F d).

(** The file on disk behind [uri] is to be indexed as kind [l] with text [t]. *)
Definition on_disk (F : fs) (es : wentry -> Prop) (uri : string) (t : text) (l : lang_type) : Prop :=
  exists p name, es (WFile p) /\ classified p l /\ f_canon F p = CanonOk name /\
    f_read F name = Some t /\ uri = ("file://" ++ name)%string.

Definition lang_of (c : config) : plang :=
  if string_dec (cf_lang c) "python" then PPython else PRust.
Definition parser_of (lang : plang) (l : lang_type) : plang :=
  match l with Template => PJinja | Backend => lang end.

(** The variables of one parsed file (the meaning of the two queries is the
    subject of C13 to C16 and C54). *)
Definition variables_of (T : ts) (lang : plang) (l : lang_type) (tr : tree T) (src : string)
  (vs : list identifier) : Prop :=
  match l with
  | Template =>
      exists d, definition_query (t_captures T QDefinitions tr src) (t_root_end T tr) pt0 src true = Ok d /\
        vs = def_identifiers d
  | Backend =>
      exists ids tpl,
        backend_definition_query (t_captures T (QBackendDefs lang) tr src) pt0 src true = Ok ids /\
        backend_templates_query (t_captures T (QBackendTemplates lang) tr src) pt0 src true = Ok tpl /\
        vs = ids ++ bt_templates tpl
  end.
Definition has_syntax_error (T : ts) (tr : tree T) (src : string) : Prop :=
  exists sn, snippets_query (t_captures T QSnippets tr src) pt0 true = Ok sn /\ sn_error sn = true.

(** A state that holds exactly the files [es] of the disk, analysed. *)
Record indexed {T : ts} (F : fs) (lang : plang) (es : wentry -> Prop) (s : lsp_files T) : Prop := mkindexed {
  ix_docs : forall uri t, sget uri (ls_docs s) = Some t <-> exists l, on_disk F es uri t l;
  ix_tree : forall l uri, (exists tr, sget uri (trees_of l s) = Some tr) <-> exists t, on_disk F es uri t l;
  ix_parsed : forall l uri tr, sget uri (trees_of l s) = Some tr ->
    exists t old, on_disk F es uri t l /\ t_parse T (parser_of lang l) (encode t) old = Some tr;
  ix_vars : forall uri vs, sget uri (ls_vars s) = Some vs ->
    exists l t old tr, on_disk F es uri t l /\ t_parse T (parser_of lang l) (encode t) old = Some tr /\
      variables_of T lang l tr (encode t) vs;
  ix_analysed : forall uri t l, on_disk F es uri t l ->
    (exists vs, sget uri (ls_vars s) = Some vs) \/
    (l = Template /\ exists old tr, t_parse T PJinja (encode t) old = Some tr /\
                       has_syntax_error T tr (encode t));
  ix_actions : forall uri a, sget uri (ls_actions s) = Some a -> a = [] }.

(** ** URIs *)
(** RFC 3986: unreserved characters and the separator stand for themselves,
    every other byte is written as a percent sign and two hexadecimal digits. *)
Definition unreserved (a : ascii) : bool :=
  let n := N_of_ascii a in
  ((48 <=? n) && (n <=? 57)) || ((65 <=? n) && (n <=? 90)) || ((97 <=? n) && (n <=? 122)) ||
  (n =? 45) || (n =? 46) || (n =? 95) || (n =? 126) || (n =? 47).
Definition hex_digit (n : N) : ascii :=
  ascii_of_N (if n <? 10 then 48 + n else 55 + n).
Fixpoint percent (s : string) : string :=
  match s with
  | EmptyString => EmptyString
  | String a s' =>
      if unreserved a then String a (percent s')
      else String "%"%char (String (hex_digit (N_of_ascii a / 16))
             (String (hex_digit (N_of_ascii a mod 16)) (percent s')))
  end.
(** The URI under which an editor opens the file with path [p]. *)
Definition editor_uri (p : string) : string := ("file://" ++ percent p)%string.
