(** * SpecIndex: a workspace on the disk, and a session in which it was indexed. *)
From Verif Require Import Base RString Utf8 Rope Types Captures MLspFiles MSearchErrors MLspTask MChannels MQueries.
From Verif Require Import SpecText SpecFiles SpecScope SpecScope2 SpecObjects SpecLint SpecQueries SpecQueries2 SpecQueries4 SpecQueries6 SpecConfig SpecChannels SpecServer SpecClient SpecQueries5 SpecScreen SpecCode.

(** The workspace was last indexed when the disk was [F], with the settings [c];
    since then nothing happened to [uri]. *)
Definition last_indexing {T} url b (y : sys T) (uri : string) (F : fs) (c : config) : Prop :=
  exists pre post s x, y_taken y = pre ++ (MInitialized, F) :: post /\ Forall (elsewhere uri) (map fst post) /\
    replay url b (task0 T) pre = Ok (s, x) /\ tk_config s = c.
(** The settings can be used: the language is known and all directories can be
    listed. *)
Definition usable (F : fs) (c : config) : Prop :=
  (cf_lang c = "rust" \/ cf_lang c = "python")%string /\ ~ entry F c WErr.
(** Every template and every source file below the directories of [c] is free of
    syntax errors, and no link makes a template of a source file or vice versa. *)
Definition sound_workspace (parse : plang -> string -> option stree -> option stree) (F : fs) (c : config) : Prop :=
  forall u t l, on_disk F (entry F c) u t l ->
    file_ext u = Some l /\
    match l with
    | Template => exists tr tp ps sts, conveys parse t tr tp ps sts
    | Backend => exists tr, code_conveys parse (SpecConfig.lang_of c) t tr
    end.
(** Some file below the directories defines the name: a template by a statement,
    source code by handing it to templates.  The server also counts the names of
    the templates that code loads. *)
Definition written (parse : plang -> string -> option stree -> option stree) (F : fs) (c : config) (name : string) : Prop :=
  exists u t l, on_disk F (entry F c) u t l /\
    match l with
    | Template => exists tr tp ps sts d, conveys parse t tr tp ps sts /\ In d (defines tr tp) /\ dc_name d = name
    | Backend => exists tr n, code_conveys parse (SpecConfig.lang_of c) t tr /\
        (handing (SpecConfig.lang_of c) (encode t) tr n name \/
         exists ar, loading (SpecConfig.lang_of c) (encode t) tr ar n /\ snd (loaded_ref (encode t) n) = name)
    end.
(** [uri] was never opened or saved. *)
Definition never_read (uri : string) (m : msg) : Prop :=
  match m with MDidOpen u _ | MDidSave u => u <> uri | _ => True end.

(** The file [u] writes the name [nm] between [p] and [q]: a template that defines
    it, code that hands it to templates, or code that loads a template of that name. *)
Inductive written_at (parse : plang -> string -> option stree -> option stree) (F : fs) (c : config) (u nm : string) (p q : point) : Prop :=
| WaTemplate t tr tp ps sts d : on_disk F (entry F c) u t Template -> conveys parse t tr tp ps sts ->
    In d (defines tr tp) -> dc_name d = nm -> dc_start d = p -> dc_end d = q -> written_at parse F c u nm p q
| WaHanded t tr n : on_disk F (entry F c) u t Backend -> code_conveys parse (SpecConfig.lang_of c) t tr ->
    handing (SpecConfig.lang_of c) (encode t) tr n nm -> n_start n = p -> n_end n = q -> written_at parse F c u nm p q
| WaLoaded t tr ar n : on_disk F (entry F c) u t Backend -> code_conveys parse (SpecConfig.lang_of c) t tr ->
    loading (SpecConfig.lang_of c) (encode t) tr ar n -> snd (loaded_ref (encode t) n) = nm -> n_start n = p -> n_end n = q ->
    written_at parse F c u nm p q.
(** No file but [uri] was read again. *)
Definition only (uri : string) (m : msg) : Prop :=
  match m with MDidOpen u _ | MDidSave u => u = uri | MInitialized => False | _ => True end.
(** The messages [a] end with an indexing of the disk [F] with the settings [c] and
    things that have no file but [uri] read again. *)
Definition indexed_but (T : ts) url b (a : list (msg * fs)) (uri : string) (F : fs) (c : config) : Prop :=
  exists pre post s x, a = pre ++ (MInitialized, F) :: post /\ Forall (only uri) (map fst post) /\
    replay url b (task0 T) pre = Ok (s, x) /\ tk_config s = c.
(** The names the server may know: those [ds] of the template [uri] itself and those
    written in the other files. *)
Definition at_hand (parse : plang -> string -> option stree -> option stree) (F : fs) (c : config) (uri : string) (ds : list decl) (name : string) : Prop :=
  (exists d, In d ds /\ dc_name d = name) \/ exists u p q, u <> uri /\ written_at parse F c u name p q.
