(** * SpecIndex2: a workspace whose files are opened, edited and saved. *)
From Verif Require Import Base RString Utf8 Rope Types Captures MLspFiles MSearchErrors MLspTask MChannels MQueries.
From Verif Require Import SpecText SpecFiles SpecScope SpecScope2 SpecObjects SpecLint SpecQueries SpecQueries2 SpecQueries4 SpecQueries6 SpecConfig SpecChannels SpecServer SpecClient SpecQueries5 SpecScreen SpecCode SpecIndex.

(** After the messages [ms], the last of which came [since] the disk [F] was indexed,
    the text of the file [u] is [t]: what the editor showed when the file was last
    opened or saved, or what was on the disk if it was not. *)
Definition stands (F : fs) (c : config) (ms since : list msg) (u : string) (t : text) (l : lang_type) : Prop :=
  Forall (unrefreshed u) since /\ on_disk F (entry F c) u t l \/
  file_ext u = Some l /\ exists t', last_read u ms t t'.
(** The text is free of syntax errors. *)
Definition sound_text (parse : plang -> string -> option stree -> option stree) (lang : plang) (t : text) (l : lang_type) : Prop :=
  match l with
  | Template => exists tr tp ps sts, conveys parse t tr tp ps sts
  | Backend => exists tr, code_conveys parse lang t tr
  end.
(** The text writes the name [nm] between [p] and [q]: it defines it, hands it to
    templates, or loads a template so named. *)
Definition writes_at (parse : plang -> string -> option stree -> option stree) (lang : plang) (t : text) (l : lang_type) (nm : string) (p q : point) : Prop :=
  match l with
  | Template => exists tr tp ps sts d, conveys parse t tr tp ps sts /\ In d (defines tr tp) /\ dc_name d = nm /\ dc_start d = p /\ dc_end d = q
  | Backend => exists tr n, code_conveys parse lang t tr /\ n_start n = p /\ n_end n = q /\
      (handing lang (encode t) tr n nm \/ exists ar, loading lang (encode t) tr ar n /\ snd (loaded_ref (encode t) n) = nm)
  end.
Definition writes (parse : plang -> string -> option stree -> option stree) (lang : plang) (t : text) (l : lang_type) (nm : string) : Prop :=
  exists p q, writes_at parse lang t l nm p q.
(** The messages [ms] end with an indexing of the disk [F] with the settings [c] and
    the messages [since], in which files were read whose text the editor shows. *)
Definition worked_on (T : ts) url b (ms : list (msg * fs)) (F : fs) (c : config) (since : list msg) : Prop :=
  exists pre post s x, ms = pre ++ (MInitialized, F) :: post /\ since = map fst post /\ ~ In MInitialized since /\
    replay url b (task0 T) pre = Ok (s, x) /\ tk_config s = c /\
    forall u, Forall (unrefreshed u) since \/ file_ext u <> None /\ exists t t', last_read u (map fst ms) t t'.
(** The disk [F] was last indexed with the settings [c]. *)
Definition set_up (T : ts) url b (ms : list (msg * fs)) (F : fs) (c : config) : Prop :=
  exists pre post s x, ms = pre ++ (MInitialized, F) :: post /\ ~ In MInitialized (map fst post) /\
    replay url b (task0 T) pre = Ok (s, x) /\ tk_config s = c.
