(** * MSettings: how settings are read.
    Model of the derived [Deserialize] of [JinjaConfig] and [ExternalConfig]
    (jinja-lsp/src/config.rs:18-32) as [serde_json::from_value]
    (jinja-lsp/src/channels/lsp.rs:52-61, 352) and [toml::from_str]
    (config.rs:41) use it. *)
From Verif Require Import Base RString Utf8 Types MSearchErrors.

(** A JSON or TOML value after parsing.  [VOther]: numbers and TOML dates, which
    no field accepts.  Both libraries keep the keys of a map distinct. *)
Inductive value :=
| VNull
| VBool (b : bool)
| VStr (s : string)
| VOther
| VArr (l : list value)
| VMap (m : smap value).

(** [PathBuf] and [String]: strings only. *)
Definition de_string (v : value) : option string :=
  match v with VStr s => Some s | _ => None end.
(** [Vec<String>]: arrays of strings only. *)
Fixpoint de_strings (l : list value) : option (list string) :=
  match l with
  | [] => Some []
  | v :: l' =>
      match de_string v, de_strings l' with Some s, Some r => Some (s :: r) | _, _ => None end
  end.
Definition de_vec (v : value) : option (list string) :=
  match v with VArr l => de_strings l | _ => None end.
(** [Option<bool>]. *)
Definition de_flag (v : value) : option (option bool) :=
  match v with VNull => Some None | VBool b => Some (Some b) | _ => None end.

(** config.rs:18-26: the four fields that are not skipped, [user_defined] is
    [bool::default()]. *)
Definition de_fields (t b l h : value) : option config :=
  match de_string t, de_vec b, de_string l, de_flag h with
  | Some t, Some b, Some l, Some h => Some (mkcfg t b l false h)
  | _, _, _, _ => None
  end.
(** From a map: unknown keys are ignored, a missing [Option] is [None], any
    other missing field is an error. *)
Definition de_map (m : smap value) : option config :=
  match sget "templates" m, sget "backend" m, sget "lang" m with
  | Some t, Some b, Some l =>
      de_fields t b l (match sget "hide_undefined" m with Some h => h | None => VNull end)
  | _, _, _ => None
  end.
(** [serde_json::from_value]: a struct can also be given as an array of all its
    fields; elements left over are an error. *)
Definition config_of_json (v : value) : option config :=
  match v with
  | VMap m => de_map m
  | VArr [t; b; l; h] => de_fields t b l h
  | _ => None
  end.
(** [toml::from_str::<ExternalConfig>] on the parsed document; the TOML
    library does not mind elements left over. *)
Definition config_of_toml (doc : smap value) : option config :=
  match sget "jinja-lsp" doc with
  | Some (VMap m) => de_map m
  | Some (VArr (t :: b :: l :: h :: _)) => de_fields t b l h
  | _ => None
  end.
Definition toml_with (parse : string -> option (smap value)) (src : string) : option config :=
  match parse src with Some doc => config_of_toml doc | None => None end.
