(** * MExtension: what the extension for Visual Studio Code tells the server.
    Model of editors/code/client/src/extension.ts:20-63 and of the settings
    declared in editors/code/package.json:34-60. *)
From Verif Require Import Base RString Utf8 Types MSearchErrors MLspFiles MLspTask MSettings.

(** package.json:38-58, the [default] of each property. *)
Definition default_settings : smap value :=
  [("templates", VStr "./templates"); ("backend", VArr [VStr "./src"]); ("lang", VStr "rust")]%string.
(** extension.ts:27-29: [workspace.getConfiguration("jinja-lsp")] through JSON: the
    declared settings with their defaults, overridden by and together with what
    the user has set under [jinja-lsp] (whether declared or not; VS Code marks
    values of a wrong type in the editor but passes them on). *)
Definition client_options (user : smap value) : value :=
  VMap (fold_right (fun kv m => sinsert (fst kv) (snd kv) m) default_settings user).
(** extension.ts:42-63: the first messages, with [initializationOptions]; the
    client introduces itself by the name of the application.  There is no
    [configurationSection], so changed settings are not announced. *)
Definition extension_start (rid : N) (user : smap value) : list msg :=
  [MInitialize rid (Some "Visual Studio Code"%string) (Some (config_of_json (client_options user))); MInitialized].
