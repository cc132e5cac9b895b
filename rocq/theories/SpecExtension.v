(** * SpecExtension: settings in Visual Studio Code. *)
From Verif Require Import Base RString Utf8 Types MSearchErrors MSettings.

(** The setting [k] is [v]: the user's value, or else the default [d]. *)
Definition set_to (user : list (string * value)) (k : string) (d v : value) : Prop :=
  In (k, v) user \/ ((forall w, ~ In (k, w) user) /\ v = d).
(** What the user has configured. *)
Definition settings_say (user : list (string * value)) (c : config) : Prop :=
  set_to user "templates" (VStr "./templates") (VStr (cf_templates c)) /\
  set_to user "backend" (VArr [VStr "./src"%string]) (VArr (map VStr (cf_backend c))) /\
  set_to user "lang" (VStr "rust") (VStr (cf_lang c)) /\
  match cf_hide c with
  | Some h => In ("hide_undefined"%string, VBool h) user
  | None => set_to user "hide_undefined" VNull VNull
  end.
