(** * SpecIndex3: the templates the server knows. *)
From Verif Require Import Base RString Utf8 Rope Types Captures MLspFiles MSearchErrors MLspTask MChannels.
From Verif Require Import SpecText SpecFiles SpecConfig SpecChannels SpecServer.

(** A template that was on the disk [F] when it was indexed with the settings [c], or
    was opened [since]. *)
Definition known_template (F : fs) (c : config) (since : list msg) (u : string) : Prop :=
  (exists t, on_disk F (entry F c) u t Template) \/ file_ext u = Some Template /\ exists t, In (MDidOpen u t) since.
(** The disk [F] was last indexed with the settings [c]; the messages [since] followed. *)
Definition indexed_before (T : ts) url b (ms : list (msg * fs)) (F : fs) (c : config) (since : list msg) : Prop :=
  exists pre post s x, ms = pre ++ (MInitialized, F) :: post /\ since = map fst post /\ ~ In MInitialized since /\
    replay url b (task0 T) pre = Ok (s, x) /\ tk_config s = c.
