(** * SpecTyping: when an editor asks for completions while the user types (LSP 3.17). *)
From Coq Require Import Ascii.
From Verif Require Import Base RString Types Captures MLspFiles MLspTask MBackend.

(** "Typically they do so when the user starts to type an identifier": letters,
    digits, underscores. *)
Definition word_char (a : ascii) : bool :=
  let n := N_of_ascii a in
  ((48 <=? n) && (n <=? 57)) || ((65 <=? n) && (n <=? 90)) || (n =? 95) || ((97 <=? n) && (n <=? 122)).
(** "If code complete should automatically be triggered on characters not being
    valid inside an identifier [...] list them in triggerCharacters."  The kind:
    Invoked = "typing an identifier (24x7 code complete), manual invocation",
    TriggerCharacter = "a trigger character specified by triggerCharacters". *)
Definition asks_after (c : capabilities) (a : ascii) : option trigger_kind :=
  if existsb (String.eqb (String a EmptyString)) (ca_triggers c) then Some TkTriggerCharacter
  else if word_char a then Some TkInvoked else None.
(** What the editor sends, besides the edit itself, when [a] was typed and the
    cursor is now at [pos]. *)
Definition on_typing (c : capabilities) (a : ascii) (rid : N) (uri : string) (pos : position) : list lsp_event :=
  match asks_after c a with Some k => [LCompletion rid uri pos (Some k)] | None => [] end.
