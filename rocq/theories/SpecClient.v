(** * SpecClient: an editor that follows the Language Server Protocol 3.17. *)
From Verif Require Import Base Utf8 Rope Types Captures MSearchErrors MLspFiles MLspTask MChannels MBackend.
From Verif Require Import SpecText SpecChannels.

(** ** What the user does *)
Inductive user_action :=
| UOpen (uri : string) (t : text)
| UEdit (uri : string) (cs : list change)
| USave (uri : string)
| UClose (uri : string).

(** What the editor sends.  "openClose: Open and close notifications are sent
    to the server. If omitted open close notifications should not be sent";
    "change: If omitted it defaults to None"; "save: If present save
    notifications are sent to the server". *)
Definition yes (o : option bool) : bool := match o with Some true => true | _ => false end.
Definition tell (c : capabilities) (a : user_action) : list lsp_event :=
  match a with
  | UOpen u t => if yes (ca_open_close c) then [LOpen u t] else []
  | UEdit u cs => match ca_change c with Some SyncIncremental => [LChange u cs] | _ => [] end
  | USave u => (if yes (ca_will_save c) then [LWillSave u] else []) ++
               (if yes (ca_save c) then [LSave u] else [])
  | UClose u => if yes (ca_open_close c) then [LClose u] else []
  end.
(** What reaches the server task. *)
Definition delivered (c : capabilities) (us : list user_action) : list msg :=
  flat_map (fun e => match handle e with Some m => [m] | None => [] end) (flat_map (tell c) us).

(** The requests among what a client sends to which it expects a result from the
    server; [shutdown] and [executeCommand] are answered on the spot. *)
Definition awaits (e : lsp_event) : list N :=
  match e with
  | LInitialize r _ _ | LCompletion r _ _ _ | LHover r _ _ | LGoto r _ _ | LCodeAction r _ _ | LSymbols r _ => [r]
  | _ => []
  end.
Definition forwarded (es : list lsp_event) : list msg :=
  flat_map (fun e => match handle e with Some m => [m] | None => [] end) es.

(** ** The text in the editor *)
(** [in_editor E uri us t]: after [us] the editor has [uri] open, showing [t];
    [E] says what the edits do. *)
Definition about (a : user_action) : string :=
  match a with UOpen u _ | UEdit u _ | USave u | UClose u => u end.
Inductive in_editor (E : text -> list change -> text -> Prop) (uri : string) : list user_action -> text -> Prop :=
| ie_open us t : in_editor E uri (us ++ [UOpen uri t]) t
| ie_edit us t cs t' : in_editor E uri us t -> E t cs t' -> in_editor E uri (us ++ [UEdit uri cs]) t'
| ie_save us t : in_editor E uri us t -> in_editor E uri (us ++ [USave uri]) t
| ie_other us t a : in_editor E uri us t -> about a <> uri -> in_editor E uri (us ++ [a]) t.

(** The same, read off the messages of an editor that does announce opening:
    [editor_text uri ms t] says that the last opening of [uri] in [ms] and the
    edits after it lead to [t].  Re-indexing ([MInitialized]) is excluded: see
    C41.  The edits are those of C02 that are applied correctly. *)
Definition untouched (uri : string) (m : msg) : Prop :=
  match m with
  | MDidOpen u _ | MDidChange u _ => u <> uri
  | MInitialized => False
  | _ => True
  end.
Inductive editor_text (uri : string) : list msg -> text -> Prop :=
| et_open ms t : editor_text uri (ms ++ [MDidOpen uri t]) t
| et_change ms t cs t' : editor_text uri ms t -> easy_changes t cs t' ->
    editor_text uri (ms ++ [MDidChange uri cs]) t'
| et_other ms t m : editor_text uri ms t -> untouched uri m -> editor_text uri (ms ++ [m]) t.

(** ** After the last refresh *)
(** Nothing is linted, and the document is not changed. *)
Definition still (uri : string) (m : msg) : Prop :=
  ~ lints m /\ match m with MDidChange u _ => u <> uri | _ => True end.

(** Whatever happens, it happens to other documents: [uri] is not opened,
    changed or saved, and the workspace is not indexed again. *)
Definition elsewhere (uri : string) (m : msg) : Prop :=
  match m with
  | MDidOpen u _ | MDidChange u _ | MDidSave u => u <> uri
  | MInitialized => False
  | _ => True
  end.

(** ** Commands *)
(** How often the workspace is asked to be indexed again. *)
Definition asks_index (m : msg) : nat :=
  match m with
  | MInitialized => 1
  | _ => 0
  end.
Definition asks_reset (m : msg) : nat :=
  match m with
  | MExecuteCommand c => if string_dec c "reset_variables" then 1 else 0
  | MDidChangeConfiguration (Some _) => 1
  | _ => 0
  end.
Definition total (f : msg -> nat) (ms : list msg) : nat := fold_right (fun m n => f m + n)%nat 0%nat ms.
(** A step does nothing that anybody could notice. *)
Definition no_effect {T} (s s' : task_state T) (es : list effect) : Prop := s' = s /\ es = [].

(** ** Copies *)
(** Two states that differ at most in the timer they would abort, and two lists
    of effects that differ at most in the timers aborted. *)
Definition but_timer {T} (s s' : task_state T) : Prop :=
  tk_config s = tk_config s' /\ tk_next s = tk_next s' /\
  set_task None (tk_data s) = set_task None (tk_data s').
Definition visible (es : list effect) : list effect :=
  filter (fun e => match e with EAbort _ => false | _ => true end) es.
Definition same_answer {T} (r r' : res (task_state T * list effect)) : Prop :=
  match r, r' with
  | Ok (s, es), Ok (s', es') => but_timer s s' /\ visible es = visible es'
  | Panic, Panic => True
  | _, _ => False
  end.
(** A server whose data was replaced by a copy. *)
Definition cloned {T} (s : task_state T) : task_state T := mktask (tk_config s) (ls_clone (tk_data s)) (tk_next s).
