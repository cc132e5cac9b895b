(** * MBackend: the protocol side of the server.
    Model of the handlers of jinja-lsp/src/backend.rs:32-153 and of the
    capabilities announced in jinja-lsp/src/channels/lsp.rs:63-106. *)
From Verif Require Import Base RString Utf8 Rope Types Captures.
From Verif Require Import MSearchErrors MLspFiles MLspTask.

Inductive sync_kind := SyncNone | SyncFull | SyncIncremental.

(** The fields of [ServerCapabilities] that decide what a client may send; a
    field left to [Default] is [None] / [false] / empty. *)
Record capabilities := mkcaps {
  ca_open_close : option bool;           (* TextDocumentSyncOptions.open_close *)
  ca_change : option sync_kind;
  ca_will_save : option bool;
  ca_save : option bool;
  ca_triggers : list string;             (* completion trigger characters *)
  ca_definition : bool;
  ca_references : bool;
  ca_code_action : bool;
  ca_hover : bool;
  ca_symbols : bool;
  ca_commands : list string }.

(** channels/lsp.rs:63-99. *)
Definition server_caps : capabilities :=
  mkcaps None (Some SyncIncremental) (Some true) (Some true)
    ["-"; String dquote EmptyString; " "; "%"; "{"]%string
    true false true true true ["reset_variables"; "warn"]%string.

(** What a client can send that has a handler, or none, in backend.rs. *)
Inductive lsp_event :=
| LInitialize (rid : N) (client : option string) (opts : option (option config))
| LInitialized
| LOpen (uri : string) (t : text)
| LClose (uri : string)
| LChange (uri : string) (cs : list change)
| LWillSave (uri : string)
| LSave (uri : string)
| LCompletion (rid : N) (uri : string) (pos : position) (ctx : option trigger_kind)
| LHover (rid : N) (uri : string) (pos : position)
| LGoto (rid : N) (uri : string) (pos : position)
| LCodeAction (rid : N) (uri : string) (start : position)
| LCommand (cmd : string)
| LSymbols (rid : N) (uri : string)
| LConfiguration (settings : option config)
| LShutdown.

(** backend.rs:32-153: the message each handler sends to the server task.
    [did_close] (line 58) and [shutdown] (lines 150-152) send nothing;
    [will_save] is not implemented (tower-lsp only logs it). *)
Definition handle (e : lsp_event) : option msg :=
  match e with
  | LInitialize r c o => Some (MInitialize r c o)
  | LInitialized => Some MInitialized
  | LOpen u t => Some (MDidOpen u t)
  | LClose _ => None
  | LChange u cs => Some (MDidChange u cs)
  | LWillSave _ => None
  | LSave u => Some (MDidSave u)
  | LCompletion r u p c => Some (MCompletion r u p c)
  | LHover r u p => Some (MHover r u p)
  | LGoto r u p => Some (MGoto r u p)
  | LCodeAction r u p => Some (MCodeAction r u p)
  | LCommand c => Some (MExecuteCommand c)
  | LSymbols r u => Some (MDocumentSymbol r u)
  | LConfiguration o => Some (MDidChangeConfiguration o)
  | LShutdown => None
  end.
