(** * MChannels: the running server as a transition system.
    Model of jinja-lsp/src/backend.rs, channels/diagnostics.rs, the loop of
    channels/lsp.rs, the two bounded tokio channels and the spawned timers.

    Every interleaving of the client, the server task, the diagnostics task and
    the timers is a list of [action]s.  Real time is not modelled: a live timer
    may fire at any moment. *)
From Verif Require Import Base RString Utf8 Rope Types Captures.
From Verif Require Import MDefinition MObjects MTemplates MSearchErrors MLspFiles MLspTask.

(** backend.rs:158-159. *)
Definition lsp_capacity : nat := 50.
Definition diag_capacity : nat := 20.

(** The reply channel of a request. *)
Definition msg_rid (m : msg) : option N :=
  match m with
  | MInitialize r _ _ | MCompletion r _ _ _ | MHover r _ _ | MGoto r _ _ | MCodeAction r _ _
  | MDocumentSymbol r _ => Some r
  | _ => None
  end.
Definition rids (ms : list msg) : list N :=
  flat_map (fun m => match msg_rid m with Some r => [r] | None => [] end) ms.
Definition effect_rids (es : list effect) : list N :=
  flat_map (fun e => match e with EReply r _ => [r] | _ => [] end) es.

Record timer := mktm { tm_id : N; tm_kind : timer_kind; tm_chan : bool; tm_uri : string }.

Section Sys.
Context (T : ts) (url : url_parser) (b : build).

(** The server task: waiting for a message, performing the remaining effects of
    the current one, or dead after a panic. *)
Inductive tstatus :=
| TIdle (s : task_state T)
| TBusy (s : task_state T) (es : list effect)
| TDead.

(** The diagnostics task (channels/diagnostics.rs:20-51): waiting; publishing
    the remaining files of a message with the code actions collected so far;
    sending the collected code actions; dead after a panic. *)
Inductive dstatus :=
| DIdle
| DPublish (rest : diag_msg) (acts : smap (list identifier))
| DSend (acts : smap (list identifier))
| DDead.

(** [y_sent], [y_taken], [y_replies], [y_published] record the history: client
    messages accepted, messages taken by the task with the file system they
    saw, answers delivered, diagnostics published. *)
Record sys := mksys {
  y_task : tstatus;
  y_lspq : list msg;
  y_diagq : list diag_msg;
  y_diag : dstatus;
  y_timers : list timer;
  y_enq : list msg;
  y_taken : list (msg * fs);
  y_replies : list (N * reply);
  y_published : list (string * list diagnostic) }.

Definition sys0 : sys := mksys (TIdle (task0 T)) [] [] DIdle [] [] [] [] [].

Inductive action :=
| AClient (m : msg)          (* a handler of backend.rs sends [m] *)
| ATake (F : fs)             (* the task receives and processes a message *)
| AEffect                    (* the task performs its next effect *)
| ADiagTake | ADiagPublish | ADiagSend
| ATimer (tid : N).          (* a sleeping task wakes up and sends *)

(** channels/diagnostics.rs:26-33: the missing templates of one file. *)
Definition missing_of (e : errors) : list identifier :=
  map snd (filter (fun x => jdiag_eqb (fst x) TemplateNotFound) e).
(** channels/diagnostics.rs:34-42. *)
Definition publish_of (e : errors) : list diagnostic :=
  map (fun x => create_diagnostic (snd x) (diag_severity (fst x)) (diag_message (fst x))) e.

(** Putting a message on the server's own channel: refused when full; when the
    receiver is gone the send fails at once and the message (with its reply
    channel) is dropped, which answers a request with null. *)
Definition send_lsp (m : msg) (y : sys) : option sys :=
  match y_task y with
  | TDead =>
      Some (mksys TDead (y_lspq y) (y_diagq y) (y_diag y) (y_timers y) (y_enq y) (y_taken y)
              (y_replies y ++ map (fun r => (r, RNull)) (rids [m])) (y_published y))
  | _ =>
      if Nat.ltb (length (y_lspq y)) lsp_capacity then
        Some (mksys (y_task y) (y_lspq y ++ [m]) (y_diagq y) (y_diag y) (y_timers y)
                (y_enq y ++ [m]) (y_taken y) (y_replies y) (y_published y))
      else None
  end.

(** One effect of the server task. *)
Definition do_effect (s : task_state T) (e : effect) (rest : list effect) (y : sys) : option sys :=
  let done y' := Some (mksys (TBusy s rest) (y_lspq y') (y_diagq y') (y_diag y') (y_timers y')
                         (y_enq y') (y_taken y') (y_replies y') (y_published y')) in
  match e with
  | EDiag d =>
      match y_diag y with
      | DDead => done y
      | _ =>
          if Nat.ltb (length (y_diagq y)) diag_capacity then
            done (mksys (y_task y) (y_lspq y) (y_diagq y ++ [d]) (y_diag y) (y_timers y) (y_enq y)
                    (y_taken y) (y_replies y) (y_published y))
          else None
      end
  | ESelf m =>
      if Nat.ltb (length (y_lspq y)) lsp_capacity then
        done (mksys (y_task y) (y_lspq y ++ [m]) (y_diagq y) (y_diag y) (y_timers y)
                (y_enq y ++ [m]) (y_taken y) (y_replies y) (y_published y))
      else None
  | EReply r a =>
      done (mksys (y_task y) (y_lspq y) (y_diagq y) (y_diag y) (y_timers y) (y_enq y)
              (y_taken y) (y_replies y ++ [(r, a)]) (y_published y))
  | EAbort t =>
      done (mksys (y_task y) (y_lspq y) (y_diagq y) (y_diag y)
              (filter (fun x => negb (tm_id x =? t)) (y_timers y)) (y_enq y)
              (y_taken y) (y_replies y) (y_published y))
  | ETimer t k c u =>
      done (mksys (y_task y) (y_lspq y) (y_diagq y) (y_diag y)
              (y_timers y ++ [mktm t k c u]) (y_enq y)
              (y_taken y) (y_replies y) (y_published y))
  | ELog _ => done y
  end.

(** The effects of a message, with the reply channel dropped at the end of the
    match arm: a request that was not answered explicitly is answered with
    null (backend.rs: [Ok(None)] when the receiver gets an error). *)
Definition with_close (m : msg) (es : list effect) : list effect :=
  match msg_rid m with
  | Some r => if existsb (N.eqb r) (effect_rids es) then es else es ++ [EReply r RNull]
  | None => es
  end.

Definition act (y : sys) (a : action) : option sys :=
  match a with
  | AClient m =>
      match m with
      | MCodeActions _ => None        (* never sent by a client handler *)
      | _ => send_lsp m y
      end
  | ATake F =>
      match y_task y, y_lspq y with
      | TIdle s, m :: q =>
          match step F url b s m with
          | Ok (s', es) =>
              Some (mksys (TBusy s' (with_close m es)) q (y_diagq y) (y_diag y) (y_timers y)
                      (y_enq y) (y_taken y ++ [(m, F)]) (y_replies y) (y_published y))
          | Panic =>
              (* the task unwinds: its receiver and every queued message are dropped *)
              Some (mksys TDead [] (y_diagq y) (y_diag y) (y_timers y) (y_enq y)
                      (y_taken y ++ [(m, F)])
                      (y_replies y ++ map (fun r => (r, RNull)) (rids (m :: q)))
                      (y_published y))
          end
      | _, _ => None
      end
  | AEffect =>
      match y_task y with
      | TBusy s (e :: rest) => do_effect s e rest y
      | TBusy s [] =>
          Some (mksys (TIdle s) (y_lspq y) (y_diagq y) (y_diag y) (y_timers y) (y_enq y)
                  (y_taken y) (y_replies y) (y_published y))
      | _ => None
      end
  | ADiagTake =>
      match y_diag y, y_diagq y with
      | DIdle, d :: q =>
          Some (mksys (y_task y) (y_lspq y) q (DPublish d []) (y_timers y) (y_enq y) (y_taken y)
                  (y_replies y) (y_published y))
      | _, _ => None
      end
  | ADiagPublish =>
      match y_diag y with
      | DPublish ((uri, e) :: rest) acts =>
          match url uri with
          | None =>                                            (* Url::parse(..).unwrap() *)
              Some (mksys (y_task y) (y_lspq y) (y_diagq y) DDead (y_timers y) (y_enq y)
                      (y_taken y) (y_replies y) (y_published y))
          | Some u =>
              Some (mksys (y_task y) (y_lspq y) (y_diagq y)
                      (DPublish rest (sinsert uri (missing_of e) acts)) (y_timers y) (y_enq y)
                      (y_taken y) (y_replies y) (y_published y ++ [(u, publish_of e)]))
          end
      | DPublish [] acts =>
          Some (mksys (y_task y) (y_lspq y) (y_diagq y) (DSend acts) (y_timers y) (y_enq y)
                  (y_taken y) (y_replies y) (y_published y))
      | _ => None
      end
  | ADiagSend =>
      match y_diag y with
      | DSend acts =>
          match send_lsp (MCodeActions acts) y with
          | Some y' =>
              Some (mksys (y_task y') (y_lspq y') (y_diagq y') DIdle (y_timers y') (y_enq y')
                      (y_taken y') (y_replies y') (y_published y'))
          | None => None
          end
      | _ => None
      end
  | ATimer t =>
      match find (fun x => tm_id x =? t) (y_timers y) with
      | None => None
      | Some x =>
          let y1 := mksys (y_task y) (y_lspq y) (y_diagq y) (y_diag y)
                      (filter (fun x => negb (tm_id x =? t)) (y_timers y)) (y_enq y)
                      (y_taken y) (y_replies y) (y_published y) in
          if tm_chan x then send_lsp (MDidSave (tm_uri x)) y1 else Some y1
      end
  end.

(** Executions. *)
Fixpoint exec (y : sys) (l : list action) : option sys :=
  match l with
  | [] => Some y
  | a :: r => match act y a with Some y' => exec y' r | None => None end
  end.
Definition reachable (y : sys) : Prop := exists l, exec sys0 l = Some y.

(** Requests sent by the client during an execution. *)
Definition client_msgs (l : list action) : list msg :=
  flat_map (fun a => match a with AClient m => [m] | _ => [] end) l.

End Sys.
Arguments mksys {T}. Arguments y_task {T}. Arguments y_lspq {T}. Arguments y_diagq {T}.
Arguments y_diag {T}. Arguments y_timers {T}. Arguments y_enq {T}. Arguments y_taken {T}.
Arguments y_replies {T}. Arguments y_published {T}. Arguments TIdle {T}. Arguments TBusy {T}.
Arguments TDead {T}. Arguments send_lsp {T}. Arguments do_effect {T}. Arguments act {T}.
Arguments exec {T}. Arguments reachable {T}.
