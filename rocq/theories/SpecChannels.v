(** * SpecChannels: what an observer may say about an execution of the server
    (answers, order of processing, rest, deadlock, refreshes). *)
From Verif Require Import Base Utf8 Rope Types Captures MSearchErrors MLspFiles MLspTask MChannels.

(** The identity of a request; notifications have none. *)
Definition request_id (m : msg) : list N :=
  match m with
  | MInitialize r _ _ | MCompletion r _ _ _ | MHover r _ _ | MGoto r _ _ | MCodeAction r _ _
  | MDocumentSymbol r _ => [r]
  | MInitialized | MDidOpen _ _ | MDidChange _ _ | MDidSave _ | MExecuteCommand _
  | MDidChangeConfiguration _ | MCodeActions _ => []
  end.
Definition request_ids (ms : list msg) : list N := flat_map request_id ms.

(** The answers a handler gives, and those the client sees: a request that is
    not answered explicitly is answered with null. *)
Definition explicit (es : list effect) : list (N * reply) :=
  flat_map (fun e => match e with EReply r a => [(r, a)] | _ => [] end) es.
Definition answers (m : msg) (es : list effect) : list (N * reply) :=
  match explicit es with
  | [] => map (fun r => (r, RNull)) (request_id m)
  | l => l
  end.
(** The diagnostics a handler hands over. *)
Definition handed (es : list effect) : list diag_msg :=
  flat_map (fun e => match e with EDiag d => [d] | _ => [] end) es.
(** The refresh timers a handler starts after an edit. *)
Definition edit_timers (es : list effect) : list timer :=
  flat_map (fun e => match e with ETimer t TimerEdit c u => [mktm t TimerEdit c u] | _ => [] end) es.
Definition is_edit (x : timer) : bool := match tm_kind x with TimerEdit => true | TimerAction => false end.

(** What the client sees of one diagnostics message. *)
Definition published_of (url : url_parser) (d : diag_msg) : list (string * list diagnostic) :=
  flat_map (fun ue => match url (fst ue) with Some u => [(u, publish_of (snd ue))] | None => [] end) d.

(** Processing messages one after the other, each with the disk it saw. *)
Section Replay.
Context {T : ts} (url : url_parser) (b : build).
Fixpoint replay (s : task_state T) (ms : list (msg * fs)) : res (task_state T * list (msg * list effect)) :=
  match ms with
  | [] => Ok (s, [])
  | (m, F) :: rest =>
      match step F url b s m with
      | Panic => Panic
      | Ok (s1, es) =>
          match replay s1 rest with
          | Panic => Panic
          | Ok (s2, tr) => Ok (s2, (m, es) :: tr)
          end
      end
  end.
End Replay.

(** Order-preserving selection. *)
Inductive subseq {A} : list A -> list A -> Prop :=
| sub_nil l : subseq [] l
| sub_take x l l' : subseq l l' -> subseq (x :: l) (x :: l')
| sub_skip x l l' : subseq l l' -> subseq l (x :: l').

Definition alive {T} (y : sys T) : Prop := y_task y <> TDead.
(** Nothing left to do: no message queued or being processed, nothing to
    publish, no timer. *)
Definition at_rest {T} (y : sys T) : Prop :=
  (exists s, y_task y = TIdle s) /\ y_lspq y = [] /\ y_diagq y = [] /\ y_diag y = DIdle /\ y_timers y = [].

(** Everything that happens without the client. *)
Definition internal (a : action) : Prop := match a with AClient _ => False | _ => True end.

(** No step of anybody is possible although messages are waiting. *)
Definition deadlocked {T} url b (y : sys T) : Prop :=
  y_lspq y <> [] /\ forall a, act url b y a = None.

(** Re-indexing after the first edit. *)
Fixpoint late_reloads (seen : bool) (ms : list msg) : nat :=
  match ms with
  | [] => 0%nat
  | MDidChange _ _ :: r => late_reloads true r
  | MInitialized :: r => ((if seen then 1 else 0) + late_reloads seen r)%nat
  | _ :: r => late_reloads seen r
  end.

(** Messages that lint documents. *)
Definition lints (m : msg) : Prop :=
  match m with MInitialized | MDidOpen _ _ | MDidSave _ => True | _ => False end.
(** The workspace is indexed at most once, before any document is linted. *)
Definition indexed_first (ms : list msg) : Prop :=
  forall p q, ms = p ++ MInitialized :: q -> forall m, In m p -> ~ lints m.

(** The last diagnostics published for [u]. *)
Definition last_published (u : string) (ps : list (string * list diagnostic)) : option (list diagnostic) :=
  match filter (fun x => String.eqb (fst x) u) (rev ps) with
  | [] => None
  | x :: _ => Some (snd x)
  end.
(** The published places at which a template is missing. *)
Definition missing_places (ds : list diagnostic) : list range :=
  map dg_range (filter (fun d => String.eqb (dg_message d) "Template not found") ds).
