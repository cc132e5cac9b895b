(** * SpecAsking: requests that only ask (C129). *)
From Verif Require Import Base Utf8 Rope Types Captures MSearchErrors MLspFiles MLspTask MChannels.
From Verif Require Import SpecChannels.

(** The requests with which the user looks at something: completion, hover, go to
    definition, the quick fixes at a place, the outline. *)
Definition question (m : msg) : bool :=
  match m with
  | MCompletion _ _ _ _ | MHover _ _ _ | MGoto _ _ _ | MCodeAction _ _ _ | MDocumentSymbol _ _ => true
  | MInitialize _ _ _ | MInitialized | MDidOpen _ _ | MDidChange _ _ | MDidSave _ | MExecuteCommand _
  | MDidChangeConfiguration _ | MCodeActions _ => false
  end.
(** The answer is not the one given on a missing template (the creation of the
    file, or no proposal at all). *)
Definition not_on_missing (a : reply) : Prop :=
  match a with RCodeActions l => exists t c, In (CaCommand t c) l | _ => True end.

(** Some of the questions of a session, chosen by their identities. *)
Definition only_questions (Q : N -> bool) (ms : list msg) : Prop :=
  forall m r, In m ms -> In r (request_id m) -> Q r = true -> question m = true.
Definition chosen (Q : N -> bool) (m : msg) : bool := question m && existsb Q (request_id m).
Definition unchosen (Q : N -> bool) (ms : list msg) : list msg := filter (fun m => negb (chosen Q m)) ms.

(** Two sessions that differ in the chosen questions and their answers only. *)
Record differ_in {T} (Q : N -> bool) (y y' : sys T) : Prop := {
  df_task : y_task y' = y_task y;
  df_queue : y_lspq y' = unchosen Q (y_lspq y);
  df_taken : y_taken y' = filter (fun x => negb (chosen Q (fst x))) (y_taken y);
  df_replies : y_replies y' = filter (fun x => negb (Q (fst x))) (y_replies y);
  df_published : y_published y' = y_published y;
  df_diagq : y_diagq y' = y_diagq y;
  df_diag : y_diag y' = y_diag y;
  df_timers : y_timers y' = y_timers y }.
