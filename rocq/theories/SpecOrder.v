(** * SpecOrder: the same state with its hash maps in another order. *)
From Verif Require Import Base RString Utf8 Rope Types Captures MTemplates MSearchErrors MLspFiles MLspTask.
From Verif Require Import SpecLint.

(** Rust iterates a [HashMap] in an unspecified order that can differ between
    two maps with the same entries. *)
Record same_state {T : ts} (s s' : lsp_files T) : Prop := mksame {
  sm_tt : same_map (ls_tt s) (ls_tt s');
  sm_bt : same_map (ls_bt s) (ls_bt s');
  sm_docs : same_map (ls_docs s) (ls_docs s');
  sm_vars : same_map (ls_vars s) (ls_vars s');
  sm_actions : same_map (ls_actions s) (ls_actions s');
  sm_parser : ls_parser s = ls_parser s';
  sm_query : ls_query s = ls_query s';
  sm_config : ls_config s = ls_config s';
  sm_task : ls_task s = ls_task s';
  sm_chan : ls_chan s = ls_chan s';
  sm_vscode : ls_vscode s = ls_vscode s';
  sm_ignore : ls_ignore s = ls_ignore s' }.
Definition same_task {T} (s s' : task_state T) : Prop :=
  tk_config s = tk_config s' /\ same_state (tk_data s) (tk_data s') /\ tk_next s = tk_next s'.

(** Messages, replies and effects up to order. *)
Definition same_msg (m m' : msg) : Prop :=
  match m, m' with
  | MCodeActions a, MCodeActions a' => same_map a a'
  | _, _ => m = m'
  end.
Definition same_reply (r r' : reply) : Prop :=
  match r, r' with
  | RCompletion l, RCompletion l' => Permutation l l'
  | RGoto (GArray l), RGoto (GArray l') => Permutation l l'
  | _, _ => r = r'
  end.
Definition same_effect (e e' : effect) : Prop :=
  match e, e' with
  | EDiag d, EDiag d' => same_map d d'
  | EReply r a, EReply r' a' => r = r' /\ same_reply a a'
  | _, _ => e = e'
  end.
(** Both succeed with related results, or both panic. *)
Definition same_res {A} (R : A -> A -> Prop) (x y : res A) : Prop :=
  match x, y with
  | Ok a, Ok b => R a b
  | Panic, Panic => True
  | _, _ => False
  end.

(** The same definitions of the same files, stored in another order. *)
Definition reordered (m m' : smap (list identifier)) : Prop :=
  Forall2 (fun kv kv' => fst kv = fst kv' /\ Permutation (snd kv) (snd kv')) m m'.
Definition goto_alike (x y : option goto_response) : Prop :=
  match x, y with
  | Some (GArray a), Some (GArray b) => Permutation a b
  | _, _ => x = y
  end.
Definition lint_alike (l : lang_type) (x y : option errors) : Prop :=
  match l, x, y with
  | Backend, Some a, Some b => Permutation a b
  | _, _, _ => x = y
  end.
(** The text under which an item is listed. *)
Definition offer_label (i : ritem) : string :=
  match i with RItem c => ci_label c | RDoc n _ => n | RSnippet n _ _ => n end.
Definition offers_alike (x y : option (list ritem)) : Prop :=
  match x, y with
  | Some a, Some b => Permutation (map offer_label a) (map offer_label b)
  | None, None => True
  | _, _ => False
  end.
