(** * Types: identifiers and their derived order.
    jinja-lsp-queries/src/search/mod.rs, tree_builder.rs. *)
From Verif Require Import Base.

(** tree_builder.rs:5-9. *)
Inductive lang_type := Template | Backend.
Definition lang_eqb (a b : lang_type) : bool :=
  match a, b with Template, Template | Backend, Backend => true | _, _ => false end.

(** tree_builder.rs:11-16. *)
Inductive jdiag := DefinedSomewhere | Undefined | TemplateNotFound.
Definition jdiag_eqb (a b : jdiag) : bool :=
  match a, b with
  | DefinedSomewhere, DefinedSomewhere | Undefined, Undefined
  | TemplateNotFound, TemplateNotFound => true
  | _, _ => false
  end.

(** LSP [DiagnosticSeverity] values used. *)
Inductive severity := SevWarning | SevInformation.
(** tree_builder.rs:18-26. *)
Definition diag_severity (d : jdiag) : severity :=
  match d with
  | DefinedSomewhere => SevInformation
  | Undefined => SevWarning
  | TemplateNotFound => SevWarning
  end.
(** tree_builder.rs:28-36. *)
Definition diag_message (d : jdiag) : string :=
  match d with
  | Undefined => "Undefined variable"
  | DefinedSomewhere => "Variable is defined in other file."
  | TemplateNotFound => "Template not found"
  end%string.

(** search/mod.rs:92-106. *)
Inductive identifier_type :=
| ForLoopKey | ForLoopValue | ForLoopCount | SetVariable | WithVariable | MacroName
| MacroParameter | TemplateBlock | BackendVariable | UndefinedVariable | JinjaTemplate.

(** Variant index: the derived [Ord] of the enum. *)
Definition itype_index (t : identifier_type) : N :=
  match t with
  | ForLoopKey => 0 | ForLoopValue => 1 | ForLoopCount => 2 | SetVariable => 3
  | WithVariable => 4 | MacroName => 5 | MacroParameter => 6 | TemplateBlock => 7
  | BackendVariable => 8 | UndefinedVariable => 9 | JinjaTemplate => 10
  end.
Definition itype_eqb (a b : identifier_type) : bool := itype_index a =? itype_index b.

(** search/mod.rs:109-123. *)
Definition completion_detail (t : identifier_type) : string :=
  match t with
  | ForLoopKey => "For loop key" | ForLoopValue => "For loop value"
  | ForLoopCount => "For loop count" | SetVariable => "Set variable"
  | WithVariable => "With variable" | MacroName => "Macro"
  | MacroParameter => "Macro parameter" | TemplateBlock => "Template block"
  | BackendVariable => "Backend variable" | UndefinedVariable => "Undefined variable"
  | JinjaTemplate => "Jinja template"
  end%string.

(** The LSP kinds that occur (CompletionItemKind and SymbolKind). *)
Inductive kind := KVariable | KField | KFunction | KModule | KConstant | KFile | KText | KSnippet.
(** search/mod.rs:125-139. *)
Definition completion_kind (t : identifier_type) : kind :=
  match t with
  | ForLoopKey => KVariable | ForLoopValue => KVariable | ForLoopCount => KField
  | SetVariable => KVariable | WithVariable => KVariable | MacroName => KFunction
  | MacroParameter => KField | TemplateBlock => KModule | BackendVariable => KVariable
  | UndefinedVariable => KConstant | JinjaTemplate => KFile
  end.
(** search/mod.rs:141-155. *)
Definition symbol_kind (t : identifier_type) : kind :=
  match t with
  | ForLoopKey => KVariable | ForLoopValue => KVariable | ForLoopCount => KField
  | SetVariable => KVariable | WithVariable => KVariable | MacroName => KFunction
  | MacroParameter => KField | TemplateBlock => KModule | BackendVariable => KVariable
  | UndefinedVariable => KConstant | JinjaTemplate => KFile
  end.

Definition field := (string * (point * point))%type.

(** search/mod.rs:16-24. *)
Record identifier := mkid {
  id_start : point;
  id_end : point;
  id_name : string;
  id_scope : N * point;          (* scope_ends *)
  id_type : identifier_type;
  id_fields : list field }.

(** [Identifier::default()]. *)
Definition id_default : identifier :=
  mkid pt0 pt0 EmptyString (0, pt0) UndefinedVariable [].

(** search/mod.rs:27-36 [Identifier::new]. *)
Definition id_new (name : string) (s e : point) : identifier :=
  mkid s e name (0, pt0) UndefinedVariable [].

Definition with_type (t : identifier_type) (i : identifier) : identifier :=
  mkid (id_start i) (id_end i) (id_name i) (id_scope i) t (id_fields i).
Definition with_scope_id (n : N) (i : identifier) : identifier :=
  mkid (id_start i) (id_end i) (id_name i) (n, snd (id_scope i)) (id_type i) (id_fields i).
Definition with_scope_end (p : point) (i : identifier) : identifier :=
  mkid (id_start i) (id_end i) (id_name i) (fst (id_scope i), p) (id_type i) (id_fields i).

(** search/mod.rs:38-45 [Identifier::merge]. *)
Definition id_merge (i : identifier) : string :=
  fold_left (fun acc f => (acc ++ "." ++ fst f)%string) (id_fields i) (id_name i).

(** ** Derived orders (used by [Iterator::max]) *)
Definition cmp_then (a b : comparison) : comparison := match a with Eq => b | _ => a end.
Definition pt_compare (a b : point) : comparison :=
  cmp_then (N.compare (row a) (row b)) (N.compare (col a) (col b)).
Fixpoint str_compare (a b : string) : comparison :=
  match a, b with
  | EmptyString, EmptyString => Eq
  | EmptyString, _ => Lt
  | _, EmptyString => Gt
  | String x a', String y b' =>
      cmp_then (N.compare (N_of_ascii x) (N_of_ascii y)) (str_compare a' b')
  end.
Definition field_compare (a b : field) : comparison :=
  cmp_then (str_compare (fst a) (fst b))
    (cmp_then (pt_compare (fst (snd a)) (fst (snd b))) (pt_compare (snd (snd a)) (snd (snd b)))).
Fixpoint list_compare {A} (cmp : A -> A -> comparison) (a b : list A) : comparison :=
  match a, b with
  | [], [] => Eq
  | [], _ => Lt
  | _, [] => Gt
  | x :: a', y :: b' => cmp_then (cmp x y) (list_compare cmp a' b')
  end.
(** [#[derive(Ord)]] on [Identifier] (search/mod.rs:16): field by field. *)
Definition id_compare (a b : identifier) : comparison :=
  cmp_then (pt_compare (id_start a) (id_start b))
  (cmp_then (pt_compare (id_end a) (id_end b))
  (cmp_then (str_compare (id_name a) (id_name b))
  (cmp_then (cmp_then (N.compare (fst (id_scope a)) (fst (id_scope b)))
                      (pt_compare (snd (id_scope a)) (snd (id_scope b))))
  (cmp_then (N.compare (itype_index (id_type a)) (itype_index (id_type b)))
            (list_compare field_compare (id_fields a) (id_fields b)))))).

(** [Iterator::max]: the last element among the maximal ones. *)
Fixpoint max_from (m : identifier) (l : list identifier) : identifier :=
  match l with
  | [] => m
  | x :: l' => max_from (match id_compare m x with Gt => m | _ => x end) l'
  end.
Definition iter_max (l : list identifier) : option identifier :=
  match l with [] => None | x :: l' => Some (max_from x l') end.
