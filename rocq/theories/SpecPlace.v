(** * SpecPlace: where something may be offered, found or reported. *)
From Verif Require Import Base RString Utf8 Types Captures MObjects SpecScope SpecObjects SpecLint SpecNav.

(** A capture of the given kind. *)
Definition captured (k : cname) (cs : list capture) (P : node -> Prop) : Prop :=
  exists c, In c cs /\ c_name c = k /\ P (c_node c).
(** The cursor is in the extent of [n], the end excluded. *)
Definition holds_point (tp : point) (n : node) : Prop := pt_le (n_start n) tp /\ pt_lt tp (n_end n).
(** The cursor is between the delimiters of the expression [n]. *)
Definition between (tp : point) (n : node) : Prop :=
  pt_le (snd (n_first n)) tp /\ pt_le tp (fst (n_last n)).
(** The cursor follows [n] on the line on which [n] ends. *)
Definition follows (tp : point) (n : node) : Prop := pt_le (n_end n) tp /\ row tp = row (n_end n).

(** What a completion request may ask for with the cursor at [tp], given the
    captures of the three queries. *)
Definition fits (objs imps snips : list capture) (src : string) (tp : point) (ct : completion_type) : Prop :=
  match ct with
  | CtFilter =>
      tp = pt0 \/
      captured CPipe objs (fun n => on_node tp n /\ exists r, utf8_text n src = Ok (Some ("|" ++ r)%string))
  | CtIdentifier | CtIncompleteIdentifier _ _ => captured CExpr objs (holds_point tp)
  | CtTest => captured CIs objs (follows tp)
  | CtSnippets _ => captured CErrorBlock snips (fun n => pt_le (n_start n) (mkpt (row tp) (col tp + 2)) /\ pt_le tp (n_end n))
  | CtIncludedTemplate _ r =>
      tp = pt0 \/ captured CTemplateName imps (fun n => on_node tp n /\ r = to_range (n_start n, n_end n))
  | CtIncompleteFilter _ _ => False
  end.

(** The first of the visible declarations of its name. *)
Definition first_offered (tp : point) (ds : list decl) (d : decl) : Prop :=
  exists ds1 ds2, ds = ds1 ++ d :: ds2 /\ offered_at tp d /\
    forall e, In e ds1 -> offered_at tp e -> dc_name e <> dc_name d.
