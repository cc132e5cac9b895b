(** * SpecLayout: the same template laid out differently, its names replaced. *)
From Verif Require Import Base Utf8 Types Captures MDefinition MSearchErrors.
From Verif Require Import SpecScope SpecObjects SpecLint.

(** A way of laying out a text anew keeps the order of its places. *)
Definition keeps_order (f : point -> point) : Prop := forall p q, pt_lt p q -> pt_lt (f p) (f q).
(** A renaming gives different names different names. *)
Definition renaming (g : string -> string) : Prop := forall a b, g a = g b -> a = b.

Section Alike.
Variables (f : point -> point) (g : string -> string).
(** The node has moved; the word has moved and been renamed. *)
Definition moved (n n' : node) : Prop := n_start n' = f (n_start n) /\ n_end n' = f (n_end n).
Definition word_like (t t' : tok) : Prop := moved (fst t) (fst t') /\ snd t' = g (snd t).
Inductive noise_like : noise -> noise -> Prop :=
| NlId t t' : word_like t t' -> noise_like (NId t) (NId t')
| NlEq n n' : noise_like (NEq n) (NEq n')
| NlIf n n' : noise_like (NIf n) (NIf n').
Definition bind_like (b b' : tok * list noise) : Prop := word_like (fst b) (fst b') /\ Forall2 noise_like (snd b) (snd b').
Inductive header_like : header -> header -> Prop :=
| HlFor kw kw' k k' o o' es es' : word_like k k' -> Forall2 word_like o o' -> Forall2 noise_like es es' ->
    header_like (HFor kw k o es) (HFor kw' k' o' es')
| HlWith kw kw' bs bs' : Forall2 bind_like bs bs' -> header_like (HWith kw bs) (HWith kw' bs')
| HlMacro kw kw' n n' bs bs' : word_like n n' -> Forall2 bind_like bs bs' -> header_like (HMacro kw n bs) (HMacro kw' n' bs')
| HlBlock kw kw' n n' es es' : word_like n n' -> Forall2 noise_like es es' -> header_like (HBlock kw n es) (HBlock kw' n' es')
| HlPlain kw kw' es es' : Forall2 noise_like es es' -> header_like (HPlain kw es) (HPlain kw' es').
Definition tag_like (t t' : end_tag) : Prop := et_at t' = f (et_at t).
(** The same statements in the same order and nesting. *)
Inductive tpl_like : tpl -> tpl -> Prop :=
| TlNil : tpl_like TNil TNil
| TlExpr es es' r r' : Forall2 noise_like es es' -> tpl_like r r' -> tpl_like (TExpr es r) (TExpr es' r')
| TlOther es es' b e b' e' r r' : Forall2 noise_like es es' -> tpl_like r r' -> tpl_like (TOther es b e r) (TOther es' b' e' r')
| TlSet kw kw' x x' es es' b e b' e' r r' : word_like x x' -> Forall2 noise_like es es' -> tpl_like r r' ->
    tpl_like (TSet kw x es b e r) (TSet kw' x' es' b' e' r')
| TlBranch kw kw' es es' b e b' e' r r' : Forall2 noise_like es es' -> tpl_like r r' ->
    tpl_like (TBranch kw es b e r) (TBranch kw' es' b' e' r')
| TlBlock h h' b e b' e' body body' et et' r r' : header_like h h' -> tpl_like body body' -> tag_like et et' -> tpl_like r r' ->
    tpl_like (TBlock h b e body et r) (TBlock h' b' e' body' et' r')
| TlBlockSet kw kw' x x' b e b' e' body body' et et' r r' : word_like x x' -> tpl_like body body' -> tag_like et et' -> tpl_like r r' ->
    tpl_like (TBlockSet kw x b e body et r) (TBlockSet kw' x' b' e' body' et' r').
(** The names used, and the templates referred to. *)
Definition uses_like (ps ps' : list piece) : Prop := Forall2 word_like (map fst (chains ps)) (map fst (chains ps')).
Definition ref_like (r r' : sref) : Prop := moved (fst r) (fst r') /\ snd r' = snd r.
Definition refs_like (sts sts' : list istmt) : Prop := Forall2 ref_like (flat_map refs sts) (flat_map refs sts').

(** The same reports, at the places they have moved to. *)
Definition report_like (r r' : jdiag * identifier) : Prop :=
  fst r' = fst r /\ id_start (snd r') = f (id_start (snd r)) /\ id_end (snd r') = f (id_end (snd r)).
(** The names used in [ps] are known to one server as they are, to the other as
    renamed; the templates referred to are on one disk as on the other. *)
Definition known_alike (vars vars' : smap (list identifier)) (ps : list piece) : Prop :=
  forall u, In u (chains ps) -> (indexed vars (snd (fst u)) <-> indexed vars' (g (snd (fst u)))).
End Alike.
Definition found_alike (F F' : fs) (dir dir' : string) (sts : list istmt) : Prop :=
  forall r, In r (flat_map refs sts) -> missing F dir (snd r) = missing F' dir' (snd r).
