(** * Base: outcomes, machine integers, points, hash maps, list helpers.

    Shared vocabulary of the model.  Nothing in this file is specific to one
    source file except where a citation says so. *)
From Coq Require Export String Ascii List Bool PeanoNat NArith Lia Permutation.
From Coq Require Export ZifyBool ZifyNat ZifyN.
Export ListNotations.
Open Scope N_scope.
Open Scope bool_scope.
Open Scope list_scope.

(** ** Outcomes
    A Rust computation either returns or panics (index out of bounds, [unwrap]
    on [None]/[Err], arithmetic overflow in a build with overflow checks). *)
Inductive res (A : Type) : Type :=
| Ok (a : A)
| Panic.
Arguments Ok {A} a.
Arguments Panic {A}.

Definition bind {A B} (m : res A) (k : A -> res B) : res B :=
  match m with Ok a => k a | Panic => Panic end.
Notation "x <- e ;; k" := (bind e (fun x => k))
  (at level 100, e at next level, right associativity).

(** The two cargo profiles: [dev] has overflow checks on, [release] has them
    off (Cargo.toml:9-14 sets neither, so the defaults apply). *)
Inductive build := Debug | Release.

Definition two32 : N := 4294967296.
Definition two64 : N := 18446744073709551616.

(** [x as u32] for a [usize] (truncation). *)
Definition as_u32 (x : N) : N := x mod two32.

(** [usize] subtraction. *)
Definition usize_sub (b : build) (x y : N) : res N :=
  if y <=? x then Ok (x - y)
  else match b with Debug => Panic | Release => Ok (x + two64 - y) end.

(** [u32] subtraction and addition. *)
Definition u32_sub (b : build) (x y : N) : res N :=
  if y <=? x then Ok (x - y)
  else match b with Debug => Panic | Release => Ok (x + two32 - y) end.
Definition u32_add (b : build) (x y : N) : res N :=
  if x + y <? two32 then Ok (x + y)
  else match b with Debug => Panic | Release => Ok ((x + y) mod two32) end.

(** ** Points
    [tree_sitter::Point] (row, column; columns count bytes).  The derived [Ord]
    is lexicographic. *)
Record point := mkpt { row : N; col : N }.
Definition pt0 : point := mkpt 0 0.

Definition pt_eqb (a b : point) : bool := (row a =? row b) && (col a =? col b).
Definition pt_leb (a b : point) : bool :=
  (row a <? row b) || ((row a =? row b) && (col a <=? col b)).
Definition pt_ltb (a b : point) : bool :=
  (row a <? row b) || ((row a =? row b) && (col a <? col b)).

(** Propositional order used in specifications. *)
Definition pt_le (a b : point) : Prop :=
  row a < row b \/ (row a = row b /\ col a <= col b).
Definition pt_lt (a b : point) : Prop :=
  row a < row b \/ (row a = row b /\ col a < col b).

(** [lsp_types::Position] (line, character), both [u32]. *)
Record position := mkpos { line : N; character : N }.
Record range := mkrange { rstart : position; rend : position }.
Definition pos0 : position := mkpos 0 0.
Definition range0 : range := mkrange pos0 pos0.

(** jinja-lsp-queries/src/to_input_edit.rs:72-74 [to_position2]. *)
Definition to_position2 (p : point) : position :=
  mkpos (as_u32 (row p)) (as_u32 (col p)).

(** jinja-lsp-queries/src/search/mod.rs:76-80 [to_range]. *)
Definition to_range (ps : point * point) : range :=
  mkrange (to_position2 (fst ps)) (to_position2 (snd ps)).

(** jinja-lsp-queries/src/search/mod.rs:82-84 [to_point] (widening casts). *)
Definition to_point (p : position) : point := mkpt (line p) (character p).

(** jinja-lsp-queries/src/search/mod.rs:86-90 [to_range2]. *)
Definition to_range2 (r : range) (p : point) : bool :=
  pt_leb (to_point (rstart r)) p && pt_leb p (to_point (rend r)).

(** ** Hash maps
    [std::collections::HashMap] is modelled by an association list; the order
    of the list stands for the (unspecified) iteration order.  Theorems about
    functions that iterate over a map are stated so that they do not depend on
    that order, or quantify over it.  [hm_get] finds the first binding,
    [hm_insert] replaces in place or appends, [hm_remove] drops every
    binding. *)
Section HMap.
  Context {K V : Type} (eqb : K -> K -> bool).
  Definition hmap_of := list (K * V).
  Fixpoint hm_get (k : K) (m : list (K * V)) : option V :=
    match m with
    | [] => None
    | (k', v) :: m' => if eqb k k' then Some v else hm_get k m'
    end.
  Fixpoint hm_insert (k : K) (v : V) (m : list (K * V)) : list (K * V) :=
    match m with
    | [] => [(k, v)]
    | (k', v') :: m' => if eqb k k' then (k, v) :: m' else (k', v') :: hm_insert k v m'
    end.
  Definition hm_remove (k : K) (m : list (K * V)) : list (K * V) :=
    filter (fun kv => negb (eqb k (fst kv))) m.
End HMap.

Definition smap (V : Type) := list (string * V).
Definition sget {V} (k : string) (m : smap V) : option V := hm_get String.eqb k m.
Definition sinsert {V} (k : string) (v : V) (m : smap V) : smap V := hm_insert String.eqb k v m.
Definition sremove {V} (k : string) (m : smap V) : smap V := hm_remove String.eqb k m.
Definition nget {V} (k : N) (m : list (N * V)) : option V := hm_get N.eqb k m.
Definition ninsert {V} (k : N) (v : V) (m : list (N * V)) := hm_insert N.eqb k v m.

(** ** List helpers: [Vec::last], mutation through [last_mut], [Vec::pop]. *)
Fixpoint last_opt {A} (l : list A) : option A :=
  match l with
  | [] => None
  | [x] => Some x
  | _ :: l' => last_opt l'
  end.
Fixpoint update_last {A} (f : A -> A) (l : list A) : list A :=
  match l with
  | [] => []
  | [x] => [f x]
  | x :: l' => x :: update_last f l'
  end.
(** In-place mutation of the element at one index ([get_mut]). *)
Fixpoint update_nth {A} (n : nat) (f : A -> A) (l : list A) : list A :=
  match n, l with
  | _, [] => []
  | O, x :: l' => f x :: l'
  | S n', x :: l' => x :: update_nth n' f l'
  end.

(** The driver loop shared by the query modules: feed captures to [check] until
    it asks to stop ([break]) or panics.  The boolean is "continue". *)
Fixpoint run {S C : Type} (check : S -> C -> res (S * bool)) (s : S) (l : list C) : res S :=
  match l with
  | [] => Ok s
  | c :: r =>
      match check s c with
      | Panic => Panic
      | Ok (s', true) => run check s' r
      | Ok (s', false) => Ok s'
      end
  end.

Definition is_none {A} (o : option A) : bool := match o with None => true | Some _ => false end.
Definition is_some {A} (o : option A) : bool := negb (is_none o).
