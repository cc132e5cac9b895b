(** * SpecObjects2: expressions of every shape, word by word.

    Unlike the pieces of SpecObjects, words do not presuppose that an attribute
    follows a name or that [is] is followed by the name of a test: attributes of
    built-in names, of calls and of subscripts, and tests such as [is true], are
    words too. *)
From Verif Require Import Base RString Utf8 Types Captures MObjects SpecScope SpecObjects.

Inductive word :=
| WExpr (n : node)               (* an expression begins *)
| WName (t : tok)                (* a name, built in or not *)
| WAttr (a : access)             (* .name, of whatever *)
| WFilter (p : tok) (name : tok) (* | name *)
| WIs (kw : node)                (* is *)
| WOp (t : tok).                 (* any other operator *)

Definition cap_word (w : word) : list capture :=
  match w with
  | WExpr n => [cap CExpr n]
  | WName t => [cap CJustId (fst t)]
  | WAttr a => cap_access a
  | WFilter p name => [cap CPipe (fst p); cap CJustId (fst name)]
  | WIs kw => [cap CIs kw]
  | WOp t => [cap CPipe (fst t)]
  end.
Definition cap_words (ws : list word) : list capture := flat_map cap_word ws.
Definition word_ok (src : string) (w : word) : Prop :=
  match w with
  | WExpr _ | WIs _ => True
  | WName t => reads src t
  | WAttr a => access_ok src a
  | WFilter p name =>
      reads src p /\ (exists r, snd p = ("|" ++ r)%string) /\ n_end (fst p) = n_start (fst name) /\
      reads src name
  | WOp t => reads src t /\ ~ (exists r, snd t = ("|" ++ r)%string) /\ snd t <> "."%string
  end.
Definition word_marks (w : word) : list mark :=
  match w with
  | WExpr n => [MExpr n]
  | WName t | WOp t => [MTok (fst t)]
  | WAttr a => marks_access a
  | WFilter p name => [MTok (fst p); MTok (fst name)]
  | WIs kw => [MTok kw]
  end.
Definition words_ok (src : string) (ws : list word) : Prop :=
  Forall (word_ok src) ws /\ exists p0, pt_lt pt0 p0 /\ ordered p0 (flat_map word_marks ws).

(** ** What is recorded *)
Definition builtin_name (s : string) : bool :=
  existsb (String.eqb s) ["loop"; "true"; "false"; "not"; "as"; "module"; "super"; "url_for"]%string.
(** Names and filters are uses unless built in. *)
Definition use_of (w : word) : option (tok * bool) :=
  match w with
  | WName t => if builtin_name (snd t) then None else Some (t, false)
  | WFilter _ t => if builtin_name (snd t) then None else Some (t, true)
  | _ => None
  end.
(** So are attributes that no use precedes. *)
Definition first_use_of (w : word) : option (tok * bool) :=
  match w with
  | WAttr a => if builtin_name (snd (a_name a)) then None else Some (a_name a, false)
  | _ => use_of w
  end.
(** The attributes up to the next use. *)
Fixpoint attributes (ws : list word) : list field :=
  match ws with
  | [] => []
  | w :: r =>
      match use_of w, w with
      | Some _, _ => []
      | None, WAttr a => field_of a :: attributes r
      | None, _ => attributes r
      end
  end.
Definition is_word (w : word) : bool := match w with WIs _ => true | _ => false end.
(** A use owns the attributes up to the next one; it is a test if an [is] stands
    between it and the previous one. *)
Fixpoint recorded_from (use : word -> option (tok * bool)) (test : bool) (ws : list word) : list jobject :=
  match ws with
  | [] => []
  | w :: r =>
      match use w with
      | Some (t, filter) =>
          mkobj (snd t) (loc t) filter test (attributes r) false :: recorded_from use_of false r
      | None => recorded_from use (test || is_word w) r
      end
  end.
Definition recorded_uses (ws : list word) : list jobject := recorded_from first_use_of false ws.

(** ** When [is] reaches a name *)
Definition no_use (w : word) : Prop := use_of w = None.
Definition no_attribute (w : word) : Prop := match w with WAttr _ => False | _ => True end.
(** Behind the last [is] of [ws] stands neither a use nor an attribute. *)
Definition is_pending (ws : list word) : Prop :=
  exists a kw z, ws = a ++ WIs kw :: z /\ Forall no_use z /\ Forall no_attribute z.
(** Every [is] of [ws] has a use behind it. *)
Definition no_is_pending (ws : list word) : Prop :=
  exists a z, ws = a ++ z /\ Forall (fun w => is_word w = false) z /\
    (a = [] \/ exists a' u, a = a' ++ [u] /\ use_of u <> None).

(** ** The look-ahead behind the cursor *)
(** With the cursor on a name, the server also reads what follows it.  It skips
    the first token behind the cursor, and comes to the next name or stops
    where an expression begins.  [name_ahead] says that it comes to a name. *)
Fixpoint name_ahead (tp : point) (skipped : bool) (cs : list capture) : bool :=
  match cs with
  | [] => false
  | c :: r =>
      if pt_leb (n_start (c_node c)) tp then name_ahead tp skipped r
      else match c_name c with
           | CExpr => false
           | CJustId => if skipped then true else name_ahead tp true r
           | _ => name_ahead tp true r
           end
  end.
(** On its way it may read an attribute: a dot and, directly behind it, a name.
    [attr_ahead] is where that attribute ends. *)
Fixpoint attr_ahead (tp : point) (skipped : bool) (dot : option point) (cs : list capture) : option point :=
  match cs with
  | [] => None
  | c :: r =>
      let n := c_node c in
      let dot' := match c_name c with CDot => Some (n_end n) | _ => dot end in
      if pt_leb (n_start n) tp then attr_ahead tp skipped dot' r
      else match c_name c with
           | CExpr => None
           | k => if skipped then match k with
                                  | CJustId => match dot with
                                               | Some d => if pt_eqb (n_start n) d then Some (n_end n) else None
                                               | None => None
                                               end
                                  | _ => attr_ahead tp true dot' r
                                  end
                  else attr_ahead tp true dot r
           end
  end.
(** The part of a name that remains when as many bytes are cut off as [more] has;
    the whole name if that is all of it. *)
Definition cut_by (name more p : string) : Prop :=
  (slen name <= slen more /\ p = name) \/
  (p <> EmptyString /\ exists q, name = (p ++ q)%string /\ slen q = slen more).
