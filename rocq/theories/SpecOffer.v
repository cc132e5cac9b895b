(** * SpecOffer: the cursor in a partly typed name, on a pipe and behind [is]. *)
From Verif Require Import Base RString Utf8 Rope Types Captures MTemplates MObjects MLspFiles MLspTask MQueries.
From Verif Require Import SpecFiles SpecScope SpecScope2 SpecObjects SpecObjects2 SpecLint SpecNav SpecQueries SpecQueries2 SpecQueries4.

(** No word of [ps] begins at the cursor. *)
Definition none_at (cur : point) (ps : list piece) : Prop :=
  Forall (fun w => n_start (snd w) <> cur) (flat_map piece_nodes ps).
(** A string that does not begin in the middle of a character. *)
Definition at_char (s : string) : Prop :=
  match s with String a _ => N_of_ascii a < 128 \/ 192 <= N_of_ascii a | EmptyString => True end.
(** [typed] is what is written of the name [h] in front of the cursor: the name
    is on one line, not empty, and the cursor is between two characters of it or
    at its end. *)
Record in_name (cur : point) (h : tok) (typed : string) : Prop := mkinname {
  nm_line : n_end (fst h) = mkpt (row (n_start (fst h))) (col (n_start (fst h)) + slen (snd h));
  nm_typed : exists more, snd h = (typed ++ more)%string /\ at_char more;
  nm_some : typed <> EmptyString;
  nm_cursor : cur = mkpt (row (n_start (fst h))) (col (n_start (fst h)) + slen typed) }.
(** The words of a template around a name [h] (with the accesses [fs]) in whose
    letters the cursor is: [n] is the expression the name is in. *)
Record typing (cur : point) (ps : list piece) (n : node) (h : tok) (fs : list access) (ps2 : list piece) (typed : string) : Prop := mktyping {
  ty_words : exists ps1 p2, ps = (ps1 ++ PExpr n :: p2) ++ PChain h fs :: ps2 /\
    Forall (fun p => match p with PExpr _ => False | _ => True end) p2;
  ty_open : pt_le (snd (n_first n)) (n_start (fst h));
  ty_close : pt_lt cur (n_end n);
  ty_name : in_name cur h typed;
  ty_next : none_at cur ps2 }.
(** What is replaced: the name, or more if attributes follow. *)
Definition to_replace (cur : point) (h : tok) (fs : list access) (ps2 : list piece) : range :=
  to_range (n_start (fst h),
            match attr_ahead cur false None (flat_map cap_access fs ++ cap_pieces ps2) with Some e => e | None => n_end (fst h) end).
(** The cursor is on the pipe of the filter between [ps1] and [ps2]: behind its
    first byte, at most at its end, where the name of the filter begins. *)
Definition at_pipe (cur : point) (ps : list piece) : Prop :=
  exists ps1 p name ps2, ps = ps1 ++ PFilter p name :: ps2 /\ pt_lt (n_start (fst p)) cur /\ pt_le cur (n_end (fst p)).
(** The cursor is behind the [is] of a statement, on the same line and in front
    of the next word. *)
Definition behind_is (cur : point) (ps : list piece) : Prop :=
  exists ps1 kw nots name ps2, ps = ps1 ++ PTest kw nots name :: ps2 /\
    pt_le (n_end kw) cur /\ row cur = row (n_end kw) /\
    pt_lt cur (n_start (fst (hd name nots))) /\ outside ps1 cur.
