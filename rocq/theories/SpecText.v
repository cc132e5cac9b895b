(** * SpecText: what the LSP specification says about text and edits.

    Written from the LSP 3.17 specification and the Unicode standard only; it
    uses the types [text], [position], [range], [change] of the model but none
    of its functions. *)
From Verif Require Import Base Utf8 Rope MLspFiles.

(** ** LSP documents
    End-of-line sequences are LF, CRLF and CR.  A document is split into lines
    (body, end-of-line sequence); the last line has an empty terminator. *)
Fixpoint lsp_lines (t : text) : list (text * text) :=
  match t with
  | [] => [([], [])]
  | c :: r =>
      if c =? 10 then ([], [10]) :: lsp_lines r
      else if c =? 13 then
        match r with
        | d :: r' => if d =? 10 then ([], [13; 10]) :: lsp_lines r' else ([], [13]) :: lsp_lines r
        | [] => ([], [13]) :: lsp_lines r
        end
      else match lsp_lines r with
           | (b, e) :: ls => (c :: b, e) :: ls
           | [] => []
           end
  end.

(** Characters of a list of lines. *)
Definition lines_text (ls : list (text * text)) : text := flat_map (fun l => fst l ++ snd l) ls.

(** Width of a text in UTF-16 code units. *)
Definition utf16_width (t : text) : N := fold_right (fun c n => utf16_len c + n) 0 t.

(** [index_of t p i]: position [p] (line, UTF-16 column) denotes the gap before
    the [i]-th character of [t]. *)
Definition index_of (t : text) (p : position) (i : nat) : Prop :=
  exists body eol k,
    nth_error (lsp_lines t) (N.to_nat (line p)) = Some (body, eol) /\
    (k <= length body)%nat /\
    utf16_width (firstn k body) = character p /\
    i = (length (lines_text (firstn (N.to_nat (line p)) (lsp_lines t))) + k)%nat.

(** The edit: the characters between the two positions are replaced. *)
Definition lsp_edit (t : text) (r : range) (x t' : text) : Prop :=
  exists s e, index_of t (rstart r) s /\ index_of t (rend r) e /\ (s <= e)%nat /\
              t' = firstn s t ++ x ++ skipn e t.

(** One content change: with a range an edit, without a range a replacement of
    the whole document. *)
Definition lsp_change (t : text) (c : change) (t' : text) : Prop :=
  match ch_range c with
  | Some r => lsp_edit t r (ch_text c) t'
  | None => t' = ch_text c
  end.

(** The changes of one notification, in order; then a list of notifications. *)
Inductive lsp_changes : text -> list change -> text -> Prop :=
| lsp_nil t : lsp_changes t [] t
| lsp_cons t c t1 cs t2 : lsp_change t c t1 -> lsp_changes t1 cs t2 -> lsp_changes t (c :: cs) t2.
Inductive lsp_session : text -> list (list change) -> text -> Prop :=
| sess_nil t : lsp_session t [] t
| sess_cons t cs t1 ns t2 :
    lsp_changes t cs t1 -> lsp_session t1 ns t2 -> lsp_session t (cs :: ns) t2.

(** ASCII without vertical tab and form feed. *)
Definition plain (c : N) : Prop := c < 128 /\ c <> 11 /\ c <> 12.
Definition plain_text (t : text) : Prop := Forall plain t.
Definition plain_change (c : change) : Prop := plain_text (ch_text c).
Definition ranged (c : change) : Prop := ch_range c <> None.

(** ** Ropey lines
    [line_prefix l t]: the text before line [l], when there is such a line. *)
Definition ropey_break (c : N) (next : option N) : bool :=
  match c with
  | 10 | 11 | 12 | 133 | 8232 | 8233 => true
  | 13 => match next with Some 10 => false | _ => true end
  | _ => false
  end.
Fixpoint line_prefix (l : nat) (t : text) : option text :=
  match l with
  | O => Some []
  | S l' =>
      match t with
      | [] => None
      | c :: r =>
          match line_prefix (if ropey_break c (hd_error r) then l' else l) r with
          | Some p => Some (c :: p)
          | None => None
          end
      end
  end.
(** UTF-8 size of a text. *)
Definition utf8_size (t : text) : N := N.of_nat (length (encode_bytes t)).

(** The session as the server sees it: every notification goes through
    [did_change] with some fresh timer identity. *)
Fixpoint server_session {T} (uri : string) (tid : N) (ns : list (list change)) (s : lsp_files T)
  : res (lsp_files T) :=
  match ns with
  | [] => Ok s
  | cs :: rest =>
      match did_change tid uri cs s with
      | Panic => Panic
      | Ok (s', _) => server_session uri (tid + 1) rest s'
      end
  end.

(** Byte offset at which ropey's line [l] starts; one line past the last one is
    the end of the text. *)
Definition line_offset (t : text) (l : nat) : option N :=
  match line_prefix l t with
  | Some p => Some (utf8_size p)
  | None => match line_prefix (pred l) t with Some _ => Some (utf8_size t) | None => None end
  end.
(** Which single ranged changes crash the server. *)
Definition edit_crashes (t : text) (r : range) (x : text) : Prop :=
  match line_offset t (N.to_nat (line (rstart r))), line_offset t (N.to_nat (line (rend r))) with
  | Some a, Some b =>
      let s := a + character (rstart r) in
      let e := b + character (rend r) in
      let len := N.of_nat (length t) in
      len < s \/ len < e \/ (e < s /\ x <> [] /\ len < s + (s - e))
  | _, _ => True
  end.

(** ** tree-sitter's view of an edit
    Rows are separated by LF only; columns count bytes. *)
Fixpoint ts_point_from (p : point) (pre : text) : point :=
  match pre with
  | [] => p
  | c :: r => ts_point_from (if c =? 10 then mkpt (row p + 1) 0 else mkpt (row p) (col p + utf8_len c)) r
  end.
Definition ts_point (pre : text) : point := ts_point_from (mkpt 0 0) pre.

(** The byte part and the point part of a truthful edit description, for the
    replacement of [old] by [new] between [a] and [z]. *)
Definition bytes_truthful (a old new : text) (ie : input_edit) : Prop :=
  start_byte ie = utf8_size a /\ old_end_byte ie = utf8_size (a ++ old) /\
  new_end_byte ie = utf8_size (a ++ new).
Definition old_points_truthful (a old : text) (ie : input_edit) : Prop :=
  start_position ie = ts_point a /\ old_end_position ie = ts_point (a ++ old).
Definition new_point_truthful (a new : text) (ie : input_edit) : Prop :=
  new_end_position ie = ts_point (a ++ new).

Definition no_eol (t : text) : Prop := Forall (fun c => c <> 10 /\ c <> 13) t.
(** Every CR is followed by LF. *)
Fixpoint no_lone_cr (t : text) : Prop :=
  match t with
  | [] => True
  | c :: r => (c = 13 -> hd_error r = Some 10) /\ no_lone_cr r
  end.

(** ** Where the server's index of a position is the right one (C02) *)

(** The text of the lines before position [p]. *)
Definition text_above (t : text) (p : position) : text :=
  lines_text (firstn (N.to_nat (line p)) (lsp_lines t)).
(** Characters that end a line for ropey but not for LSP. *)
Definition odd_break (c : N) : Prop := In c [11; 12; 133; 8232; 8233].
(** The lines above are ASCII, and the characters before the position on its
    own line are in the basic plane ([i] is the index of the position). *)
Definition easy (t : text) (p : position) (i : nat) : Prop :=
  Forall (fun c => c < 128) (text_above t p) /\
  Forall (fun c => c < 65536) (skipn (length (text_above t p)) (firstn i t)).
Definition easy_edit (t : text) (r : range) (x t' : text) : Prop :=
  exists s e, index_of t (rstart r) s /\ index_of t (rend r) e /\ (s <= e)%nat /\
    t' = firstn s t ++ x ++ skipn e t /\
    (forall c, In c (text_above t (rstart r) ++ text_above t (rend r)) -> ~ odd_break c) /\
    easy t (rstart r) s /\ easy t (rend r) e.
(** Sessions of such edits. *)
Inductive easy_changes : text -> list change -> text -> Prop :=
| easy_nil t : easy_changes t [] t
| easy_cons t r x t1 cs t2 : easy_edit t r x t1 -> easy_changes t1 cs t2 ->
    easy_changes t (mkchange (Some r) x :: cs) t2.
Inductive easy_session : text -> list (list change) -> text -> Prop :=
| esess_nil t : easy_session t [] t
| esess_cons t cs t1 ns t2 :
    easy_changes t cs t1 -> easy_session t1 ns t2 -> easy_session t (cs :: ns) t2.

(** ** Where the edit description is right as well (C04) *)
(** The characters between the start of the line and the position are ASCII. *)
Definition ascii_on_line (t : text) (p : position) (i : nat) : Prop :=
  Forall (fun c => c < 128) (skipn (length (text_above t p)) (firstn i t)).
(** Edits before which everything is ASCII. *)
Definition honest_edit (t : text) (r : range) (x t' : text) : Prop :=
  exists s e, index_of t (rstart r) s /\ index_of t (rend r) e /\ (s <= e)%nat /\
    t' = firstn s t ++ x ++ skipn e t /\
    (forall c, In c (text_above t (rstart r) ++ text_above t (rend r)) -> ~ odd_break c) /\
    Forall (fun c => c < 128) (firstn e t).
Inductive honest_changes : text -> list change -> text -> Prop :=
| honest_nil t : honest_changes t [] t
| honest_cons t r x t1 cs t2 : honest_edit t r x t1 -> honest_changes t1 cs t2 ->
    honest_changes t (mkchange (Some r) x :: cs) t2.
