(** * Rope: the text buffer, position arithmetic and edit application.

    [ropey::Rope] 1.6.1 (Cargo.lock) is modelled by the sequence of its
    characters; its documented indexing API is defined on that sequence.  The
    tree structure, chunk sizes and performance are not modelled, except that
    [write_to] may hand out the text in any chunks (see [write_chunks]). *)
From Verif Require Import Base Utf8.

Definition text := list N.

Definition CR : N := 13.
Definition LF : N := 10.

(** Line breaks recognised by ropey with its default feature [unicode_lines]:
    LF, VT, FF, CR, NEL, LS, PS, and CRLF as one break. *)
Definition is_break_char (c : N) : bool :=
  (c =? 10) || (c =? 11) || (c =? 12) || (c =? 13) || (c =? 133) || (c =? 8232) || (c =? 8233).
(** Does [c], followed by [rest], end a line?  A CR before LF does not. *)
Definition ends_line (c : N) (rest : text) : bool :=
  is_break_char c &&
  negb ((c =? CR) && match rest with d :: _ => d =? LF | [] => false end).

Definition bytes_len (t : text) : N := fold_right (fun c n => utf8_len c + n) 0 t.
(** [Rope::len_bytes], [Rope::len_chars]. *)
Definition len_bytes (t : text) : N := bytes_len t.
Definition len_chars (t : text) : N := N.of_nat (length t).

(** Byte offsets at which lines 1, 2, ... start. *)
Fixpoint line_starts_from (off : N) (t : text) : list N :=
  match t with
  | [] => []
  | c :: t' =>
      let off' := off + utf8_len c in
      if ends_line c t' then off' :: line_starts_from off' t' else line_starts_from off' t'
  end.
Definition line_starts (t : text) : list N := 0 :: line_starts_from 0 t.

(** [Rope::len_lines]. *)
Definition len_lines (t : text) : N := N.of_nat (length (line_starts t)).

(** [Rope::line_to_byte]: the start of the line; [len_bytes] for one past the
    last line; panics beyond that. *)
Definition line_to_byte (t : text) (l : N) : res N :=
  match nth_error (line_starts t ++ [len_bytes t]) (N.to_nat l) with
  | Some b => Ok b
  | None => Panic
  end.

(** [Rope::remove] takes a range of CHARACTER indices; panics when reversed or
    out of bounds. *)
Definition rope_remove (t : text) (s e : N) : res text :=
  if (s <=? e) && (e <=? len_chars t)
  then Ok (firstn (N.to_nat s) t ++ skipn (N.to_nat e) t)
  else Panic.

(** [Rope::insert] at a CHARACTER index; panics when out of bounds. *)
Definition rope_insert (t : text) (i : N) (x : text) : res text :=
  if i <=? len_chars t
  then Ok (firstn (N.to_nat i) t ++ x ++ skipn (N.to_nat i) t)
  else Panic.

(** ** FileContent / FileWriter
    jinja-lsp/src/lsp_files.rs:971-1000: [write] appends the buffer if it is
    valid UTF-8 and otherwise drops it silently. *)
Definition file_write (content buf : string) : string :=
  if valid_utf8 buf then (content ++ buf)%string else content.
(** [Rope::write_to]: one [write_all] per chunk. *)
Definition write_chunks (chunks : list text) : string :=
  fold_left (fun acc ch => file_write acc (encode ch)) chunks EmptyString.
(** The content used by the analyses (lsp_files.rs:183-184, 209-211, ...).  The
    single-chunk instance; [Properties] shows that the chunking is irrelevant. *)
Definition rope_content (t : text) : string := write_chunks [t].

(** ** jinja-lsp-queries/src/to_input_edit.rs *)

(** [InputEdit] of tree-sitter. *)
Record input_edit := mkie {
  start_byte : N; old_end_byte : N; new_end_byte : N;
  start_position : point; old_end_position : point; new_end_position : point }.

(** to_input_edit.rs:15-17 [to_point]. *)
Definition rope_to_point (p : position) : point := mkpt (line p) (character p).

(** to_input_edit.rs:19-22 [to_byte]: the LSP column is added to a byte offset. *)
Definition to_byte (t : text) (p : position) : res N :=
  l <- line_to_byte t (line p);; Ok (l + character p).

(** to_input_edit.rs:34-41: the loop, with fuel (running out of fuel is
    excluded by [to_position_total]). *)
Fixpoint bsearch (fuel : nat) (t : text) (offset low high : N) : res N :=
  if low <? high then
    match fuel with
    | O => Panic
    | S k =>
        let mid := low + (high - low) / 2 in
        b <- line_to_byte t mid;;
        if offset <? b then bsearch k t offset low mid
        else bsearch k t offset (mid + 1) high
    end
  else Ok low.

(** to_input_edit.rs:24-45 [to_position].  [low - 1] cannot underflow
    ([to_position_total]). *)
Definition to_position (t : text) (offset0 : N) : res position :=
  let offset := N.min offset0 (len_bytes t) in
  let high := len_lines t in
  if high =? 0 then Ok (mkpos 0 (as_u32 offset))
  else
    low <- bsearch (N.to_nat high) t offset 0 high;;
    ln <- usize_sub Debug low 1;;
    b <- line_to_byte t ln;;
    ch <- usize_sub Debug offset b;;
    Ok (mkpos (as_u32 ln) (as_u32 ch)).

(** to_input_edit.rs:47-69 [to_input_edit]. *)
Definition to_input_edit (t : text) (r : range) (x : text) : res input_edit :=
  start_b <- to_byte t (rstart r);;
  let new_end_b := start_b + bytes_len x in
  new_end_pos <- to_position t new_end_b;;
  old_end_b <- to_byte t (rend r);;
  Ok (mkie start_b old_end_b new_end_b
        (rope_to_point (rstart r)) (rope_to_point (rend r)) (rope_to_point new_end_pos)).

(** One iteration of the loop in [did_change] (lsp_files.rs:172-185) for a
    change that carries a range: the new text and the edit description. *)
Definition apply_change (t : text) (r : range) (x : text) : res (text * input_edit) :=
  ie <- to_input_edit t r x;;
  s <- to_byte t (rstart r);;
  e <- to_byte t (rend r);;
  t1 <- (if s <=? e then rope_remove t s e else rope_remove t e s);;
  t2 <- (match x with [] => Ok t1 | _ => rope_insert t1 s x end);;
  Ok (t2, ie).
