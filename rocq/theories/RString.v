(** * RString: the [str]/[Path] operations of the Rust standard library used by
    the code, over Coq strings read as sequences of UTF-8 bytes. *)
From Verif Require Import Base.
Local Open Scope string_scope.

(** [str::len] (bytes). *)
Definition slen (s : string) : N := N.of_nat (String.length s).

(** [str::starts_with(&str)]. *)
Definition starts_with (s pat : string) : bool := String.prefix pat s.

(** [str::contains(&str)]. *)
Fixpoint contains (s pat : string) : bool :=
  String.prefix pat s ||
  match s with
  | EmptyString => false
  | String _ s' => contains s' pat
  end.

(** [str::split(char)] for an ASCII separator: always at least one part. *)
Fixpoint split_char (c : ascii) (s : string) : list string :=
  match s with
  | EmptyString => [EmptyString]
  | String a s' =>
      if Ascii.eqb a c then EmptyString :: split_char c s'
      else match split_char c s' with
           | [] => [String a EmptyString]
           | p :: ps => String a p :: ps
           end
  end.

(** [str::split(&str)] for a non-empty separator: leftmost, non-overlapping
    matches.  [skip] counts the bytes of the current match still to drop. *)
Fixpoint split_str_aux (pat s : string) (skip : nat) : list string :=
  match s with
  | EmptyString => [EmptyString]
  | String a s' =>
      match skip with
      | S k => split_str_aux pat s' k
      | O =>
          if String.prefix pat s then
            EmptyString :: split_str_aux pat s' (String.length pat - 1)
          else match split_str_aux pat s' O with
               | [] => [String a EmptyString]
               | p :: ps => String a p :: ps
               end
      end
  end.
(** [str::split(&str)] for the empty separator: an empty part, then every
    character, then an empty part.  Characters are approximated by bytes here
    (exact for ASCII); only reached when the configured template directory
    consists of dots. *)
Fixpoint split_empty_aux (s : string) : list string :=
  match s with
  | EmptyString => [EmptyString]
  | String a s' => String a EmptyString :: split_empty_aux s'
  end.
Definition split_str (s pat : string) : list string :=
  match pat with
  | EmptyString => EmptyString :: split_empty_aux s
  | _ => split_str_aux pat s O
  end.

(** [str::replace] of single (ASCII) characters by nothing. *)
Fixpoint remove_chars (p : ascii -> bool) (s : string) : string :=
  match s with
  | EmptyString => EmptyString
  | String a s' => if p a then remove_chars p s' else String a (remove_chars p s')
  end.
Definition dquote : ascii := "034"%char.
Definition squote : ascii := "039"%char.
Definition dot : ascii := "."%char.
Definition slash : ascii := "/"%char.
(** Removal of both kinds of quotes (the [replace] call over double and single
    quote with an empty replacement, e.g. search/templates.rs:157). *)
Definition strip_quotes (s : string) : string :=
  remove_chars (fun a => Ascii.eqb a dquote || Ascii.eqb a squote) s.
(** Removal of every dot (lsp_files.rs:722). *)
Definition strip_dots (s : string) : string := remove_chars (fun a => Ascii.eqb a dot) s.
(** Removal of the first slash only (the [replacen] call at lsp_files.rs:725). *)
Fixpoint remove_first_slash (s : string) : string :=
  match s with
  | EmptyString => EmptyString
  | String a s' => if Ascii.eqb a slash then s' else String a (remove_first_slash s')
  end.

(** A UTF-8 continuation byte is 0b10xxxxxx. *)
Definition is_cont (a : ascii) : bool :=
  let n := N_of_ascii a in ((128 <=? n) && (n <? 192))%N.
(** [str::is_char_boundary]. *)
Fixpoint is_char_boundary (s : string) (i : nat) : bool :=
  match i, s with
  | O, EmptyString => true
  | O, String a _ => negb (is_cont a)
  | S i', EmptyString => false
  | S i', String _ s' => is_char_boundary s' i'
  end.
(** [s.get(0..n)]: [None] when [n] is past the end or not a boundary.  (For a
    valid UTF-8 string byte 0 is never a continuation byte, so index 0 is a
    boundary here as well.) *)
Definition get_to (s : string) (n : N) : option string :=
  if is_char_boundary s (N.to_nat n) then Some (String.substring 0 (N.to_nat n) s) else None.

(** [slice::contains] over string slices. *)
Definition str_mem (x : string) (l : list string) : bool := existsb (String.eqb x) l.

(** [item.name.split('.').next().unwrap_or(&item.name)]. *)
Definition first_segment (s : string) : string :=
  match split_char dot s with p :: _ => p | [] => s end.

(** ** Paths (Unix). *)

(** [Path::components] keeps the normal segments: empty segments and "." are
    dropped.  A leading "." is kept by Rust as a [CurDir] component; it then is
    the last component only for the path "." itself, whose [file_name] is
    [None], exactly as if it had been dropped. *)
Definition path_segments (p : string) : list string :=
  filter (fun s => negb (String.eqb s "") && negb (String.eqb s ".")) (split_char slash p).

(** [Path::file_name]. *)
Definition file_name (p : string) : option string :=
  match last_opt (path_segments p) with
  | Some s => if String.eqb s ".." then None else Some s
  | None => None
  end.

(** The part after the last dot, with what precedes it ([rsplitn(2, '.')]). *)
Fixpoint rsplit_dot (s : string) : option (string * string) :=
  match s with
  | EmptyString => None
  | String a s' =>
      match rsplit_dot s' with
      | Some (b, e) => Some (String a b, e)
      | None => if Ascii.eqb a dot then Some (EmptyString, s') else None
      end
  end.

(** [Path::extension]: [None] without a dot or when the only dot is leading. *)
Definition path_extension (p : string) : option string :=
  match file_name p with
  | None => None
  | Some f =>
      match rsplit_dot f with
      | None => None
      | Some (b, e) => if String.eqb b "" then None else Some e
      end
  end.

Definition is_absolute (p : string) : bool := starts_with p "/".
Fixpoint ends_with_slash (p : string) : bool :=
  match p with
  | EmptyString => false
  | String a EmptyString => Ascii.eqb a slash
  | String _ p' => ends_with_slash p'
  end.

(** [PathBuf::push]: an absolute argument replaces the path; otherwise a
    separator is added when the path is non-empty and does not end in one. *)
Definition path_push (p x : string) : string :=
  if is_absolute x then x
  else if String.eqb p "" then x
  else if ends_with_slash p then p ++ x
  else p ++ "/" ++ x.

(** jinja-lsp-queries/src/lsp_helper.rs:149-151 [path_items]:
    [template.split('/').collect::<PathBuf>()], i.e. push each part in turn. *)
Definition path_items (template : string) : string :=
  fold_left path_push (split_char slash template) "".
