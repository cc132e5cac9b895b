(** * SpecAccept: what an editor does when a completion item is accepted.

    Written from the LSP 3.17 specification ([CompletionItem], [TextEdit],
    [InsertReplaceEdit]) and, for the names, from the Jinja documentation and the
    list of documentation files in the repository. *)
From Verif Require Import Base RString Utf8 Rope Types Captures MLspFiles MLspTask SpecText.

(** ** Items *)

(** What an item proposes: a label, perhaps a main edit, further edits. *)
Record proposal := mkprop { p_label : string; p_edit : option ctext_edit; p_more : list text_edit }.
Definition proposal_of (i : ritem) : proposal :=
  match i with
  | RDoc n _ => mkprop n None []
  | RItem c => mkprop (ci_label c) (ci_edit c) (match ci_additional c with Some l => l | None => [] end)
  | RSnippet n _ e => mkprop n e []
  end.

(** The main edit.  An insert/replace edit leaves the choice of the range to the
    editor; without an edit the label replaces the word which the editor sees at
    the cursor. *)
Inductive accept_mode := Inserting | Replacing.
Definition main_edit (m : accept_mode) (word : range) (p : proposal) : text_edit :=
  match p_edit p with
  | Some (CEdit e) => e
  | Some (CInsertReplace x ins rep) => mkte (match m with Inserting => ins | Replacing => rep end) x
  | None => mkte word (p_label p)
  end.

(** A column behind the end of the line means the end of the line. *)
Definition denotes (t : text) (p : position) (i : nat) : Prop :=
  index_of t p i \/
  exists body eol, nth_error (lsp_lines t) (N.to_nat (line p)) = Some (body, eol) /\
    utf16_width body < character p /\
    i = (length (lines_text (firstn (N.to_nat (line p)) (lsp_lines t))) + length body)%nat.

(** Two edits that overlap or start at the same place. *)
Definition pos_lt (p q : position) : Prop := line p < line q \/ (line p = line q /\ character p < character q).
Definition collide (a b : range) : Prop :=
  rstart a = rstart b \/ (pos_lt (rstart a) (rstart b) /\ pos_lt (rstart b) (rend a)) \/
  (pos_lt (rstart b) (rstart a) /\ pos_lt (rstart a) (rend b)).

(** All edits refer to the text before acceptance; from left to right, the text
    from the [k]-th character on becomes [t']. *)
Inductive edited (t : text) : nat -> list text_edit -> text -> Prop :=
| edited_nil k : edited t k [] (skipn k t)
| edited_cons k e es s z x t' :
    denotes t (rstart (te_range e)) s -> denotes t (rend (te_range e)) z -> (k <= s)%nat -> (s <= z)%nat ->
    encode x = te_text e -> edited t z es t' ->
    edited t k (e :: es) (firstn (s - k) (skipn k t) ++ x ++ t').

(** Accepting a proposal turns [t] into [t']. *)
Definition accepted (m : accept_mode) (word : range) (t : text) (p : proposal) (t' : text) : Prop :=
  Forall (fun e => ~ collide (te_range (main_edit m word p)) (te_range e)) (p_more p) /\
  exists es, Permutation es (main_edit m word p :: p_more p) /\ edited t 0 es t'.

(** ** Snippets *)

(** Label, keyword, keyword of the end tag. *)
Definition snippet_kinds : list (string * string * option string) :=
  [("for1", "for", Some "endfor"); ("for2", "for", Some "endfor"); ("with", "with", Some "endwith");
   ("set1", "set", None); ("set2", "set", Some "endset"); ("include", "include", None);
   ("from", "from", None); ("import", "import", None); ("extends", "extends", None);
   ("if1", "if", Some "endif"); ("if2", "if", Some "endif")]%string.
Definition white (a : ascii) : Prop := a = " "%char \/ a = "010"%char.
Definition blank (s : string) : Prop := Forall white (list_ascii_of_string s).
(** [x], written behind an opening bracket, is the statement [kw] with its end
    tag and white space. *)
Definition statement (kw : string) (close : option string) (x : string) : Prop :=
  exists head mid tail, blank tail /\
    x = (" " ++ kw ++ " " ++ head ++ " %}" ++ mid ++ tail)%string /\
    match close with
    | Some e => exists inner, mid = (inner ++ "{% " ++ e ++ " %}")%string
    | None => mid = EmptyString
    end.
(** A placeholder of the snippet syntax. *)
Definition placeholder (x : string) : Prop := exists a z, x = (a ++ "$" ++ z)%string.

(** The cursor is at the [i]-th character, with [c] behind it on its line
    ([None]: at the end of the line). *)
Definition cursor_at (t : text) (p : position) (i : nat) (c : option N) : Prop :=
  exists body eol k,
    nth_error (lsp_lines t) (N.to_nat (line p)) = Some (body, eol) /\
    (k <= length body)%nat /\ utf16_width (firstn k body) = character p /\
    i = (length (lines_text (firstn (N.to_nat (line p)) (lsp_lines t))) + k)%nat /\
    nth_error body k = c.

(** ** Documented names *)

(** jinja-lsp/src/filter/md/filters/*.md and jinja-lsp/src/template_tests/md/is_*.md. *)
Definition filter_docs : list string :=
  ["abs"; "attr"; "batch"; "bool"; "capitalize"; "default"; "dictsort"; "escape"; "first"; "float";
   "indent"; "int"; "items"; "join"; "last"; "length"; "list"; "lower"; "map"; "max"; "min"; "pprint";
   "reject"; "rejectattr"; "replace"; "reverse"; "round"; "safe"; "select"; "selectattr"; "slice"; "sort";
   "title"; "tojson"; "trim"; "unique"; "upper"; "urlencode"]%string.
(** jinja-lsp/src/filter/md/filters/contrib/*.md. *)
Definition contrib_docs : list string := ["dateformat"; "datetimeformat"; "pluralize"; "timeformat"]%string.
Definition test_docs : list string :=
  ["boolean"; "defined"; "divisibleby"; "endingwith"; "eq"; "even"; "false"; "filter"; "float"; "ge"; "gt";
   "in"; "integer"; "iterable"; "le"; "lower"; "lt"; "mapping"; "ne"; "none"; "number"; "odd"; "safe";
   "sameas"; "sequence"; "startingwith"; "string"; "test"; "true"; "undefined"; "upper"]%string.
(** The filters and tests built into Jinja 3.1. *)
Definition jinja_filters : list string :=
  ["abs"; "attr"; "batch"; "capitalize"; "center"; "count"; "d"; "default"; "dictsort"; "e"; "escape";
   "filesizeformat"; "first"; "float"; "forceescape"; "format"; "groupby"; "indent"; "int"; "items"; "join";
   "last"; "length"; "list"; "lower"; "map"; "max"; "min"; "pprint"; "random"; "reject"; "rejectattr";
   "replace"; "reverse"; "round"; "safe"; "select"; "selectattr"; "slice"; "sort"; "string"; "striptags";
   "sum"; "title"; "tojson"; "trim"; "truncate"; "unique"; "upper"; "urlencode"; "urlize"; "wordcount";
   "wordwrap"; "xmlattr"]%string.
Definition jinja_tests : list string :=
  ["boolean"; "callable"; "defined"; "divisibleby"; "eq"; "equalto"; "escaped"; "even"; "false"; "filter";
   "float"; "ge"; "greaterthan"; "gt"; "in"; "integer"; "iterable"; "le"; "lessthan"; "lower"; "lt";
   "mapping"; "ne"; "none"; "number"; "odd"; "sameas"; "sequence"; "string"; "test"; "true"; "undefined";
   "upper"]%string.
