(** * SpecBackend: what the analysis of backend files should yield. *)
From Verif Require Import Base RString Utf8 Types Captures MTemplates.

(** A capture together with the text it covers. *)
Record bcap := mkbcap { bc_name : cname; bc_node : node; bc_text : string }.
Definition as_capture (c : bcap) : capture := mkcap (bc_name c) (bc_node c).
Definition covers (src : string) (c : bcap) : Prop := utf8_text (bc_node c) src = Ok (Some (bc_text c)).

(** ** Python attribute chains *)

(** A chain is identified by the place where the attribute expressions holding
    its segments start. *)
Definition starts_at (p : point) (c : bcap) : bool :=
  match n_parent (bc_node c) with Some q => (row p =? row q) && (col p =? col q) | None => false end.
Definition is_segment (c : bcap) : bool := match bc_name c with CIdentifier => true | _ => false end.
Definition segments_at (p : point) (cs : list bcap) : list bcap :=
  filter (fun c => is_segment c && starts_at p c) cs.
Definition only_segments_at (p : point) (cs : list bcap) : Prop :=
  forall c, In c cs -> starts_at p c = true -> is_segment c = true.
Definition down (l : N) (p : point) : point := mkpt (row p + l) (col p).
(** The identifier of the chain at [p], if there is one. *)
Definition is_chain (l : N) (p : point) (cs : list bcap) (i : pyid) : Prop :=
  exists z front, segments_at p cs = front ++ [z] /\
    i = mkpy 0 (down l p) (down l (n_end (bc_node z)))
          (String.concat "." (map bc_text (segments_at p cs))).

(** ** Definitions *)
Fixpoint before_error (cs : list bcap) : list bcap :=
  match cs with
  | [] => []
  | c :: r => match bc_name c with CError => [] | _ => c :: before_error r end
  end.
Definition is_quote (a : ascii) : bool := (N_of_ascii a =? 34) || (N_of_ascii a =? 39).
Definition unquoted (s : string) : string :=
  string_of_list_ascii (filter (fun a => negb (is_quote a)) (list_ascii_of_string s)).
Definition mention (k : identifier_type) (c : bcap) (name : string) : identifier :=
  mkid (n_start (bc_node c)) (n_end (bc_node c)) name (0, pt0) k [].
Definition defined (c : bcap) : list identifier :=
  match bc_name c with
  | CKeyId => [mention BackendVariable c (bc_text c)]
  | CName => [mention BackendVariable c (unquoted (bc_text c))]
  | _ => []
  end.
Definition definitions_in (cs : list bcap) : list identifier := flat_map defined (before_error cs).

(** ** Template references *)
Definition is_loader (c : bcap) : bool :=
  match bc_name c with
  | CMethodName => String.eqb (bc_text c) "render_jinja" || String.eqb (bc_text c) "get_template"
  | _ => false
  end.
Definition is_string (c : bcap) : bool := match bc_name c with CTemplateName => true | _ => false end.
(** A string is a reference when, among the loaders and strings before it, the
    last one is a loader. *)
Definition follows_loader (pre : list bcap) : bool :=
  match rev (filter (fun c => is_loader c || is_string c) pre) with
  | c :: _ => is_loader c
  | [] => false
  end.
Fixpoint references (pre cs : list bcap) : list identifier :=
  match cs with
  | [] => []
  | c :: r =>
      (if is_string c && follows_loader pre then [mention JinjaTemplate c (unquoted (bc_text c))] else [])
        ++ references (pre ++ [c]) r
  end.

(** ** What is written *)
Definition written (src : string) (a z : N) : string := String.substring (N.to_nat a) (N.to_nat (z - a)) src.
(** Segments separated by single dots and nothing else. *)
Fixpoint dotted (src : string) (cs : list bcap) : Prop :=
  match cs with
  | c :: ((d :: _) as r) =>
      n_sb (bc_node d) = n_eb (bc_node c) + 1 /\ written src (n_eb (bc_node c)) (n_eb (bc_node c) + 1) = "."%string /\
      dotted src r
  | _ => True
  end.
(** A string literal with one kind of quote around a content without quotes. *)
Definition literal_of (q : ascii) (s : string) : string := String q (s ++ String q EmptyString).
Definition plain (s : string) : Prop := forall a, In a (list_ascii_of_string s) -> is_quote a = false.
