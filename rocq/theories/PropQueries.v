(** * PropQueries: properties C103-C109 (from syntax trees to what the user sees).
    Here tree-sitter is [ts_with parse edit]: parsing is any function to syntax
    trees, the queries of search/queries.rs are evaluated. *)
From Verif Require Import Base RString Utf8 Rope Types Captures.
From Verif Require Import MDefinition MObjects MTemplates MSearchErrors MLspFiles MQueries.
From Verif Require Import SpecFiles SpecBackend SpecScope SpecScope2 SpecObjects SpecObjects2 SpecLint SpecQueries SpecQueries2.
From Verif Require Import PQueries2 PQueries5 PQueries6 PQueries7 PropObjects PropLint.

(** ** Trees for the examples *)
Definition nn (i a z : N) : node :=
  mknode i a z (mkpt 0 a) (mkpt 0 z) (mkpt 0 a, mkpt 0 z) (mkpt 0 a, mkpt 0 z) None.
Definition xn (i a z : N) : node :=
  mknode i a z (mkpt 0 a) (mkpt 0 z) (mkpt 0 a, mkpt 0 (a + 2)) (mkpt 0 (z - 2), mkpt 0 z) None.
Definition lf (f k : string) (i a z : N) : string * stree := (f, SN k (nn i a z) []).
Definition on (k : string) (i a z : N) : string * stree := lf "" k i a z.
Definition always (t : stree) : ts := ts_with (fun _ _ _ => Some t) (fun t _ => t).
Definition py_server (T : ts) : lsp_files T := mkls [] [] [] PPython PPython (cfg_dir "t") None true [] [] false false.
Definition wt (i a z : N) (s : string) : tok := (nn i a z, s).

Definition named (k : identifier_type) (a z : N) (s : string) : identifier := mkid (mkpt 0 a) (mkpt 0 z) s (0, pt0) k [].
Definition undefined (a z : N) (s : string) : jdiag * identifier := (Undefined, named UndefinedVariable a z s).
Definition missing (a z : N) (s : string) : jdiag * identifier := (TemplateNotFound, named JinjaTemplate a z s).
Definition ran {T : ts} (r : res (lsp_files T * option (smap errors))) (uri : string) (vs : list identifier) (e : errors) : Prop :=
  match r with Ok (s', Some d) => d = [(uri, e)] /\ sget uri (ls_vars s') = Some vs | _ => False end.
Lemma ran_ok {T : ts} (r : res (lsp_files T * option (smap errors))) uri vs e :
  ran r uri vs e -> exists s', r = Ok (s', Some [(uri, e)]) /\ sget uri (ls_vars s') = Some vs.
Proof. unfold ran. destruct r as [[s' [d|]]|]; try easy. intros [-> H]. now exists s'. Qed.

Ltac whole := apply ascii_characters; [repeat (apply Forall_cons; [vm_compute; reflexivity|]); apply Forall_nil|];
  repeat (apply Forall_cons; [vm_compute; split; discriminate|]); apply Forall_nil.

(** ** C103: from the tree of a template to its diagnostics *)
Theorem C103_parsed :
  forall parse edit src t tp ps sts,
    depicts src t tp ps sts -> parsed (ts_with parse edit) t src tp ps sts.
Proof. exact depicts_parsed. Qed.
Print Assumptions C103_parsed.
Theorem C103_open :
  forall parse edit F b uri t tr tp ps sts (s : lsp_files (ts_with parse edit)),
    file_ext uri = Some Template -> scalars t -> ls_ignore s = false ->
    parse PJinja (encode t) (sget uri (ls_tt s)) = Some tr ->
    depicts (encode t) tr tp ps sts -> straight tp -> plain_headers tp ->
    exists s' e1,
      did_open F b uri t false s =
        Ok (s', Some [(uri, e1 ++ missing_reports F (cf_templates (ls_config s)) sts)]) /\
      reported (introduced (n_end (s_node tr)) tp) (indexed (ls_vars s')) (chains ps) e1 /\
      (forall f vs, f <> uri -> In (f, vs) (ls_vars s') <-> In (f, vs) (ls_vars s)) /\
      option_map (map decl_of_id) (sget uri (ls_vars s')) = Some (introduced (n_end (s_node tr)) tp).
Proof. exact tree_open. Qed.
Print Assumptions C103_open.
Theorem C103_save :
  forall parse edit F b uri t tr tp ps sts (s : lsp_files (ts_with parse edit)),
    file_ext uri = Some Template -> scalars t -> ls_ignore s = false ->
    sget uri (ls_docs s) = Some t -> sget uri (ls_tt s) = Some tr ->
    depicts (encode t) tr tp ps sts -> straight tp -> plain_headers tp ->
    exists s' e1,
      did_save F b uri s =
        Ok (s', Some [(uri, e1 ++ missing_reports F (cf_templates (ls_config s)) sts)]) /\
      reported (introduced (n_end (s_node tr)) tp) (indexed (ls_vars s')) (chains ps) e1 /\
      (forall f vs, f <> uri -> In (f, vs) (ls_vars s') <-> In (f, vs) (ls_vars s)) /\
      option_map (map decl_of_id) (sget uri (ls_vars s')) = Some (introduced (n_end (s_node tr)) tp).
Proof. exact tree_save. Qed.
Print Assumptions C103_save.
(** Templates of any shape, with the extents the analysis counts (C12). *)
Theorem C103_open_any_shape :
  forall parse edit F b uri t tr tp ps sts (s : lsp_files (ts_with parse edit)),
    file_ext uri = Some Template -> scalars t -> ls_ignore s = false ->
    parse PJinja (encode t) (sget uri (ls_tt s)) = Some tr ->
    depicts (encode t) tr tp ps sts -> plain_ends tp ->
    exists s' e1,
      did_open F b uri t false s =
        Ok (s', Some [(uri, e1 ++ missing_reports F (cf_templates (ls_config s)) sts)]) /\
      reported (tallied (n_end (s_node tr)) tp) (indexed (ls_vars s')) (chains ps) e1 /\
      (forall f vs, f <> uri -> In (f, vs) (ls_vars s') <-> In (f, vs) (ls_vars s)) /\
      option_map (map decl_of_id) (sget uri (ls_vars s')) = Some (tallied (n_end (s_node tr)) tp).
Proof. exact tree_open_any. Qed.
Print Assumptions C103_open_any_shape.
Theorem C103_save_any_shape :
  forall parse edit F b uri t tr tp ps sts (s : lsp_files (ts_with parse edit)),
    file_ext uri = Some Template -> scalars t -> ls_ignore s = false ->
    sget uri (ls_docs s) = Some t -> sget uri (ls_tt s) = Some tr ->
    depicts (encode t) tr tp ps sts -> plain_ends tp ->
    exists s' e1,
      did_save F b uri s =
        Ok (s', Some [(uri, e1 ++ missing_reports F (cf_templates (ls_config s)) sts)]) /\
      reported (tallied (n_end (s_node tr)) tp) (indexed (ls_vars s')) (chains ps) e1 /\
      (forall f vs, f <> uri -> In (f, vs) (ls_vars s') <-> In (f, vs) (ls_vars s)) /\
      option_map (map decl_of_id) (sget uri (ls_vars s')) = Some (tallied (n_end (s_node tr)) tp).
Proof. exact tree_save_any. Qed.
Print Assumptions C103_save_any_shape.
Theorem C103_no_false_alarms :
  forall parse edit F b uri t tr tp ps sts (s : lsp_files (ts_with parse edit)),
    file_ext uri = Some Template -> scalars t ->
    parse PJinja (encode t) (sget uri (ls_tt s)) = Some tr ->
    depicts (encode t) tr tp ps sts -> plain_headers tp -> branching tp -> nested (n_end (s_node tr)) tp ->
    exists s' e, did_open F b uri t false s = Ok (s', Some [(uri, e)]) /\
      forall u k, In u (chains ps) ->
        (exists d, In d (introduced (n_end (s_node tr)) tp) /\ means (snd (fst u)) d /\
           pt_le (dc_start d) (n_end (fst (fst u))) /\ pt_lt (n_start (fst (fst u))) (dc_until d)) ->
        ~ In (k, use_id u) e.
Proof. exact tree_no_false_alarm. Qed.
Print Assumptions C103_no_false_alarms.
(** The grammar parses a number as an identifier; it is not taken for a name. *)
Theorem C103_numbers :
  forall parse edit F b uri t tr tp ps sts (s : lsp_files (ts_with parse edit)),
    file_ext uri = Some Template -> scalars t -> ls_ignore s = false ->
    parse PJinja (encode t) (sget uri (ls_tt s)) = Some tr ->
    depicts (encode t) tr tp ps sts -> plain_ends tp ->
    exists s' e, did_open F b uri t false s = Ok (s', Some [(uri, e)]) /\
      forall k i, In (k, i) e -> k <> TemplateNotFound -> ~ number (id_name i).
Proof. exact tree_numbers. Qed.
Print Assumptions C103_numbers.

Definition c103_src : string := "{% extends ""b.html"" %}{% for i in l %}{{ i.a }}{{ 42 }}{% endfor %}{{ i }}".
Definition c103_tree : stree :=
 (SN "source_file" (nn 1 0 74)
  [("", SN "statement" (nn 2 0 22) [on "statement_begin" 3 0 2; on "keyword" 4 3 10; on "string" 5 11 19; on "statement_end" 6 20 22]);
   ("", SN "statement" (nn 7 22 38) [on "statement_begin" 8 22 24; on "keyword" 9 25 28; on "identifier" 10 29 30; on "keyword" 11 31 33; on "identifier" 12 34 35; on "statement_end" 13 36 38]);
   ("", SN "expression" (xn 14 38 47) [on "expression_begin" 15 38 40; on "identifier" 16 41 42; on "operator" 17 42 43; on "identifier" 18 43 44; on "expression_end" 19 45 47]);
   ("", SN "expression" (xn 20 47 55) [on "expression_begin" 21 47 49; on "identifier" 22 50 52; on "expression_end" 23 53 55]);
   ("", SN "statement" (nn 24 55 67) [on "statement_begin" 25 55 57; on "keyword" 26 58 64; on "statement_end" 27 65 67]);
   ("", SN "expression" (xn 28 67 74) [on "expression_begin" 29 67 69; on "identifier" 30 70 71; on "expression_end" 31 72 74])])%string.
Definition c103_tpl : tpl :=
  TOther [] (nn 3 0 2) (nn 6 20 22)
    (TBlock (HFor (nn 9 25 28) (wt 10 29 30 "i") [] [NId (wt 12 34 35 "l")]) (nn 8 22 24) (nn 13 36 38)
      (TExpr [NId (wt 16 41 42 "i"); NId (wt 18 43 44 "a")] (TExpr [] TNil))
      (mkend (nn 26 58 64) [] (nn 25 55 57) (nn 27 65 67))
      (TExpr [NId (wt 30 70 71 "i")] TNil)).
Definition c103_ps : list piece :=
  [PChain (wt 10 29 30 "i") []; PChain (wt 12 34 35 "l") []; PExpr (xn 14 38 47);
   PChain (wt 16 41 42 "i") [mkacc (nn 17 42 43) false (wt 18 43 44 "a")]; PExpr (xn 20 47 55);
   PExpr (xn 28 67 74); PChain (wt 30 70 71 "i") []].
Definition c103_sts : list istmt := [SExtends (nn 2 0 22) (nn 4 3 10) (nn 5 11 19, "b.html"%string)].

Lemma c103_depicts : depicts c103_src c103_tree c103_tpl c103_ps c103_sts.
Proof.
  constructor.
  - unfold root_kind. cbn. intuition discriminate.
  - unfold told_apart. vm_compute. repeat constructor; cbn; intuition discriminate.
  - vm_compute. repeat constructor; discriminate.
  - vm_compute. repeat constructor; discriminate.
  - cbn. repeat split; try discriminate; repeat constructor; try discriminate.
  - apply told_of. vm_compute. reflexivity.
  - split; [repeat (apply Forall_cons; [piece_okay|]); apply Forall_nil|exists (mkpt 0 1); split; [right; cbn; lia|]; vm_compute; intuition discriminate].
  - repeat constructor.
  - exact (spoken_of c103_src (preorder c103_tree)).
  - constructor; [quoted_ref|constructor].
  - cbn [c103_tree s_children map snd].
    refine (LdStmt c103_src (nn 2 0 22) (nn 3 0 2) [on "keyword" 4 3 10; on "string" 5 11 19] (nn 6 20 22) "" "" _ (Some _) [] _ _ _); [now apply innerb_ok|..].
    + refine (LkExtends c103_src _ [] "" (nn 4 3 10) [] [on "string" 5 11 19] (nn 5 11 19, "b.html"%string) _ _ _ _); [constructor|constructor|reflexivity|reflexivity].
    + refine (LdStmt c103_src (nn 7 22 38) (nn 8 22 24) [on "keyword" 9 25 28; on "identifier" 10 29 30; on "keyword" 11 31 33; on "identifier" 12 34 35] (nn 13 36 38) "" "" _ None [] _ _ _);
        [now apply innerb_ok|apply LkNone; vm_compute; repeat constructor; intuition discriminate|].
      do 2 (apply LdOther; [now apply innerb_ok|]).
      refine (LdStmt c103_src (nn 24 55 67) (nn 25 55 57) [on "keyword" 26 58 64] (nn 27 65 67) "" "" _ None [] _ _ _);
        [now apply innerb_ok|apply LkNone; vm_compute; repeat constructor; intuition discriminate|].
      apply LdOther; [now apply innerb_ok|constructor].
Qed.
Example C103_example :
  file_ext a_html = Some Template /\ scalars (ascii_text c103_src) /\ encode (ascii_text c103_src) = c103_src /\
  depicts c103_src c103_tree c103_tpl c103_ps c103_sts /\ straight c103_tpl /\ plain_headers c103_tpl /\ plain_ends c103_tpl /\ branching c103_tpl /\ nested (mkpt 0 74) c103_tpl /\
  text_of c103_src (nn 22 50 52) = "42"%string /\ number "42" /\
  match did_open (fs_with []) Debug a_html (ascii_text c103_src) false (server (always c103_tree) "templates" [(b_html, [var "l" 3 4])]) with
  | Ok (_, Some d) =>
      d = [(a_html, [(DefinedSomewhere, use_id (wt 12 34 35 "l", [])); (Undefined, use_id (wt 30 70 71 "i", []));
                     (TemplateNotFound, ref_id (nn 5 11 19, "b.html"%string))])]
  | _ => False
  end.
Proof.
  split; [reflexivity|]. split; [repeat constructor|]. split; [reflexivity|]. split; [exact c103_depicts|].
  split; [cbn; repeat split; repeat constructor|]. split; [cbn; auto|]. split; [cbn; repeat split; repeat constructor|]. split; [cbn; repeat split; repeat constructor|].
  split; [cbn; repeat split; unfold pt_le; cbn; lia|]. split; [reflexivity|]. split; [split; [discriminate|repeat (apply Forall_cons; [cbn; tauto|]); apply Forall_nil]|].
  vm_compute. reflexivity.
Qed.

(** ** C104: a block ends at its own end tag *)
(** False: any keyword that begins with [end] ends the innermost block the server
    knows of, and [call] blocks are not among these. *)
Definition c104_src : string := "{% for x in xs %}{% call f() %}{% endcall %}{{ x }}{% endfor %}".
Definition c104_tree : stree :=
 (SN "source_file" (nn 1 0 63)
  [("", SN "statement" (nn 2 0 17) [on "statement_begin" 3 0 2; on "keyword" 4 3 6; on "identifier" 5 7 8; on "keyword" 6 9 11; on "identifier" 7 12 14; on "statement_end" 8 15 17]);
   ("", SN "statement" (nn 9 17 31) [on "statement_begin" 10 17 19; on "keyword" 11 20 24; on "identifier" 12 25 26; on "statement_end" 13 29 31]);
   ("", SN "statement" (nn 14 31 44) [on "statement_begin" 15 31 33; on "keyword" 16 34 41; on "statement_end" 17 42 44]);
   ("", SN "expression" (xn 18 44 51) [on "expression_begin" 19 44 46; on "identifier" 20 47 48; on "expression_end" 21 49 51]);
   ("", SN "statement" (nn 22 51 63) [on "statement_begin" 23 51 53; on "keyword" 24 54 60; on "statement_end" 25 61 63])])%string.
Lemma c104_ran :
  ran (did_open (fs_with []) Debug a_html (ascii_text c104_src) false (server (always c104_tree) "t" [])) a_html
    [mkid (mkpt 0 7) (mkpt 0 8) "x" (4, mkpt 0 31) ForLoopKey []] [undefined 12 14 "xs"; undefined 25 26 "f"; undefined 47 48 "x"].
Proof. vm_compute. split; reflexivity. Qed.
Theorem C104_own_end_tag_refuted :
  exists (F : fs) (b : build) (uri src : string) (tr u : stree) (s s' : lsp_files (always tr)) e,
    file_ext uri = Some Template /\ no_error tr /\ told_apart tr /\ in_loop src tr u /\
    did_open F b uri (ascii_text src) false s = Ok (s', Some [(uri, e)]) /\
    In (Undefined, mkid (n_start (s_node u)) (n_end (s_node u)) (said src u) (0, pt0) UndefinedVariable []) e.
Proof.
  destruct (ran_ok _ _ _ _ c104_ran) as (s' & H & _).
  exists (fs_with []), Debug, a_html, c104_src, c104_tree, (snd (on "identifier" 20 47 48)), (server (always c104_tree) "t" []), s', [undefined 12 14 "xs"; undefined 25 26 "f"; undefined 47 48 "x"].
  split; [reflexivity|]. split; [vm_compute; repeat constructor; discriminate|].
  split; [unfold told_apart; vm_compute; repeat constructor; cbn; intuition discriminate|]. split; [|split; [exact H|right; right; left; reflexivity]].
  eexists [], _, [_; _; _], _, [], _, _. split; [reflexivity|]. split; [split; [reflexivity|]; eexists ""%string, _; split; [right; left; reflexivity|split; reflexivity]|].
  split; [split; [reflexivity|]; eexists ""%string, _; split; [right; left; reflexivity|split; reflexivity]|].
  split; [repeat (apply Forall_cons; [split; intros (? & f & k & Hk & Hkk & Hs); repeat destruct Hk as [Hk|Hk]; try (inversion Hk; subst; discriminate)|]); apply Forall_nil|].
  split; [reflexivity|]. split; [vm_compute; tauto|]. split; reflexivity.
Qed.
Print Assumptions C104_own_end_tag_refuted.

(** ** C105: include with [ignore missing] *)
(** Which references are reported as missing: exactly the missing ones, whatever
    else the statements say. *)
Theorem C105_references :
  forall parse edit F b uri t tr tp ps sts (s : lsp_files (ts_with parse edit)),
    file_ext uri = Some Template -> scalars t -> ls_ignore s = false ->
    parse PJinja (encode t) (sget uri (ls_tt s)) = Some tr ->
    depicts (encode t) tr tp ps sts -> plain_ends tp ->
    exists s' e, did_open F b uri t false s = Ok (s', Some [(uri, e)]) /\
      forall i, In (TemplateNotFound, i) e <->
        exists st r, In st sts /\ In r (refs st) /\ i = ref_id r /\
          (snd r = EmptyString \/ f_canon F (lookup_path (cf_templates (ls_config s)) (snd r)) = CanonNotFound).
Proof. exact tree_references. Qed.
Print Assumptions C105_references.
Definition c105_src : string := "{% include ""x"" ignore missing %}".
Definition c105_tree : stree :=
 (SN "source_file" (nn 1 0 32)
  [("", SN "statement" (nn 2 0 32) [on "statement_begin" 3 0 2; on "keyword" 4 3 10; on "string" 5 11 14; on "keyword" 6 15 21; on "keyword" 7 22 29; on "statement_end" 8 30 32])])%string.
Lemma c105_ran :
  ran (did_open (fs_with []) Debug a_html (ascii_text c105_src) false (server (always c105_tree) "t" [])) a_html
    [] [missing 11 14 "x"].
Proof. vm_compute. split; reflexivity. Qed.
Theorem C105_ignore_missing_refuted :
  exists (F : fs) (b : build) (uri src : string) (tr x : stree) (s s' : lsp_files (always tr)) e i,
    file_ext uri = Some Template /\ no_error tr /\ told_apart tr /\
    map snd (s_children tr) = [x] /\ tag src "include" x /\ says_after src x ["ignore"; "missing"]%string /\
    did_open F b uri (ascii_text src) false s = Ok (s', Some [(uri, e)]) /\ In (TemplateNotFound, i) e.
Proof.
  destruct (ran_ok _ _ _ _ c105_ran) as (s' & H & _).
  eexists (fs_with []), Debug, a_html, c105_src, c105_tree, _, (server (always c105_tree) "t" []), s', _, _.
  split; [reflexivity|]. split; [vm_compute; repeat constructor; discriminate|]. split; [unfold told_apart; vm_compute; repeat constructor; cbn; intuition discriminate|].
  split; [reflexivity|]. split; [split; [reflexivity|]; eexists ""%string, _; split; [right; left; reflexivity|split; reflexivity]|].
  split; [eexists [_; _], _, _, [_; _], _, _; split; [reflexivity|]; split; [reflexivity|]; split; [repeat constructor; discriminate|]; split; reflexivity|].
  split; [exact H|]. left. reflexivity.
Qed.
Print Assumptions C105_ignore_missing_refuted.

(** ** C106: [with context] *)
(** False: the word [with] is taken for the opening of a with block, which
    nothing closes but the end tag of another block.  The two trees differ in
    what the parser makes of [context]. *)
Definition c106_src : string := "{% for i in l %}{% include ""x"" with context %}{% endfor %}{{ i }}".
Definition c106_tree : stree :=
 (SN "source_file" (nn 1 0 65)
  [("", SN "statement" (nn 2 0 16) [on "statement_begin" 3 0 2; on "keyword" 4 3 6; on "identifier" 5 7 8; on "keyword" 6 9 11; on "identifier" 7 12 13; on "statement_end" 8 14 16]);
   ("", SN "statement" (nn 9 16 46) [on "statement_begin" 10 16 18; on "keyword" 11 19 26; on "string" 12 27 30; on "keyword" 13 31 35; on "identifier" 14 36 43; on "statement_end" 15 44 46]);
   ("", SN "statement" (nn 16 46 58) [on "statement_begin" 17 46 48; on "keyword" 18 49 55; on "statement_end" 19 56 58]);
   ("", SN "expression" (xn 20 58 65) [on "expression_begin" 21 58 60; on "identifier" 22 61 62; on "expression_end" 23 63 65])])%string.
Definition c106k_tree : stree :=
 (SN "source_file" (nn 1 0 65)
  [("", SN "statement" (nn 2 0 16) [on "statement_begin" 3 0 2; on "keyword" 4 3 6; on "identifier" 5 7 8; on "keyword" 6 9 11; on "identifier" 7 12 13; on "statement_end" 8 14 16]);
   ("", SN "statement" (nn 9 16 46) [on "statement_begin" 10 16 18; on "keyword" 11 19 26; on "string" 12 27 30; on "keyword" 13 31 35; on "keyword" 14 36 43; on "statement_end" 15 44 46]);
   ("", SN "statement" (nn 16 46 58) [on "statement_begin" 17 46 48; on "keyword" 18 49 55; on "statement_end" 19 56 58]);
   ("", SN "expression" (xn 20 58 65) [on "expression_begin" 21 58 60; on "identifier" 22 61 62; on "expression_end" 23 63 65])])%string.
Definition c106p_src : string := "{% for i in l %}{% include ""x"" %}{% endfor %}{{ i }}".
Definition c106p_tree : stree :=
 (SN "source_file" (nn 1 0 52)
  [("", SN "statement" (nn 2 0 16) [on "statement_begin" 3 0 2; on "keyword" 4 3 6; on "identifier" 5 7 8; on "keyword" 6 9 11; on "identifier" 7 12 13; on "statement_end" 8 14 16]);
   ("", SN "statement" (nn 9 16 33) [on "statement_begin" 10 16 18; on "keyword" 11 19 26; on "string" 12 27 30; on "statement_end" 13 31 33]);
   ("", SN "statement" (nn 14 33 45) [on "statement_begin" 15 33 35; on "keyword" 16 36 42; on "statement_end" 17 43 45]);
   ("", SN "expression" (xn 18 45 52) [on "expression_begin" 19 45 47; on "identifier" 20 48 49; on "expression_end" 21 50 52])])%string.
Definition reports_i (d : option (smap errors)) : Prop :=
  exists e i, d = Some [(a_html, e)] /\ In (Undefined, i) e /\ id_name i = "i"%string.
Lemma c106_ran :
  ran (did_open (fs_with []) Debug a_html (ascii_text c106_src) false (server (always c106_tree) "t" [])) a_html
    [mkid (mkpt 0 7) (mkpt 0 8) "i" (4, mkpt 0 65) ForLoopKey []; mkid (mkpt 0 36) (mkpt 0 43) "context" (13, mkpt 0 46) WithVariable []] [undefined 12 13 "l"; missing 27 30 "x"].
Proof. vm_compute. split; reflexivity. Qed.
Lemma c106k_ran :
  ran (did_open (fs_with []) Debug a_html (ascii_text c106_src) false (server (always c106k_tree) "t" [])) a_html
    [mkid (mkpt 0 7) (mkpt 0 8) "i" (4, mkpt 0 65) ForLoopKey []] [undefined 12 13 "l"; missing 27 30 "x"].
Proof. vm_compute. split; reflexivity. Qed.
Lemma c106p_ran :
  ran (did_open (fs_with []) Debug a_html (ascii_text c106p_src) false (server (always c106p_tree) "t" [])) a_html
    [mkid (mkpt 0 7) (mkpt 0 8) "i" (4, mkpt 0 33) ForLoopKey []] [undefined 12 13 "l"; undefined 48 49 "i"; missing 27 30 "x"].
Proof. vm_compute. split; reflexivity. Qed.
Theorem C106_with_context_refuted :
  exists a z F b s1 s2 s3 d1 d2 d3 (S1 : lsp_files (always c106_tree)) (S2 : lsp_files (always c106k_tree)) (S3 : lsp_files (always c106p_tree)),
    c106_src = (a ++ " with context" ++ z)%string /\ c106p_src = (a ++ z)%string /\
    no_error c106_tree /\ no_error c106k_tree /\ no_error c106p_tree /\
    did_open F b a_html (ascii_text c106_src) false S1 = Ok (s1, d1) /\
    did_open F b a_html (ascii_text c106_src) false S2 = Ok (s2, d2) /\
    did_open F b a_html (ascii_text c106p_src) false S3 = Ok (s3, d3) /\
    reports_i d3 /\ ~ reports_i d1 /\ ~ reports_i d2.
Proof.
  destruct (ran_ok _ _ _ _ c106_ran) as (s1 & H1 & _). destruct (ran_ok _ _ _ _ c106k_ran) as (s2 & H2 & _). destruct (ran_ok _ _ _ _ c106p_ran) as (s3 & H3 & _).
  exists "{% for i in l %}{% include ""x"""%string, " %}{% endfor %}{{ i }}"%string, (fs_with []), Debug, s1, s2, s3.
  do 3 eexists. exists (server (always c106_tree) "t" []), (server (always c106k_tree) "t" []), (server (always c106p_tree) "t" []).
  split; [reflexivity|]. split; [reflexivity|]. do 3 (split; [vm_compute; repeat constructor; discriminate|]).
  split; [exact H1|]. split; [exact H2|]. split; [exact H3|]. split; [|split].
  - do 2 eexists. split; [reflexivity|]. split; [right; left; reflexivity|reflexivity].
  - intros (e & i & E & Hi & Hn). inversion E; subst e. repeat destruct Hi as [Hi|Hi]; try (inversion Hi; subst i; discriminate).
  - intros (e & i & E & Hi & Hn). inversion E; subst e. repeat destruct Hi as [Hi|Hi]; try (inversion Hi; subst i; discriminate).
Qed.
Print Assumptions C106_with_context_refuted.

(** ** C107: names and templates in Rust files *)
Theorem C107_rust_exact :
  forall parse edit F b uri t (s : lsp_files (ts_with parse edit)) tr,
    file_ext uri = Some Backend -> ls_query s <> PPython ->
    parse (ls_parser s) (encode t) (sget uri (ls_bt s)) = Some tr ->
    scalars t -> on_characters t tr -> told_apart tr -> no_error tr ->
    exists s' e, did_open F b uri t false s = Ok (s', Some [(uri, e)]) /\
      backend_known F uri s s' e (encode t) (rust_variable (encode t) tr) (rust_loads (encode t) tr).
Proof. exact rust_file_c. Qed.
Print Assumptions C107_rust_exact.
Theorem C107_rust_complete :
  forall parse edit F b uri t (s : lsp_files (ts_with parse edit)) tr,
    file_ext uri = Some Backend -> ls_query s <> PPython ->
    parse (ls_parser s) (encode t) (sget uri (ls_bt s)) = Some tr ->
    scalars t -> on_characters t tr -> told_apart tr -> no_error tr ->
    exists s' e vs, did_open F b uri t false s = Ok (s', Some [(uri, e)]) /\ sget uri (ls_vars s') = Some vs /\
      forall n, handed_rust (encode t) tr n -> text_of (encode t) n <> "context"%string ->
        exists v, In v vs /\ id_type v = BackendVariable /\ id_start v = n_start n /\ id_end v = n_end n /\
          (id_name v = text_of (encode t) n \/ id_name v = unquoted (text_of (encode t) n)).
Proof. exact rust_complete_c. Qed.
Print Assumptions C107_rust_complete.
Definition c107_src : string := "fn page() { t.render(context! { a => b }); jinja.add_global(""g"", 1); render_jinja(""x.html""); println!(""{}"", user); }".
Definition c107_tree : stree :=
 (snd ("", SN "source_file" (nn 1 0 116) [
 ("", SN "function_item" (nn 2 0 116) [
  lf "name" "identifier" 3 3 7;
  ("body", SN "block" (nn 4 10 116) [
   ("", SN "expression_statement" (nn 5 12 42) [
    ("", SN "call_expression" (nn 6 12 41) [
     ("function", SN "field_expression" (nn 7 12 20) [
      lf "value" "identifier" 8 12 13;
      lf "field" "field_identifier" 9 14 20]);
     ("arguments", SN "arguments" (nn 10 20 41) [
      ("", SN "macro_invocation" (nn 11 21 40) [
       lf "macro" "identifier" 12 21 28;
       ("", SN "token_tree" (nn 13 30 40) [
        lf "" "identifier" 14 32 33;
        lf "" "identifier" 15 37 38])])])])]);
   ("", SN "expression_statement" (nn 16 43 68) [
    ("", SN "call_expression" (nn 17 43 67) [
     ("function", SN "field_expression" (nn 18 43 59) [
      lf "value" "identifier" 19 43 48;
      lf "field" "field_identifier" 20 49 59]);
     ("arguments", SN "arguments" (nn 21 59 67) [
      lf "" "string_literal" 22 60 63;
      lf "" "integer_literal" 23 65 66])])]);
   ("", SN "expression_statement" (nn 24 69 92) [
    ("", SN "call_expression" (nn 25 69 91) [
     lf "function" "identifier" 26 69 81;
     ("arguments", SN "arguments" (nn 27 81 91) [
      lf "" "string_literal" 28 82 90])])]);
   ("", SN "expression_statement" (nn 29 93 114) [
    ("", SN "macro_invocation" (nn 30 93 113) [
     lf "macro" "identifier" 31 93 100;
     ("", SN "token_tree" (nn 32 101 113) [
      lf "" "string_literal" 33 102 106;
      lf "" "identifier" 34 108 112])])])])])]))%string.
Definition a_rs : string := "file:///a.rs".
Example C107_example :
  file_ext a_rs = Some Backend /\ encode (ascii_text c107_src) = c107_src /\ scalars (ascii_text c107_src) /\ on_characters (ascii_text c107_src) c107_tree /\ told_apart c107_tree /\ no_error c107_tree /\
  match did_open (fs_with []) Debug a_rs (ascii_text c107_src) false (server (always c107_tree) "t" []) with
  | Ok (s, Some d) =>
      option_map (map (fun v => (id_type v, id_name v, id_start v))) (sget a_rs (ls_vars s)) =
        Some [(BackendVariable, "a", mkpt 0 32); (BackendVariable, "b", mkpt 0 37); (BackendVariable, "g", mkpt 0 60);
              (BackendVariable, "user", mkpt 0 108); (JinjaTemplate, "x.html", mkpt 0 82)]%string /\
      d = [(a_rs, [(TemplateNotFound, at_node JinjaTemplate (nn 28 82 90) "x.html")])]
  | _ => False
  end.
Proof.
  split; [reflexivity|]. split; [reflexivity|]. split; [repeat constructor|]. split; [whole|].
  split; [unfold told_apart; vm_compute; repeat constructor; cbn; intuition discriminate|]. split; [vm_compute; repeat constructor; discriminate|].
  vm_compute. split; reflexivity.
Qed.
Example C107_example_handed : handed_rust c107_src c107_tree (nn 14 32 33).
Proof.
  left. exists (nth 10 (preorder c107_tree) c107_tree), "macro"%string, (nth 11 (preorder c107_tree) c107_tree), ""%string, (nth 12 (preorder c107_tree) c107_tree),
    (nth 12 (preorder c107_tree) c107_tree), ""%string, (nth 13 (preorder c107_tree) c107_tree).
  split; [apply nth_In; vm_compute; lia|]. split; [reflexivity|]. split; [exists [], [], []; reflexivity|]. split; [reflexivity|]. split; [reflexivity|].
  split; [now left|]. split; [reflexivity|]. split; [now left|]. split; reflexivity.
Qed.
(** Only names handed to templates are remembered: false, every identifier in the
    brackets of any macro is. *)
Definition c107r_src : string := "fn page() { println!(""{}"", user); }".
Definition c107r_tree : stree :=
 (snd ("", SN "source_file" (nn 1 0 35) [
 ("", SN "macro_invocation" (nn 2 12 32) [
  lf "macro" "identifier" 3 12 19;
  ("", SN "token_tree" (nn 4 20 32) [
   lf "" "string_literal" 5 21 25;
   lf "" "identifier" 6 27 31])])]))%string.
Lemma c107r_ran :
  ran (did_open (fs_with []) Debug a_rs (ascii_text c107r_src) false (server (always c107r_tree) "t" [])) a_rs
    [named BackendVariable 27 31 "user"] [].
Proof. vm_compute. split; reflexivity. Qed.
Theorem C107_only_handed_refuted :
  exists F b src tr (s s' : lsp_files (always tr)) d vs v,
    on_characters (ascii_text src) tr /\ told_apart tr /\ no_error tr /\
    did_open F b a_rs (ascii_text src) false s = Ok (s', d) /\ sget a_rs (ls_vars s') = Some vs /\
    In v vs /\ id_type v = BackendVariable /\ id_name v = "user"%string /\ forall n, ~ handed_rust src tr n.
Proof.
  destruct (ran_ok _ _ _ _ c107r_ran) as (s' & H & Hv).
  eexists (fs_with []), Debug, c107r_src, c107r_tree, (server (always c107r_tree) "t" []), s', _, _, _.
  split; [whole|].
  split; [unfold told_apart; vm_compute; repeat constructor; cbn; intuition discriminate|]. split; [vm_compute; repeat constructor; discriminate|].
  split; [exact H|]. split; [exact Hv|]. split; [left; reflexivity|]. split; [reflexivity|]. split; [reflexivity|]. clear H Hv.
  intros n [(m & f1 & name & f2 & t2 & inr & f3 & x & Hm & Hk & Ho & Hnk & Hns & _)|(callee & f1 & f2 & args & f3 & obj & f4 & method & f5 & x & p & Hp & Ho & Hk & _)].
  - apply in_order_l in Ho. repeat destruct Hm as [<-|Hm]; try discriminate; try (destruct Hm; fail).
    repeat destruct Ho as [Ho|Ho]; try (inversion Ho; subst; discriminate).
  - apply in_order_l in Ho. repeat destruct Hp as [<-|Hp]; try (destruct Hp; fail);
      repeat destruct Ho as [Ho|Ho]; try (inversion Ho; subst; discriminate).
Qed.
Print Assumptions C107_only_handed_refuted.

(** ** C108, C109: names and templates in Python files *)
Theorem C108_python_exact :
  forall parse edit F b uri t (s : lsp_files (ts_with parse edit)) tr,
    file_ext uri = Some Backend -> ls_query s = PPython ->
    parse (ls_parser s) (encode t) (sget uri (ls_bt s)) = Some tr ->
    scalars t -> on_characters t tr -> told_apart tr -> no_error tr ->
    exists s' e, did_open F b uri t false s = Ok (s', Some [(uri, e)]) /\
      backend_known F uri s s' e (encode t) (python_variable (encode t) tr) (python_loads (encode t) tr).
Proof. exact python_file_c. Qed.
Print Assumptions C108_python_exact.
Definition c108_src : string := "render_template(""x.html"", user=u);env.get_template(""y.html"").render(item=v);jinja_env.globals[""g""] = w;".
Definition c108_tree : stree :=
 (snd ("", SN "module" (nn 1 0 103) [
 ("", SN "expression_statement" (nn 2 0 33) [
  ("", SN "call" (nn 3 0 33) [
   lf "function" "identifier" 4 0 15;
   ("arguments", SN "argument_list" (nn 5 15 33) [
    ("", SN "string" (nn 6 16 24) [
     lf "" "string_content" 7 17 23]);
    ("", SN "keyword_argument" (nn 8 26 32) [
     lf "name" "identifier" 9 26 30;
     lf "value" "identifier" 10 31 32])])])]);
 ("", SN "expression_statement" (nn 11 34 75) [
  ("", SN "call" (nn 12 34 75) [
   ("function", SN "attribute" (nn 13 34 67) [
    ("object", SN "call" (nn 14 34 60) [
     ("function", SN "attribute" (nn 15 34 50) [
      lf "object" "identifier" 16 34 37;
      lf "attribute" "identifier" 17 38 50]);
     ("arguments", SN "argument_list" (nn 18 50 60) [
      ("", SN "string" (nn 19 51 59) [
       lf "" "string_content" 20 52 58])])]);
    lf "attribute" "identifier" 21 61 67]);
   ("arguments", SN "argument_list" (nn 22 67 75) [
    ("", SN "keyword_argument" (nn 23 68 74) [
     lf "name" "identifier" 24 68 72;
     lf "value" "identifier" 25 73 74])])])]);
 ("", SN "expression_statement" (nn 26 76 102) [
  ("", SN "assignment" (nn 27 76 102) [
   ("left", SN "subscript" (nn 28 76 98) [
    ("value", SN "attribute" (nn 29 76 93) [
     lf "object" "identifier" 30 76 85;
     lf "attribute" "identifier" 31 86 93]);
    ("subscript", SN "string" (nn 32 94 97) [
     lf "" "string_content" 33 95 96])]);
   lf "right" "identifier" 34 101 102])])]))%string.
Definition a_py : string := "file:///a.py".
Definition c108_vars : list identifier :=
  [at_node BackendVariable (nn 9 26 30) "user"; at_node BackendVariable (nn 33 95 96) "g";
   at_node JinjaTemplate (nn 19 51 59) "y.html"].
Lemma c108_open :
  exists s', did_open (fs_with []) Debug a_py (ascii_text c108_src) false (py_server (always c108_tree)) =
      Ok (s', Some [(a_py, [missing 51 59 "y.html"])]) /\
    sget a_py (ls_vars s') = Some c108_vars.
Proof. apply ran_ok. vm_compute. split; reflexivity. Qed.
Lemma c108_tree_ok : scalars (ascii_text c108_src) /\ on_characters (ascii_text c108_src) c108_tree /\ told_apart c108_tree /\ no_error c108_tree.
Proof.
  split; [repeat constructor|]. split; [whole|].
  split; [unfold told_apart; vm_compute; repeat constructor; cbn; intuition discriminate|]. vm_compute; repeat constructor; discriminate.
Qed.
Example C108_example :
  file_ext a_py = Some Backend /\ encode (ascii_text c108_src) = c108_src /\ scalars (ascii_text c108_src) /\ on_characters (ascii_text c108_src) c108_tree /\ told_apart c108_tree /\ no_error c108_tree.
Proof. split; [reflexivity|]. split; [reflexivity|]. exact c108_tree_ok. Qed.
(** Every name handed to a template is known: false, [render] is not recognised
    when it is called on the result of [get_template]. *)
Theorem C108_handed_refuted :
  exists F b src tr (s s' : lsp_files (always tr)) d vs n,
    on_characters (ascii_text src) tr /\ told_apart tr /\ no_error tr /\ ls_query s = PPython /\
    did_open F b a_py (ascii_text src) false s = Ok (s', d) /\ sget a_py (ls_vars s') = Some vs /\
    handed_python src tr n /\ forall v, In v vs -> id_start v <> n_start n /\ id_name v <> text_of src n.
Proof.
  destruct c108_open as (s' & H & Hv). destruct c108_tree_ok as (_ & R & T1 & T2).
  exists (fs_with []), Debug, c108_src, c108_tree, (py_server (always c108_tree)), s'.
  eexists _, _, (nn 24 68 72).
  split; [exact R|]. split; [exact T1|]. split; [exact T2|]. split; [reflexivity|]. split; [exact H|]. split; [exact Hv|]. split.
  - exists (nth 11 (preorder c108_tree) c108_tree), (nth 12 (preorder c108_tree) c108_tree), (nth 21 (preorder c108_tree) c108_tree),
      (nth 20 (preorder c108_tree) c108_tree), ""%string, (nth 22 (preorder c108_tree) c108_tree), (nth 23 (preorder c108_tree) c108_tree).
    split; [apply nth_In; vm_compute; lia|]. split; [reflexivity|]. split; [exists [], [], []; reflexivity|].
    split; [right; split; [reflexivity|]; split; [vm_compute; tauto|reflexivity]|].
    split; [reflexivity|]. split; [reflexivity|]. split; [vm_compute; tauto|]. split; [reflexivity|]. split; [vm_compute; tauto|]. split; reflexivity.
  - intros v [<-|[<-|[<-|[]]]]; split; vm_compute; discriminate.
Qed.
Print Assumptions C108_handed_refuted.
(** Every template that is rendered is checked: false, [render_template] is not
    recognised as naming a template. *)
Theorem C109_rendered_refuted :
  exists F b src tr (s s' : lsp_files (always tr)) e vs n,
    on_characters (ascii_text src) tr /\ told_apart tr /\ no_error tr /\ ls_query s = PPython /\
    did_open F b a_py (ascii_text src) false s = Ok (s', Some [(a_py, e)]) /\ sget a_py (ls_vars s') = Some vs /\
    rendered_python src tr n /\
    f_canon F (lookup_path (cf_templates (ls_config s)) (unquoted (text_of src n))) = CanonNotFound /\
    (forall v, In v vs -> id_name v <> unquoted (text_of src n)) /\
    (forall k i, In (k, i) e -> id_name i <> unquoted (text_of src n)).
Proof.
  destruct c108_open as (s' & H & Hv). destruct c108_tree_ok as (_ & R & T1 & T2).
  exists (fs_with []), Debug, c108_src, c108_tree, (py_server (always c108_tree)), s'. eexists _, _, (nn 6 16 24).
  split; [exact R|]. split; [exact T1|]. split; [exact T2|]. split; [reflexivity|]. split; [exact H|]. split; [exact Hv|]. split; [|split; [reflexivity|split]].
  - exists (nth 2 (preorder c108_tree) c108_tree), (nth 3 (preorder c108_tree) c108_tree), (nth 4 (preorder c108_tree) c108_tree), [].
    split; [apply nth_In; cbn; lia|]. split; [reflexivity|]. split; [exists [], [], []; reflexivity|]. repeat (split; [reflexivity|]). reflexivity.
  - intros v [<-|[<-|[<-|[]]]]; vm_compute; discriminate.
  - intros k i [Hi|[]]. inversion Hi; subst. vm_compute. discriminate.
Qed.
Print Assumptions C109_rendered_refuted.
(** What is checked. *)
Theorem C109_checked :
  forall parse edit F b uri t (s : lsp_files (ts_with parse edit)) tr,
    file_ext uri = Some Backend ->
    parse (ls_parser s) (encode t) (sget uri (ls_bt s)) = Some tr ->
    scalars t -> on_characters t tr -> told_apart tr -> no_error tr ->
    exists s' e, did_open F b uri t false s = Ok (s', Some [(uri, e)]) /\
      forall k i, In (k, i) e <->
        k = TemplateNotFound /\
        exists n, match ls_query s with PPython => python_loads | _ => rust_loads end (encode t) tr n /\
          i = at_node JinjaTemplate n (unquoted (text_of (encode t) n)) /\
          f_canon F (lookup_path (cf_templates (ls_config s)) (id_name i)) = CanonNotFound.
Proof. exact checked_templates_c. Qed.
Print Assumptions C109_checked.
