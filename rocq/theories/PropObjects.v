(** * PropObjects: properties C17-C21 and C57-C62 (uses and the cursor). *)
From Verif Require Import Base RString Utf8 Rope Types Captures MObjects MTemplates MSearchErrors MLspFiles.
From Verif Require Import SpecScope SpecObjects SpecObjects2 PObjects PObjects2 PObjects3 PObjects4.

(** One-line nodes and tokens for the examples: columns are byte offsets.
    [ex] is an expression with its two brackets as first and last child. *)
Definition nd (a z : N) : node :=
  mknode a a z (mkpt 0 a) (mkpt 0 z) (mkpt 0 a, mkpt 0 z) (mkpt 0 a, mkpt 0 z) None.
Definition ex (a z : N) : node :=
  mknode a a z (mkpt 0 a) (mkpt 0 z) (mkpt 0 a, mkpt 0 (a + 2)) (mkpt 0 (z - 2), mkpt 0 z) None.
Definition tk (a z : N) (s : string) : tok := (nd a z, s).
Ltac rd := split; [vm_compute; reflexivity|discriminate].
Ltac bi := unfold built_in; cbn [In snd tk]; intuition discriminate.
Ltac piece_okay :=
  cbn [piece_ok];
  lazymatch goal with
  | |- True => exact I
  | |- reads _ _ /\ ~ built_in _ /\ Forall (access_ok _) _ =>
      split; [rd|]; split; [bi|];
      repeat (apply Forall_cons; [split; [rd|]; split; [rd|]; reflexivity|]); apply Forall_nil
  | |- reads _ _ /\ (exists r, _) /\ _ =>
      split; [rd|]; split; [eexists; reflexivity|]; split; [reflexivity|]; split; [rd|bi]
  | |- Forall _ _ /\ reads _ _ /\ _ =>
      split; [repeat (apply Forall_cons; [split; [rd|bi]|]); apply Forall_nil|]; split; [rd|bi]
  | |- reads _ _ /\ built_in _ => split; [rd|bi]
  | |- reads _ _ /\ ~ (exists r, _) /\ _ => split; [rd|]; split; [intros [? ?]; discriminate|discriminate]
  end.
Ltac pieces_okay :=
  split; [repeat (apply Forall_cons; [piece_okay|]); apply Forall_nil
         |exists (mkpt 0 1); split; [right; cbn; lia|]; vm_compute; intuition discriminate].

(** ** C17 *)
Theorem C17_objects_exact :
  forall b src ms tp ps,
    pieces_ok src ps -> concat ms = cap_pieces ps ->
    exists s, objects_query b ms tp src true = Ok s /\ os_objects s = flat_map uses ps.
Proof. exact objects_exact. Qed.
Print Assumptions C17_objects_exact.
Definition c17_src : string := "{{ user.name | upper }}{% if x is not defined %}{{ true + y }}".
Definition c17_ps : list piece :=
  [PExpr (ex 0 23); PChain (tk 3 7 "user") [mkacc (nd 7 8) false (tk 8 12 "name")];
   PFilter (tk 13 15 "| ") (tk 15 20 "upper"); PChain (tk 29 30 "x") [];
   PTest (nd 31 33) [tk 34 37 "not"] (tk 38 45 "defined"); PExpr (ex 48 62);
   PBuiltin (tk 51 55 "true"); POp (tk 56 58 "+ "); PChain (tk 58 59 "y") []].
Example C17_example :
  pieces_ok c17_src c17_ps /\
  map (fun o => (o_name o, map fst (o_fields o), (o_is_filter o, o_is_test o))) (flat_map uses c17_ps) =
    [("user", ["name"], (false, false)); ("upper", [], (true, false)); ("x", [], (false, false));
     ("defined", [], (false, true)); ("y", [], (false, false))]%string.
Proof. split; [pieces_okay|reflexivity]. Qed.

(** ** C18 *)
Theorem C18_lookup_never_panics :
  forall b ms tp src all,
    Forall (text_ok src) (concat ms) ->
    Forall (fun c => c_name c = CPipe -> n_start (c_node c) <> pt0) (concat ms) ->
    objects_query b ms tp src all <> Panic.
Proof.
  intros b ms tp src all H1 H2. destruct (objects_query_no_panic b ms tp src all H1 H2) as (s & ->). discriminate.
Qed.
Print Assumptions C18_lookup_never_panics.
Example C18_example :
  Forall (text_ok c17_src) (cap_pieces c17_ps) /\
  Forall (fun c => c_name c = CPipe -> n_start (c_node c) <> pt0) (cap_pieces c17_ps).
Proof.
  split; repeat (constructor; [vm_compute; try discriminate; auto|]); constructor.
Qed.
(** The hypothesis is needed: an operator at the very start, cursor there. *)
Example C18_hypothesis_needed :
  objects_query Debug [[cap CPipe (nd 0 1)]; [cap CPipe (nd 1 2)]; [cap CJustId (nd 2 3)]] pt0 "|+x" false = Panic.
Proof. vm_compute. reflexivity. Qed.

(** ** C19 *)
Theorem C19_nothing_after_cursor :
  forall b ms tp src s o,
    N.of_nat (length (concat ms)) < two64 - 1 ->
    objects_query b ms tp src false = Ok s -> In o (os_objects s) -> pt_le (fst (o_loc o)) tp.
Proof. exact objects_query_before. Qed.
Print Assumptions C19_nothing_after_cursor.
(** Hovering any segment of a chain selects the chain: its head's name and
    range, and the attributes up to the one under the cursor. *)
Theorem C19_hover_selects_chain :
  forall T b (st : lsp_files T) uri pos tr t pre h fs1 fs2 post,
    file_ext uri = Some Template -> sget uri (ls_tt st) = Some tr -> sget uri (ls_docs st) = Some t ->
    let src := rope_content t in
    let tp := point_of pos in
    let ps := pre ++ PChain h (fs1 ++ fs2) :: post in
    pieces_ok src ps -> concat (t_captures T QObjects tr src) = cap_pieces ps ->
    on_tok tp (segment h fs1) -> Forall (behind tp) (cap_pieces post) -> all_small (cap_pieces ps) ->
    exists i, hover b uri pos st = Ok (Some (i, CtIdentifier)) /\
      id_name i = snd h /\ id_start i = n_start (fst h) /\ id_end i = n_end (fst h) /\
      exists extra, id_fields i = map field_of fs1 ++ extra.
Proof. intros T b. exact (@hover_chain T b). Qed.
Print Assumptions C19_hover_selects_chain.
(** Hovering the name of a filter or test selects it, with its kind. *)
Theorem C19_hover_selects_name :
  forall T b (st : lsp_files T) uri pos tr t pre p name post,
    file_ext uri = Some Template -> sget uri (ls_tt st) = Some tr -> sget uri (ls_docs st) = Some t ->
    let src := rope_content t in
    let tp := point_of pos in
    let ps := pre ++ p :: post in
    pieces_ok src ps -> concat (t_captures T QObjects tr src) = cap_pieces ps ->
    (exists pipe, p = PFilter pipe name) \/ (exists kw nots, p = PTest kw nots name) ->
    on_tok tp name -> Forall (behind tp) (cap_pieces post) ->
    exists i, hover b uri pos st =
        Ok (Some (i, match p with PFilter _ _ => CtFilter | _ => CtTest end)) /\
      id_name i = snd name /\ id_start i = n_start (fst name) /\ id_end i = n_end (fst name).
Proof.
  intros T b st uri pos tr t pre p name post He Ht Hd src tp ps Hps E Hp Hon Hb.
  destruct Hp as [(pi & ->)|(kw & nots & ->)].
  - exact (@hover_named T b st uri pos tr t pre _ name _ post He Ht Hd Hps E eq_refl eq_refl Hon Hb).
  - exact (@hover_named T b st uri pos tr t pre _ name _ post He Ht Hd Hps E eq_refl eq_refl Hon Hb).
Qed.
Print Assumptions C19_hover_selects_name.

(** An implementation of the parsing interface that reports fixed pieces, and a
    server holding one document. *)
Definition ascii_text (s : string) : text := map N_of_ascii (list_ascii_of_string s).
Definition ts_caps (cs : list capture) : ts :=
  mkts unit (fun _ _ _ => Some tt) (fun t _ => t)
    (fun q _ _ => match q with QObjects => [cs] | _ => [] end) (fun _ => pt0).
Definition ts_fixed (ps : list piece) : ts := ts_caps (cap_pieces ps).
Definition holding_caps (cs : list capture) (src : string) : lsp_files (ts_caps cs) :=
  mkls [("file:///a.html"%string, tt : tree (ts_caps cs))] [] [("file:///a.html"%string, ascii_text src)]
    PRust PRust config0 None true [("file:///a.html"%string, [])] [] false false.
Definition holding (ps : list piece) (src : string) : lsp_files (ts_fixed ps) := holding_caps (cap_pieces ps) src.
(** The cursor on [name] of [user.name]. *)
Example C19_example :
  let st := holding c17_ps c17_src in
  let tp := mkpt 0 10 in
  sget "file:///a.html"%string (ls_docs st) = Some (ascii_text c17_src) /\
  rope_content (ascii_text c17_src) = c17_src /\
  on_tok tp (tk 8 12 "name") /\ all_small (cap_pieces c17_ps) /\
  Forall (behind tp) (cap_pieces (skipn 2 c17_ps)) /\
  hover Debug "file:///a.html" (mkpos 0 10) st =
    Ok (Some (mkid (mkpt 0 3) (mkpt 0 7) "user" (0, pt0) UndefinedVariable
                [("name"%string, (mkpt 0 8, mkpt 0 12))], CtIdentifier)) /\
  match hover Debug "file:///a.html" (mkpos 0 17) st with Ok (Some (i, CtFilter)) => id_name i = "upper"%string | _ => False end /\
  match hover Debug "file:///a.html" (mkpos 0 40) st with Ok (Some (i, CtTest)) => id_name i = "defined"%string | _ => False end.
Proof.
  split; [reflexivity|]. split; [vm_compute; reflexivity|]. split; [split; vm_compute; intuition discriminate|].
  split; [repeat (apply Forall_cons; [vm_compute; auto|]); apply Forall_nil|].
  split; [repeat (apply Forall_cons; [vm_compute; auto|]); apply Forall_nil|].
  split; [vm_compute; reflexivity|]. split; vm_compute; reflexivity.
Qed.

(** ** C20: the completion request inside a template *)
Section C20.
  Context (T : ts) (b : build) (st : lsp_files T) (uri : string) (pos : position)
          (ctx : option trigger_kind) (tr : tree T) (t : text).
  Definition asked : Prop :=
    (ctx = Some TkInvoked \/ ctx = Some TkTriggerCharacter) /\
    file_ext uri = Some Template /\ sget uri (ls_tt st) = Some tr /\ sget uri (ls_docs st) = Some t /\
    clean_before (point_of pos) (t_captures T QSnippets tr (rope_content t)).
End C20.
(** On a pipe (its trailing white space included): filters. *)
Theorem C20_filters_on_pipe :
  forall T b (st : lsp_files T) uri pos ctx tr t ps p rest,
    asked T st uri pos ctx tr t ->
    let src := rope_content t in
    let tp := point_of pos in
    ends_before src ps (n_start (fst p)) -> reads src p -> (exists r, snd p = ("|" ++ r)%string) ->
    pt_lt (n_start (fst p)) tp -> pt_le tp (n_end (fst p)) ->
    concat (t_captures T QObjects tr src) = cap_pieces ps ++ cap CPipe (fst p) :: rest ->
    before_all tp rest \/
    (exists n rest', rest = cap CJustId (fst n) :: rest' /\ reads src n /\
       n_start (fst n) = n_end (fst p) /\ pt_lt (n_start (fst n)) (n_end (fst n)) /\ before_all tp rest') ->
    exists a, completion b uri pos ctx st = Ok (Some (CtFilter, a)).
Proof.
  intros T b st uri pos ctx tr t ps p rest (A & B & C & D & E) src tp H1 H2 H3 H4 H5 H6 H7.
  destruct (complete_pipe b _ tp src ps p rest H1 H2 H3 H4 H5 H6 H7) as (s & a & Q & O).
  exists a. eapply completion_in_template; eauto.
Qed.
Print Assumptions C20_filters_on_pipe.
(** In the white space of an expression: identifiers. *)
Theorem C20_identifiers_in_expression :
  forall T b (st : lsp_files T) uri pos ctx tr t ps rest p,
    asked T st uri pos ctx tr t ->
    let src := rope_content t in
    let tp := point_of pos in
    ends_before src ps p -> pt_lt p tp ->
    concat (t_captures T QObjects tr src) = cap_pieces ps ++ rest -> before_all tp rest ->
    inside ps tp ->
    exists a, completion b uri pos ctx st = Ok (Some (CtIdentifier, a)).
Proof.
  intros T b st uri pos ctx tr t ps rest p (A & B & C & D & E) src tp H1 H2 H3 H4 H5.
  destruct (complete_gap b _ tp src ps rest p H1 H2 H3 H4) as (s & Q & O & _). destruct (O H5) as (a & Ha).
  exists a. eapply completion_in_template; eauto.
Qed.
Print Assumptions C20_identifiers_in_expression.
(** After [is] in a statement, on the same line: tests. *)
Theorem C20_tests_after_is :
  forall T b (st : lsp_files T) uri pos ctx tr t ps kw rest,
    asked T st uri pos ctx tr t ->
    let src := rope_content t in
    let tp := point_of pos in
    ends_before src ps (n_start kw) -> pt_lt (n_start kw) (n_end kw) -> pt_le (n_end kw) tp ->
    concat (t_captures T QObjects tr src) = cap_pieces ps ++ cap CIs kw :: rest -> before_all tp rest ->
    outside ps tp -> row tp = row (n_end kw) ->
    completion b uri pos ctx st = Ok (Some (CtTest, false)).
Proof.
  intros T b st uri pos ctx tr t ps kw rest (A & B & C & D & E) src tp H1 H2 H3 H4 H5 H6 H7.
  destruct (complete_is b _ tp src ps kw rest H1 H2 H3 H4 H5) as (s & Q & _ & O). specialize (O H6).
  rewrite H7, N.eqb_refl in O. eapply completion_in_template; eauto.
Qed.
Print Assumptions C20_tests_after_is.
(** Outside expressions, with nothing pending: nothing from the expressions. *)
Theorem C20_nothing_outside :
  forall b ms tp src ps rest p,
    ends_before src ps p -> pt_lt p tp -> concat ms = cap_pieces ps ++ rest -> before_all tp rest ->
    outside ps tp ->
    exists s, objects_query b ms tp src false = Ok s /\ obj_completion b s tp = Ok None.
Proof.
  intros b ms tp src ps rest p H1 H2 H3 H4 H5.
  destruct (complete_gap b ms tp src ps rest p H1 H2 H3 H4) as (s & Q & _ & O). eauto.
Qed.
Print Assumptions C20_nothing_outside.
(** Behind the first byte of a name in an expression: the typed part, with a
    replacement range starting at the name. *)
Theorem C20_typed_part_in_chain :
  forall T b (st : lsp_files T) uri pos ctx tr t pre n p2 h fs post typed more,
    asked T st uri pos ctx tr t ->
    let src := rope_content t in
    let tp := point_of pos in
    let ps := (pre ++ PExpr n :: p2) ++ PChain h fs :: post in
    pieces_ok src ps -> concat (t_captures T QObjects tr src) = cap_pieces ps ->
    Forall (fun p => match p with PExpr _ => False | _ => True end) p2 ->
    pt_lt (n_start (fst h)) tp -> pt_le tp (n_end (fst h)) ->
    Forall (fun c => pt_lt tp (n_start (c_node c))) (cap_pieces post) ->
    pt_lt tp (n_end n) -> pt_le (snd (n_first n)) (n_start (fst h)) ->
    (* the name is written on one line, and the cursor is between characters *)
    col (n_end (fst h)) = col (n_start (fst h)) + slen (snd h) ->
    snd h = (typed ++ more)%string -> splits_char more = false -> typed <> EmptyString ->
    col tp = col (n_start (fst h)) + slen typed ->
    exists e a, completion b uri pos ctx st =
      Ok (Some (CtIncompleteIdentifier typed (to_range (n_start (fst h), e)), a)).
Proof.
  intros T b st uri pos ctx tr t pre n p2 h fs post typed more (A & B & C & D & E) src tp ps
    H1 H2 H3 H4 H5 H6 H7 H8 K1 K2 K3 K4 K5.
  destruct (complete_chain b _ tp src pre n p2 h fs post H1 H2 H3 H4 H5 H6 H7 H8)
    as (s & o & ex & Q & _ & _ & _ & _ & O).
  rewrite (typed_prefix b tp (id_new (snd h) (n_start (fst h)) (n_end (fst h))) typed more) in O; auto.
  cbn [bind] in O. do 2 eexists. eapply completion_in_template; eauto.
Qed.
Print Assumptions C20_typed_part_in_chain.
(** All of them on [{{ user.name | upper }}..]: on the pipe, after [true +],
    after [is not] (which is no expression), and inside [user]. *)
Definition c20_ask (c : N) :=
  completion Debug "file:///a.html" (mkpos 0 c) (Some TkInvoked) (holding c17_ps c17_src).
Example C20_example :
  asked (ts_fixed c17_ps) (holding c17_ps c17_src) "file:///a.html" (mkpos 0 14) (Some TkInvoked) tt (ascii_text c17_src) /\
  ends_before c17_src (firstn 2 c17_ps) (mkpt 0 13) /\ inside (firstn 8 c17_ps) (mkpt 0 57) /\
  outside (firstn 4 c17_ps) (mkpt 0 33) /\
  c20_ask 14 = Ok (Some (CtFilter, false)) /\
  c20_ask 50 = Ok (Some (CtIdentifier, false)) /\
  c20_ask 33 = Ok (Some (CtTest, false)) /\
  c20_ask 25 = Ok None /\
  c20_ask 5 = Ok (Some (CtIncompleteIdentifier "us" (mkrange (mkpos 0 3) (mkpos 0 12)), false)).
Proof.
  split. { split; [now left|]. split; [reflexivity|]. split; [reflexivity|]. split; [reflexivity|]. now apply clean_nil. }
  split. { split; [repeat (apply Forall_cons; [piece_okay|]); apply Forall_nil|].
           exists (mkpt 0 1). vm_compute. intuition discriminate. }
  split. { exists (firstn 5 c17_ps), (ex 48 62), [PBuiltin (tk 51 55 "true"); POp (tk 56 58 "+ ")].
           split; [reflexivity|]. split; [repeat (apply Forall_cons; [exact I|]); apply Forall_nil|]. vm_compute. auto. }
  split. { intros n Hn. cbn in Hn. destruct Hn as [Hn|[Hn|[Hn|[Hn|[]]]]]; inversion Hn; subst.
           vm_compute. right. split; [reflexivity|discriminate]. }
  repeat split; vm_compute; reflexivity.
Qed.

(** ** C21 *)
(** The identifier [typed ++ more] is written on one line; the cursor stands
    between the two parts. *)
Theorem C21_prefix_is_typed_part :
  forall b tp i typed more,
    id_name i = (typed ++ more)%string -> splits_char more = false ->
    col (id_end i) = col (id_start i) + slen (id_name i) ->
    col tp = col (id_start i) + slen typed -> typed <> EmptyString ->
    completion_start b tp i = Ok (Some typed).
Proof. exact typed_prefix. Qed.
Print Assumptions C21_prefix_is_typed_part.
Example C21_example :
  let i := id_new "username" (mkpt 2 3) (mkpt 2 11) in
  id_name i = ("user" ++ "name")%string /\ splits_char "name" = false /\
  completion_start Debug (mkpt 2 7) i = Ok (Some "user"%string) /\
  completion_start Debug (mkpt 2 11) i = Ok (Some "username"%string) /\
  completion_start Debug (mkpt 2 4) i = Ok (Some "u"%string).
Proof. repeat split; vm_compute; reflexivity. Qed.

(** ** C57: attributes end up on the chain they are written on *)
Definition ob_all (src : string) (cs : list capture) : list jobject :=
  match objects_query Debug [cs] pt0 src true with Ok s => os_objects s | Panic => [] end.
Definition within (l : point * point) (n : node) : Prop := pt_le (n_start n) (fst l) /\ pt_le (snd l) (n_end n).
(** [{{ x }} {{ loop.index }}]: the object [x] of the first expression gets the
    attribute [index] of the second one. *)
Theorem C57_attribute_owner_refuted :
  exists src e1 e2 x lp dot idx,
    src = "{{ x }} {{ loop.index }}"%string /\
    reads src x /\ reads src lp /\ reads src (dot, "."%string) /\ reads src idx /\
    snd x = "x"%string /\ snd lp = "loop"%string /\ snd idx = "index"%string /\
    n_end (fst lp) = n_start dot /\ n_end dot = n_start (fst idx) /\ pt_lt (n_end e1) (n_start e2) /\
    exists o f,
      ob_all src [cap CExpr e1; cap CJustId (fst x); cap CExpr e2; cap CJustId (fst lp);
                  cap CPipe dot; cap CDot dot; cap CJustId (fst idx)] = [o] /\
      o_fields o = [f] /\ within (o_loc o) e1 /\ within (snd f) e2.
Proof.
  exists "{{ x }} {{ loop.index }}"%string, (ex 0 7), (ex 8 24), (tk 3 4 "x"), (tk 11 15 "loop"), (nd 15 16), (tk 16 21 "index").
  split; [reflexivity|]. do 4 (split; [rd|]). do 5 (split; [reflexivity|]). split; [right; vm_compute; auto|].
  exists (mkobj "x" (mkpt 0 3, mkpt 0 4) false false [("index"%string, (mkpt 0 16, mkpt 0 21))] false),
         ("index"%string, (mkpt 0 16, mkpt 0 21)).
  split; [vm_compute; reflexivity|]. split; [reflexivity|].
  split; split; vm_compute; intuition discriminate.
Qed.
Print Assumptions C57_attribute_owner_refuted.
(** What is recorded, for expressions of every shape: a use owns all attributes
    up to the next use. *)
Theorem C57_attribution_exact :
  forall b src ms tp ws tail,
    words_ok src ws -> concat ms = cap_words ws ++ tail -> stops tail ->
    exists s, objects_query b ms tp src true = Ok s /\ os_objects s = recorded_uses ws.
Proof. exact words_exact. Qed.
Print Assumptions C57_attribution_exact.
(** A name keeps its own attributes, in order; what may follow are the
    attributes of built-in names, calls and subscripts before the next use. *)
Theorem C57_own_attributes_partial :
  forall b src ms tp pre h fs post tail,
    let ws := pre ++ WName h :: map WAttr fs ++ post in
    words_ok src ws -> builtin_name (snd h) = false -> concat ms = cap_words ws ++ tail -> stops tail ->
    exists s o, objects_query b ms tp src true = Ok s /\ In o (os_objects s) /\
      o_name o = snd h /\ o_loc o = loc h /\ o_fields o = map field_of fs ++ attributes post.
Proof. exact name_owns. Qed.
Print Assumptions C57_own_attributes_partial.
Ltac word_okay :=
  cbn [word_ok];
  lazymatch goal with
  | |- True => exact I
  | |- access_ok _ _ => split; [rd|]; split; [rd|]; reflexivity
  | |- reads _ _ /\ (exists r, _) /\ _ => split; [rd|]; split; [eexists; reflexivity|]; split; [reflexivity|rd]
  | |- reads _ _ /\ ~ (exists r, _) /\ _ => split; [rd|]; split; [intros [? ?]; discriminate|discriminate]
  | |- reads _ _ => rd
  end.
Ltac words_okay :=
  split; [repeat (apply Forall_cons; [word_okay|]); apply Forall_nil
         |exists (mkpt 0 1); split; [right; cbn; lia|]; vm_compute; intuition discriminate].
(** [{{ loop.first + x.a|f is true + y + loop.b }}] *)
Definition c57_src : string := "{{ loop.first + x.a|f is true + y + loop.b }}".
Definition c57_pre : list word :=
  [WExpr (ex 0 45); WName (tk 3 7 "loop"); WAttr (mkacc (nd 7 8) false (tk 8 13 "first")); WOp (tk 14 15 "+")].
Definition c57_post : list word :=
  [WFilter (tk 19 20 "|") (tk 20 21 "f"); WIs (nd 22 24); WName (tk 25 29 "true"); WOp (tk 30 31 "+"); WName (tk 32 33 "y");
   WOp (tk 34 35 "+"); WName (tk 36 40 "loop"); WAttr (mkacc (nd 40 41) false (tk 41 42 "b"))].
Definition c57_ws : list word := c57_pre ++ WName (tk 16 17 "x") :: map WAttr [mkacc (nd 17 18) false (tk 18 19 "a")] ++ c57_post.
Example C57_example :
  words_ok c57_src c57_ws /\ attributes c57_post = [] /\
  map (fun o => (o_name o, o_is_filter o, o_is_test o, map fst (o_fields o))) (recorded_uses c57_ws) =
    [("first", false, false, []); ("x", false, false, ["a"]); ("f", true, false, []); ("y", false, true, ["b"])]%string.
Proof. split; [words_okay|]. split; vm_compute; reflexivity. Qed.
(** Without any object yet, the attribute becomes a use of its own and is
    reported as undefined; after a call it is attached to the last argument. *)
Example C57_no_object_yet :
  let cs := [cap CExpr (ex 0 16); cap CJustId (nd 3 7); cap CPipe (nd 7 8); cap CDot (nd 7 8); cap CJustId (nd 8 13)] in
  flat_map (lint_object [] [] false) (ob_all "{{ loop.index }}" cs) =
    [(Undefined, mkid (mkpt 0 8) (mkpt 0 13) "index" (0, pt0) UndefinedVariable [])].
Proof. vm_compute. reflexivity. Qed.
Example C57_after_call :
  map (fun o => (o_name o, map fst (o_fields o)))
    (ob_all "{{ foo(x).bar }}"
       [cap CExpr (ex 0 16); cap CJustId (nd 3 6); cap CJustId (nd 7 8); cap CPipe (nd 9 10); cap CDot (nd 9 10);
        cap CJustId (nd 10 13)]) = [("foo", []); ("x", ["bar"])]%string.
Proof. vm_compute. reflexivity. Qed.

(** ** C58: [is] affects its own expression only *)
(** [{{ x is true }} {{ undefinedvar }}]: the second expression contains no
    [is], yet its name is taken for a test and never reported. *)
Theorem C58_is_leaks_refuted :
  exists src e1 e2 x kw tr u,
    src = "{{ x is true }} {{ undefinedvar }}"%string /\
    reads src x /\ reads src tr /\ reads src u /\ snd tr = "true"%string /\
    within (n_start kw, n_end kw) e1 /\ within (loc u) e2 /\ pt_lt (n_end e1) (n_start e2) /\
    exists ox ou,
      ob_all src [cap CExpr e1; cap CJustId (fst x); cap CIs kw; cap CJustId (fst tr); cap CExpr e2;
                  cap CJustId (fst u)] = [ox; ou] /\
      o_name ou = snd u /\ o_loc ou = loc u /\ o_is_test ou = true /\
      forall vars ignore, lint_object vars [] ignore ou = [].
Proof.
  exists "{{ x is true }} {{ undefinedvar }}"%string, (ex 0 15), (ex 16 34), (tk 3 4 "x"), (nd 5 7), (tk 8 12 "true"),
         (tk 19 31 "undefinedvar").
  split; [reflexivity|]. do 3 (split; [rd|]). split; [reflexivity|].
  split; [split; vm_compute; intuition discriminate|]. split; [split; vm_compute; intuition discriminate|].
  split; [right; vm_compute; auto|].
  exists (mkobj "x" (mkpt 0 3, mkpt 0 4) false false [] false), (mkobj "undefinedvar" (mkpt 0 19, mkpt 0 31) false true [] false).
  split; [vm_compute; reflexivity|]. repeat split.
Qed.
Print Assumptions C58_is_leaks_refuted.
(** A name is taken for a test exactly as the words before it say: while an [is]
    is pending it is, and linting never reports it; once every [is] has had its
    use it is not. *)
Theorem C58_is_reaches_partial :
  forall b src ms tp pre h post tail,
    let ws := pre ++ WName h :: post in
    words_ok src ws -> builtin_name (snd h) = false -> concat ms = cap_words ws ++ tail -> stops tail ->
    exists s o, objects_query b ms tp src true = Ok s /\ In o (os_objects s) /\
      o_name o = snd h /\ o_loc o = loc h /\ o_is_filter o = false /\
      (is_pending pre -> o_is_test o = true /\ forall vars ids ignore, lint_object vars ids ignore o = []) /\
      (no_is_pending pre -> o_is_test o = false).
Proof.
  intros b src ms tp pre h post tail ws H1 H2 H3 H4.
  destruct (name_test b src ms tp pre h post tail H1 H2 H3 H4) as (s & o & Q & I & A & B & C & D & E).
  exists s, o. repeat (split; [assumption|]). split; [|exact E]. intros P. split; [auto|].
  intros vars ids ig. unfold lint_object. rewrite (D P). now rewrite ?orb_true_r.
Qed.
Print Assumptions C58_is_reaches_partial.
Example C58_example :
  words_ok c57_src c57_ws /\ is_pending (firstn 10 c57_ws) /\ nth_error c57_ws 10 = Some (WName (tk 32 33 "y")) /\
  no_is_pending (firstn 4 c57_ws) /\ nth_error c57_ws 4 = Some (WName (tk 16 17 "x")) /\
  no_is_pending (firstn 11 c57_ws).
Proof.
  split; [words_okay|]. split.
  { exists (firstn 7 c57_ws), (nd 22 24), [WName (tk 25 29 "true"); WOp (tk 30 31 "+")].
    split; [reflexivity|]. split; repeat (apply Forall_cons; [exact I || reflexivity|]); apply Forall_nil. }
  split; [reflexivity|]. split.
  { exists [], (firstn 4 c57_ws). split; [reflexivity|]. split; [repeat (apply Forall_cons; [reflexivity|]); apply Forall_nil|now left]. }
  split; [reflexivity|]. exists (firstn 11 c57_ws), []. split; [reflexivity|]. split; [apply Forall_nil|].
  right. exists (firstn 10 c57_ws), (WName (tk 32 33 "y")). split; [reflexivity|discriminate].
Qed.

(** ** C59: completion replaces the name under the cursor *)
(** Exact when the name has no attributes and no attribute access follows at
    once; the cursor's name alone is replaced. *)
Theorem C59_replaces_name_partial :
  forall T b (st : lsp_files T) uri pos ctx tr t pre n p2 h post typed more,
    asked T st uri pos ctx tr t ->
    let src := rope_content t in
    let tp := point_of pos in
    let ps := (pre ++ PExpr n :: p2) ++ PChain h [] :: post in
    pieces_ok src ps -> concat (t_captures T QObjects tr src) = cap_pieces ps ->
    Forall (fun p => match p with PExpr _ => False | _ => True end) p2 ->
    pt_lt (n_start (fst h)) tp -> pt_le tp (n_end (fst h)) ->
    Forall (fun c => pt_lt tp (n_start (c_node c))) (cap_pieces post) ->
    pt_lt tp (n_end n) -> pt_le (snd (n_first n)) (n_start (fst h)) ->
    col (n_end (fst h)) = col (n_start (fst h)) + slen (snd h) ->
    snd h = (typed ++ more)%string -> splits_char more = false -> typed <> EmptyString ->
    col tp = col (n_start (fst h)) + slen typed ->
    plain_start post ->
    exists a, completion b uri pos ctx st = Ok (Some (CtIncompleteIdentifier typed (to_range (loc h)), a)).
Proof.
  intros T b st uri pos ctx tr t pre n p2 h post typed more (A & B & C & D & E) src tp ps
    H1 H2 H3 H4 H5 H6 H7 H8 K1 K2 K3 K4 K5 K6.
  destruct (complete_chain b _ tp src pre n p2 h [] post H1 H2 H3 H4 H5 H6 H7 H8)
    as (s & o & ex & Q & Eo & El & Ef & _ & O).
  rewrite (typed_prefix b tp (id_new (snd h) (n_start (fst h)) (n_end (fst h))) typed more) in O; auto.
  cbn [bind] in O.
  destruct (head_alone b _ tp src _ h post s H1 H2) as (o' & Eo' & Ef'); auto.
  { pts. }
  assert (o' = o) by (rewrite Eo in Eo'; apply app_inj_tail in Eo'; symmetry; tauto). subst o'.
  unfold last_field_end in O. rewrite Ef' in O. cbn [last_opt] in O. rewrite El in O. cbn [snd] in O.
  eexists. eapply completion_in_template; eauto.
Qed.
Print Assumptions C59_replaces_name_partial.
(** What is replaced, for every template: the name, or everything up to the end
    of the attribute that the look-ahead reads. *)
Theorem C59_replaced_exact :
  forall T b (st : lsp_files T) uri pos ctx tr t pre n p2 h fs post typed more,
    asked T st uri pos ctx tr t ->
    let src := rope_content t in
    let tp := point_of pos in
    let ps := (pre ++ PExpr n :: p2) ++ PChain h fs :: post in
    pieces_ok src ps -> concat (t_captures T QObjects tr src) = cap_pieces ps ->
    Forall (fun p => match p with PExpr _ => False | _ => True end) p2 ->
    pt_lt (n_start (fst h)) tp -> pt_le tp (n_end (fst h)) ->
    Forall (fun c => pt_lt tp (n_start (c_node c))) (cap_pieces post) ->
    pt_lt tp (n_end n) -> pt_le (snd (n_first n)) (n_start (fst h)) ->
    col (n_end (fst h)) = col (n_start (fst h)) + slen (snd h) ->
    snd h = (typed ++ more)%string -> splits_char more = false -> typed <> EmptyString ->
    col tp = col (n_start (fst h)) + slen typed ->
    exists a, completion b uri pos ctx st =
      Ok (Some (CtIncompleteIdentifier typed
        (to_range (n_start (fst h),
                   match attr_ahead tp false None (flat_map cap_access fs ++ cap_pieces post) with
                   | Some e => e
                   | None => n_end (fst h)
                   end)), a)).
Proof.
  intros T b st uri pos ctx tr t pre n p2 h fs post typed more (A & B & C & D & E) src tp ps
    H1 H2 H3 H4 H5 H6 H7 H8 K1 K2 K3 K4 K5.
  destruct (complete_chain b _ tp src pre n p2 h fs post H1 H2 H3 H4 H5 H6 H7 H8)
    as (s & o & ex & Q & Eo & El & Ef & _ & O).
  rewrite (typed_prefix b tp (id_new (snd h) (n_start (fst h)) (n_end (fst h))) typed more) in O; auto.
  cbn [bind] in O.
  destruct (select_end b _ tp src _ h fs post s H1 H2) as (o' & Eo' & Ee); auto.
  { split; pts. }
  { eapply Forall_impl; [|exact H6]. intros c Hc. unfold behind. destruct (c_name c); auto. }
  assert (o' = o) by (rewrite Eo in Eo'; apply app_inj_tail in Eo'; symmetry; tauto). subst o'.
  rewrite Ee in O. eexists. eapply completion_in_template; eauto.
Qed.
Print Assumptions C59_replaced_exact.
(** A name in front of its attributes, the cursor not at its end: the name and
    its first attribute are replaced. *)
Theorem C59_with_attribute :
  forall T b (st : lsp_files T) uri pos ctx tr t pre n p2 h f fs post typed more,
    asked T st uri pos ctx tr t ->
    let src := rope_content t in
    let tp := point_of pos in
    let ps := (pre ++ PExpr n :: p2) ++ PChain h (f :: fs) :: post in
    pieces_ok src ps -> concat (t_captures T QObjects tr src) = cap_pieces ps -> a_dot_first f = false ->
    Forall (fun p => match p with PExpr _ => False | _ => True end) p2 ->
    pt_lt (n_start (fst h)) tp -> pt_lt tp (n_end (fst h)) ->
    Forall (fun c => pt_lt tp (n_start (c_node c))) (cap_pieces post) ->
    pt_lt tp (n_end n) -> pt_le (snd (n_first n)) (n_start (fst h)) ->
    col (n_end (fst h)) = col (n_start (fst h)) + slen (snd h) ->
    snd h = (typed ++ more)%string -> splits_char more = false -> typed <> EmptyString ->
    col tp = col (n_start (fst h)) + slen typed ->
    exists a, completion b uri pos ctx st =
      Ok (Some (CtIncompleteIdentifier typed (to_range (n_start (fst h), n_end (fst (a_name f)))), a)).
Proof.
  intros T b st uri pos ctx tr t pre n p2 h f fs post typed more HA src tp ps
    H1 H2 Hd H3 H4 H5 H6 H7 H8 K1 K2 K3 K4 K5.
  destruct (C59_replaced_exact T b st uri pos ctx tr t pre n p2 h (f :: fs) post typed more HA H1 H2 H3 H4
              ltac:(fold tp; pts) H6 H7 H8 K1 K2 K3 K4 K5) as (a & R).
  exists a. fold tp src in R. rewrite R. do 5 f_equal.
  destruct H1 as (HF & p0 & Hp0 & Ho). unfold ps in *.
  apply Forall_app in HF. destruct HF as (_ & HF). inversion HF as [|? ? Hch _]; subst.
  destruct Hch as (_ & _ & Hf). inversion Hf as [|? ? (_ & _ & Hadj) _]; subst.
  rewrite flat_map_app in Ho. apply ordered_app in Ho. destruct Ho as (_ & O2).
  cbn [flat_map marks marks_access app ordered] in O2. destruct O2 as (_ & _ & O3 & O4 & O5 & O6 & _).
  cbn [flat_map]. rewrite <- app_assoc, attr_ahead_first; auto; pts.
Qed.
Print Assumptions C59_with_attribute.
(** [{{ x if y.z }}], cursor behind [x]: the replacement range extends to the
    end of [z]. *)
Definition c59_src : string := "{{ x if y.z }}".
Definition c59_ps : list piece :=
  [PExpr (ex 0 14); PChain (tk 3 4 "x") []; PChain (tk 8 9 "y") [mkacc (nd 9 10) false (tk 10 11 "z")]].
Theorem C59_replaces_name_refuted :
  exists ps src pre h other,
    ps = pre ++ [PChain h []; other] /\ pieces_ok src ps /\ rope_content (ascii_text src) = src /\
    on_tok (mkpt 0 4) h /\
    exists r a, completion Debug "file:///a.html" (mkpos 0 4) (Some TkInvoked) (holding ps src) =
        Ok (Some (CtIncompleteIdentifier (snd h) r, a)) /\
      r <> to_range (loc h) /\
      match other with PChain y _ => r = to_range (n_start (fst h), mkpt 0 11) /\ pt_lt (n_end (fst y)) (mkpt 0 11) | _ => False end.
Proof.
  exists c59_ps, c59_src, [PExpr (ex 0 14)], (tk 3 4 "x"), (PChain (tk 8 9 "y") [mkacc (nd 9 10) false (tk 10 11 "z")]).
  split; [reflexivity|]. split; [pieces_okay|]. split; [vm_compute; reflexivity|].
  split; [split; vm_compute; intuition discriminate|].
  exists (mkrange (mkpos 0 3) (mkpos 0 11)), false.
  split; [vm_compute; reflexivity|]. split; [discriminate|]. vm_compute; auto.
Qed.
Print Assumptions C59_replaces_name_refuted.
(** [{{ user.name.first if y }}]: inside [user] the range extends to the end of
    [name]; at the end of [user] it extends to the end of [first]. *)
Definition c59b_src : string := "{{ user.name.first if y }}".
Definition c59b_ps : list piece :=
  [PExpr (ex 0 26); PChain (tk 3 7 "user") [mkacc (nd 7 8) false (tk 8 12 "name"); mkacc (nd 12 13) false (tk 13 18 "first")];
   PChain (tk 22 23 "y") []].
Example C59_example :
  let fs := [mkacc (nd 7 8) false (tk 8 12 "name"); mkacc (nd 12 13) false (tk 13 18 "first")] in
  let rest := flat_map cap_access fs ++ cap_pieces (skipn 2 c59b_ps) in
  let ask c := completion Debug "file:///a.html" (mkpos 0 c) (Some TkInvoked) (holding c59b_ps c59b_src) in
  pieces_ok c59b_src c59b_ps /\ rope_content (ascii_text c59b_src) = c59b_src /\
  asked (ts_fixed c59b_ps) (holding c59b_ps c59b_src) "file:///a.html" (mkpos 0 5) (Some TkInvoked) tt (ascii_text c59b_src) /\
  attr_ahead (mkpt 0 5) false None rest = Some (mkpt 0 12) /\
  attr_ahead (mkpt 0 7) false None rest = Some (mkpt 0 18) /\
  attr_ahead (mkpt 0 23) false None [] = None /\
  ask 5 = Ok (Some (CtIncompleteIdentifier "us" (mkrange (mkpos 0 3) (mkpos 0 12)), false)) /\
  ask 7 = Ok (Some (CtIncompleteIdentifier "user" (mkrange (mkpos 0 3) (mkpos 0 18)), false)) /\
  ask 23 = Ok (Some (CtIncompleteIdentifier "y" (mkrange (mkpos 0 22) (mkpos 0 23)), false)).
Proof.
  cbv zeta. split; [pieces_okay|]. split; [vm_compute; reflexivity|].
  split. { split; [now left|]. split; [reflexivity|]. split; [reflexivity|]. split; [reflexivity|]. now apply clean_nil. }
  repeat split; vm_compute; reflexivity.
Qed.

(** ** C60: the prefix for a quoted template name *)
(** The identifier's range includes the quotes, its name does not.  What the
    server searches for is exactly: the whole name if at most one byte is
    typed, else one byte less than what is typed. *)
Theorem C60_quoted_prefix_exact :
  forall b tp i typed more,
    id_name i = (typed ++ more)%string ->
    col (id_end i) = col (id_start i) + slen (id_name i) + 2 ->
    col tp = col (id_start i) + 1 + slen typed ->
    completion_start b tp i =
    Ok (if slen typed <=? 1 then Some (id_name i) else get_to (id_name i) (slen typed - 1)).
Proof. exact typed_prefix_quoted. Qed.
Print Assumptions C60_quoted_prefix_exact.
Theorem C60_quoted_prefix_refuted :
  exists b tp i typed more,
    id_name i = (typed ++ more)%string /\ splits_char more = false /\
    col (id_end i) = col (id_start i) + slen (id_name i) + 2 /\
    col tp = col (id_start i) + 1 + slen typed /\
    completion_start b tp i <> Ok (Some typed).
Proof.
  exists Debug, (mkpt 0 16), (id_new "base.html" (mkpt 0 11) (mkpt 0 22)), "base"%string, ".html"%string.
  repeat split; vm_compute; discriminate.
Qed.
Print Assumptions C60_quoted_prefix_refuted.
Example C60_example :
  let i := id_new "base.html" (mkpt 0 11) (mkpt 0 22) in
  completion_start Debug (mkpt 0 16) i = Ok (Some "bas"%string) /\
  completion_start Debug (mkpt 0 13) i = Ok (Some "base.html"%string).
Proof. split; vm_compute; reflexivity. Qed.

(** ** C61: completing an attribute *)
(** [{{ user.na }}], cursor behind [na]: the prefix searched for is [user], and
    the text replaced is the whole chain. *)
Definition c61_src : string := "{{ user.na }}".
Definition c61_ps : list piece :=
  [PExpr (ex 0 13); PChain (tk 3 7 "user") [mkacc (nd 7 8) false (tk 8 10 "na")]].
Theorem C61_attribute_prefix_refuted :
  exists ps src h a,
    ps = [PExpr (ex 0 13); PChain h [a]] /\ pieces_ok src ps /\ rope_content (ascii_text src) = src /\
    n_end (fst (a_name a)) = mkpt 0 10 /\
    exists p r c, completion Debug "file:///a.html" (mkpos 0 10) (Some TkInvoked) (holding ps src) =
        Ok (Some (CtIncompleteIdentifier p r, c)) /\
      p = snd h /\ String.prefix p (snd (a_name a)) = false /\
      r = to_range (n_start (fst h), n_end (fst (a_name a))).
Proof.
  exists c61_ps, c61_src, (tk 3 7 "user"), (mkacc (nd 7 8) false (tk 8 10 "na")).
  split; [reflexivity|]. split; [pieces_okay|]. split; [vm_compute; reflexivity|]. split; [reflexivity|].
  exists "user"%string, (mkrange (mkpos 0 3) (mkpos 0 10)), false.
  repeat split; vm_compute; reflexivity.
Qed.
Print Assumptions C61_attribute_prefix_refuted.
(** Exactly: when the server comes to another name behind the cursor, it offers
    every variable as if nothing had been typed.  Otherwise it searches for the
    first name of the chain, shortened by as many bytes as follow the cursor in
    the attribute, and replaces the chain up to the attribute.  The typed part
    of the attribute is never used. *)
Theorem C61_attribute_prefix_partial :
  forall T b (st : lsp_files T) uri pos ctx tr t pre n p2 h fs1 fs2 post typed more,
    asked T st uri pos ctx tr t ->
    let src := rope_content t in
    let tp := point_of pos in
    let ps := (pre ++ PExpr n :: p2) ++ PChain h (fs1 ++ fs2) :: post in
    let attr := segment h fs1 in
    pieces_ok src ps -> concat (t_captures T QObjects tr src) = cap_pieces ps ->
    Forall (fun p => match p with PExpr _ => False | _ => True end) p2 ->
    fs1 <> [] -> pt_lt (n_start (fst attr)) tp -> pt_le tp (n_end (fst attr)) ->
    Forall (fun c => pt_lt tp (n_start (c_node c))) (cap_pieces post) ->
    pt_lt tp (n_end n) -> pt_le (snd (n_first n)) (n_start (fst h)) ->
    ascii_name (snd h) -> snd attr = (typed ++ more)%string -> typed <> EmptyString ->
    col (n_end (fst attr)) = col (n_start (fst attr)) + slen (snd attr) -> col tp = col (n_start (fst attr)) + slen typed ->
    exists a,
      if name_ahead tp false (flat_map cap_access fs2 ++ cap_pieces post)
      then completion b uri pos ctx st = Ok (Some (CtIdentifier, a))
      else exists p, cut_by (snd h) more p /\
        completion b uri pos ctx st =
          Ok (Some (CtIncompleteIdentifier p (to_range (n_start (fst h), n_end (fst attr))), a)).
Proof.
  intros T b st uri pos ctx tr t pre n p2 h fs1 fs2 post typed more (A & B & C & D & E) src tp ps attr
    H1 H2 H3 H4 H5 H6 H7 H8 K1 K2 K3 K4 K5 K6.
  destruct (complete_segment b _ tp src pre n p2 h fs1 fs2 post typed more H1 H2 H3 H4 H5 H6 H7 H8 K1 K2 K3 K4 K5 K6)
    as (s & a & Q & O). exists a.
  destruct (name_ahead tp false (flat_map cap_access fs2 ++ cap_pieces post)).
  - eapply completion_in_template; eauto.
  - destruct O as (p & Hp & O). exists p. split; [exact Hp|]. eapply completion_in_template; eauto.
Qed.
Print Assumptions C61_attribute_prefix_partial.
(** [{{ user.name + x }}] and [{{ user.name }}], cursor behind [na]. *)
Definition c61b_src : string := "{{ user.name + x }}".
Definition c61b_ps : list piece :=
  [PExpr (ex 0 19); PChain (tk 3 7 "user") [mkacc (nd 7 8) false (tk 8 12 "name")]; POp (tk 13 14 "+"); PChain (tk 15 16 "x") []].
Definition c61c_src : string := "{{ user.name }}".
Definition c61c_ps : list piece := [PExpr (ex 0 15); PChain (tk 3 7 "user") [mkacc (nd 7 8) false (tk 8 12 "name")]].
Example C61_example :
  pieces_ok c61b_src c61b_ps /\ pieces_ok c61c_src c61c_ps /\
  name_ahead (mkpt 0 10) false (cap_pieces (skipn 2 c61b_ps)) = true /\
  name_ahead (mkpt 0 10) false (cap_pieces (skipn 2 c61c_ps)) = false /\ cut_by "user" "me" "us" /\
  completion Debug "file:///a.html" (mkpos 0 10) (Some TkInvoked) (holding c61b_ps c61b_src) = Ok (Some (CtIdentifier, false)) /\
  completion Debug "file:///a.html" (mkpos 0 10) (Some TkInvoked) (holding c61c_ps c61c_src) =
    Ok (Some (CtIncompleteIdentifier "us" (mkrange (mkpos 0 3) (mkpos 0 12)), false)).
Proof.
  split; [pieces_okay|]. split; [pieces_okay|]. split; [reflexivity|]. split; [reflexivity|].
  split; [right; split; [discriminate|]; exists "er"%string; split; reflexivity|]. split; vm_compute; reflexivity.
Qed.

(** ** C62: tests and filters are offered where they are expected *)
(** Inside an expression nothing but variables is offered after [is]. *)
Theorem C62_no_tests_in_expressions :
  forall T b (st : lsp_files T) uri pos ctx tr t ps kw rest,
    asked T st uri pos ctx tr t ->
    let src := rope_content t in
    let tp := point_of pos in
    ends_before src ps (n_start kw) -> pt_lt (n_start kw) (n_end kw) -> pt_le (n_end kw) tp ->
    concat (t_captures T QObjects tr src) = cap_pieces ps ++ cap CIs kw :: rest -> before_all tp rest ->
    inside ps tp ->
    exists a, completion b uri pos ctx st = Ok (Some (CtIdentifier, a)).
Proof.
  intros T b st uri pos ctx tr t ps kw rest (A & B & C & D & E) src tp H1 H2 H3 H4 H5 H6.
  destruct (complete_is b _ tp src ps kw rest H1 H2 H3 H4 H5) as (s & Q & O & _). destruct (O H6) as (a & Ha).
  exists a. eapply completion_in_template; eauto.
Qed.
Print Assumptions C62_no_tests_in_expressions.
(** [{{ x is  }}] with the cursor behind [is]; [{{ x | up }}] with the cursor
    behind [up], where variables starting with "up" are offered. *)
Theorem C62_tests_and_filters_refuted :
  (exists src e x kw, src = "{{ x is  }}"%string /\ reads src x /\ reads src (kw, "is"%string) /\
    pt_lt (n_end kw) (mkpt 0 8) /\
    completion Debug "file:///a.html" (mkpos 0 8) (Some TkInvoked)
      (holding_caps [cap CExpr e; cap CJustId (fst x); cap CIs kw] src) = Ok (Some (CtIdentifier, false))) /\
  (exists ps src pipe name, ps = [PExpr (ex 0 12); PChain (tk 3 4 "x") []; PFilter pipe name] /\
    pieces_ok src ps /\ src = "{{ x | up }}"%string /\ n_end (fst name) = mkpt 0 9 /\
    exists r a, completion Debug "file:///a.html" (mkpos 0 9) (Some TkInvoked) (holding ps src) =
      Ok (Some (CtIncompleteIdentifier (snd name) r, a))).
Proof.
  split.
  - exists "{{ x is  }}"%string, (ex 0 11), (tk 3 4 "x"), (nd 5 7).
    split; [reflexivity|]. do 2 (split; [rd|]). split; [right; vm_compute; auto|]. vm_compute. reflexivity.
  - exists [PExpr (ex 0 12); PChain (tk 3 4 "x") []; PFilter (tk 5 7 "| ") (tk 7 9 "up")], "{{ x | up }}"%string,
           (tk 5 7 "| "), (tk 7 9 "up").
    split; [reflexivity|]. split; [pieces_okay|]. split; [reflexivity|]. split; [reflexivity|].
    eexists _, _. vm_compute. reflexivity.
Qed.
Print Assumptions C62_tests_and_filters_refuted.
