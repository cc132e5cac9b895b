(** * PropScope: properties C10-C16 and C55 (definitions and their scopes). *)
From Verif Require Import Base Utf8 Types Captures MDefinition MObjects MSearchErrors.
From Verif Require Import SpecScope SpecScope2 PScope PScope2 PScope3 ExScope.

Ltac tpl_okay := cbn; repeat split; try discriminate; auto 10; repeat constructor; try discriminate.
Ltac nodes_distinct := unfold distinct_nodes; cbn; repeat constructor; cbn; intuition discriminate.

(** ** C10: exact names and scopes without branches *)
Theorem C10_exact_scopes :
  forall src t ms root_end tp,
    tpl_ok src t -> straight t -> plain_headers t -> distinct_nodes t ->
    concat ms = captures_of t ->
    exists d, definition_query ms root_end tp src true = Ok d /\
      map decl_of_id (def_identifiers d) = introduced root_end t.
Proof.
  intros src t ms root tp Hok Hs Hp Hd Hms.
  rewrite <- (recorded_introduced t root Hp). now apply exact_recorded.
Qed.
Print Assumptions C10_exact_scopes.
Example C10_example :
  tpl_ok c10_src c10_tpl /\ straight c10_tpl /\ plain_headers c10_tpl /\ distinct_nodes c10_tpl /\
  map (fun d => (dc_name d, col (dc_until d))) (introduced c10_end c10_tpl) =
    [("m", 182); ("a", 70); ("b", 70); ("c", 70); ("n", 57); ("i", 141); ("x", 130); ("t", 166)]%string.
Proof.
  split; [tpl_okay|]. split; [tpl_okay|]. split; [tpl_okay|]. split; [nodes_distinct|]. reflexivity.
Qed.

(** ** C11: with branches and inline conditionals a scope is never too short *)
Theorem C11_scope_never_too_short :
  forall src t ms root_end tp,
    tpl_ok src t -> branching t -> plain_headers t -> distinct_nodes t -> nested root_end t ->
    concat ms = captures_of t ->
    exists d, definition_query ms root_end tp src true = Ok d /\
      Forall2 covers (introduced root_end t) (map decl_of_id (def_identifiers d)).
Proof.
  intros src t ms root tp Hok Hs Hp Hd Hn Hms.
  rewrite <- (recorded_introduced t root Hp). now apply covering_recorded.
Qed.
Print Assumptions C11_scope_never_too_short.
Ltac nest := cbn; repeat split; unfold pt_le; cbn; lia.
Example C11_example :
  tpl_ok c11_src c11_tpl /\ branching c11_tpl /\ plain_headers c11_tpl /\ distinct_nodes c11_tpl /\
  nested c11_end c11_tpl /\ ~ straight c11_tpl /\ length (introduced c11_end c11_tpl) = 2%nat.
Proof.
  split; [tpl_okay|]. split; [tpl_okay|]. split; [tpl_okay|]. split; [nodes_distinct|].
  split; [nest|]. split; [cbn; tauto|]. reflexivity.
Qed.

(** ** C12: an else branch makes the loop variable outlive its loop *)
(** The last [i] of the template, after the loop. *)
Definition c12_use : jobject := obj_new "i" (mkpt 0 62) (mkpt 0 63) false false.
Theorem C12_else_leak_refuted :
  exists src t root_end d real found use,
    tpl_ok src t /\ branching t /\ plain_headers t /\ distinct_nodes t /\ nested root_end t /\
    definition_query [captures_of t] root_end pt0 src true = Ok d /\
    introduced root_end t = [real] /\ map decl_of_id (def_identifiers d) = [found] /\
    pt_lt (dc_until real) (dc_until found) /\
    (* the use after the loop is not reported *)
    o_name use = dc_name real /\ pt_lt (dc_until real) (fst (o_loc use)) /\
    lint_object [("f"%string, def_identifiers d)] (def_identifiers d) false use = [].
Proof.
  exists c12_src, c12_tpl, c12_end.
  do 3 eexists. exists c12_use.
  split; [tpl_okay|]. split; [tpl_okay|]. split; [tpl_okay|]. split; [nodes_distinct|].
  split; [nest|]. split; [vm_compute; reflexivity|]. split; [reflexivity|].
  split; [vm_compute; reflexivity|]. split; [cbn; right; cbn; lia|]. split; [reflexivity|].
  split; [cbn; right; cbn; lia|]. vm_compute. reflexivity.
Qed.
Print Assumptions C12_else_leak_refuted.

(** The exact extents, for templates of every shape: branches, inline
    conditionals anywhere but in end tags, and block sets anywhere. *)
Theorem C12_extents_exact :
  forall src t ms root_end tp,
    tpl_ok src t -> plain_ends t -> distinct_nodes t -> concat ms = captures_of t ->
    exists d, definition_query ms root_end tp src true = Ok d /\
      map decl_of_id (def_identifiers d) = extents root_end 0 (marks t).
Proof. exact exact_extents. Qed.
Print Assumptions C12_extents_exact.
(** In the first the loop variable reaches the end of the file, in the second
    only the end tag of the block set. *)
Example C12_example :
  tpl_ok c12_src c12_tpl /\ plain_ends c12_tpl /\ distinct_nodes c12_tpl /\
  map (fun d => (dc_name d, col (dc_until d))) (extents c12_end 0 (marks c12_tpl))
    = [("i"%string, 66)] /\
  map (fun d => (dc_name d, col (dc_until d))) (introduced c12_end c12_tpl) = [("i"%string, 47)] /\
  tpl_ok c13_src c13_tpl /\ plain_ends c13_tpl /\ distinct_nodes c13_tpl /\
  map (fun d => (dc_name d, col (dc_until d))) (extents c13_end 0 (marks c13_tpl))
    = [("i", 27); ("x", 27)]%string /\
  map (fun d => (dc_name d, col (dc_until d))) (introduced c13_end c13_tpl)
    = [("i", 46); ("x", 46)]%string.
Proof.
  split; [tpl_okay|]. split; [tpl_okay|]. split; [nodes_distinct|]. split; [reflexivity|].
  split; [reflexivity|]. split; [tpl_okay|]. split; [tpl_okay|]. split; [nodes_distinct|].
  split; reflexivity.
Qed.

(** ** C13: the end tag of a block set closes the enclosing scope *)
Definition c13_use : jobject := obj_new "i" (mkpt 0 42) (mkpt 0 43) false false.
Theorem C13_block_set_refuted :
  exists src t root_end d real found use,
    tpl_ok src t /\ plain_headers t /\ distinct_nodes t /\ nested root_end t /\
    definition_query [captures_of t] root_end pt0 src true = Ok d /\
    hd_error (introduced root_end t) = Some real /\
    hd_error (map decl_of_id (def_identifiers d)) = Some found /\
    dc_name found = dc_name real /\ pt_lt (dc_until found) (dc_until real) /\
    (* a use inside the loop is reported as undefined *)
    o_name use = dc_name real /\ pt_lt (snd (o_loc use)) (dc_until real) /\
    lint_object [("f"%string, def_identifiers d)] (def_identifiers d) false use
      = [(Undefined, id_of_obj use)].
Proof.
  exists c13_src, c13_tpl, c13_end.
  do 3 eexists. exists c13_use.
  split; [tpl_okay|]. split; [tpl_okay|]. split; [nodes_distinct|].
  split; [nest|]. split; [vm_compute; reflexivity|]. split; [reflexivity|].
  split; [vm_compute; reflexivity|]. split; [reflexivity|]. split; [cbn; right; cbn; lia|].
  split; [reflexivity|]. split; [cbn; right; cbn; lia|]. vm_compute. reflexivity.
Qed.
Print Assumptions C13_block_set_refuted.

(** Outside every block a block set does no harm. *)
Theorem C13_block_set_partial :
  forall src t ms root_end tp,
    tpl_ok src t -> top_sets t -> plain_headers t -> distinct_nodes t ->
    concat ms = captures_of t ->
    exists d, definition_query ms root_end tp src true = Ok d /\
      map decl_of_id (def_identifiers d) = introduced root_end t.
Proof. exact top_sets_exact. Qed.
Print Assumptions C13_block_set_partial.
Example C13_example :
  tpl_ok c13b_src c13b_tpl /\ top_sets c13b_tpl /\ plain_headers c13b_tpl /\
  distinct_nodes c13b_tpl /\ ~ straight c13b_tpl /\
  map (fun d => (dc_name d, col (dc_until d))) (introduced c13b_end c13b_tpl)
    = [("x", 72); ("i", 53)]%string.
Proof.
  split; [tpl_okay|]. split; [tpl_okay|]. split; [tpl_okay|]. split; [nodes_distinct|].
  split; [cbn; tauto|]. reflexivity.
Qed.

(** ** C14: the second target of a loop is never recorded *)
Theorem C14_loop_targets_refuted :
  exists src t root_end d v,
    tpl_ok src t /\ straight t /\ distinct_nodes t /\
    definition_query [captures_of t] root_end pt0 src true = Ok d /\
    In v (introduced root_end t) /\
    ~ In (dc_name v) (map id_name (def_identifiers d)).
Proof.
  exists c14_src, c14_tpl, c14_end. do 2 eexists.
  split; [tpl_okay|]. split; [tpl_okay|]. split; [nodes_distinct|].
  split; [vm_compute; reflexivity|]. split; [right; left; reflexivity|].
  vm_compute. intuition discriminate.
Qed.
Print Assumptions C14_loop_targets_refuted.
(** For every capture sequence whatsoever. *)
Theorem C14_second_target_never_recorded :
  forall ms root_end tp src all d i,
    definition_query ms root_end tp src all = Ok d -> In i (def_identifiers d) ->
    id_type i <> ForLoopValue.
Proof. exact never_loop_value. Qed.
Print Assumptions C14_second_target_never_recorded.
Example C14_example :
  exists d, definition_query [captures_of c14_tpl] c14_end pt0 c14_src true = Ok d /\
    map id_name (def_identifiers d) = ["k"%string].
Proof. eexists. vm_compute. split; reflexivity. Qed.

(** ** C15: with/macro headers record every identifier they contain *)
Theorem C15_header_names_refuted :
  exists src t root_end d x,
    tpl_ok src t /\ straight t /\ distinct_nodes t /\
    definition_query [captures_of t] root_end pt0 src true = Ok d /\
    In x (map id_name (def_identifiers d)) /\ ~ In x (map dc_name (introduced root_end t)).
Proof.
  exists c15_src, c15_tpl, c15_end. do 2 eexists.
  split; [tpl_okay|]. split; [tpl_okay|]. split; [nodes_distinct|].
  split; [vm_compute; reflexivity|]. split; [vm_compute; right; left; reflexivity|].
  vm_compute. intuition discriminate.
Qed.
Print Assumptions C15_header_names_refuted.
(** The exact list, for every straight-line template. *)
Theorem C15_header_names_exact :
  forall src t ms root_end tp,
    tpl_ok src t -> straight t -> distinct_nodes t -> concat ms = captures_of t ->
    exists d, definition_query ms root_end tp src true = Ok d /\
      map decl_of_id (def_identifiers d) = recorded root_end t.
Proof. exact exact_recorded. Qed.
Print Assumptions C15_header_names_exact.
Example C15_example :
  tpl_ok c15_src c15_tpl /\ straight c15_tpl /\ distinct_nodes c15_tpl /\
  map dc_name (recorded c15_end c15_tpl) = ["a"; "b"]%string /\
  map dc_name (introduced c15_end c15_tpl) = ["a"]%string.
Proof.
  split; [tpl_okay|]. split; [tpl_okay|]. split; [nodes_distinct|]. split; reflexivity.
Qed.

(** ** C16: no panic *)
Theorem C16_definitions_never_panic :
  forall ms root_end tp src all,
    Forall (Forall (readable src)) ms -> exists d, definition_query ms root_end tp src all = Ok d.
Proof. exact definitions_total. Qed.
Print Assumptions C16_definitions_never_panic.
(** End tags without start tags, then an error node. *)
Example C16_example :
  Forall (Forall (readable "endfor x"))
    [[mkcap CEndblock (at_ 0 6); mkcap CScopeEnd (at_ 0 6); mkcap CScopeEnd (at_ 0 6)];
     [mkcap CId (at_ 7 8); mkcap CError (at_ 0 8)]].
Proof. repeat constructor. discriminate. Qed.

(** ** C55: a variable set inside an [if] is visible after it *)
Definition c55_use : jobject := obj_new "x" (mkpt 0 39) (mkpt 0 40) false false.
Theorem C55_set_in_if_refuted :
  exists src t root_end d use,
    tpl_ok src t /\ straight t /\ plain_headers t /\ distinct_nodes t /\
    definition_query [captures_of t] root_end pt0 src true = Ok d /\
    (exists kw es b e x kw2 es2 b2 e2 et r,
        t = TBlock (HPlain (kw, "if"%string) es) b e (TSet kw2 x es2 b2 e2 TNil) et r /\
        snd x = o_name use) /\
    lint_object [("f"%string, def_identifiers d)] (def_identifiers d) false use
      = [(Undefined, id_of_obj use)].
Proof.
  exists c55_src, c55_tpl, c55_end. eexists. exists c55_use.
  split; [tpl_okay|]. split; [tpl_okay|]. split; [tpl_okay|]. split; [nodes_distinct|].
  split; [vm_compute; reflexivity|]. split; [do 11 eexists; split; reflexivity|].
  vm_compute. reflexivity.
Qed.
Print Assumptions C55_set_in_if_refuted.
(** The analysis never makes a name outlive its extent in the language, and is
    exact when no [if] introduces names. *)
Theorem C55_set_in_if_partial :
  forall src t ms root_end tp,
    tpl_ok src t -> straight t -> plain_headers t -> distinct_nodes t -> nested root_end t ->
    concat ms = captures_of t ->
    exists d, definition_query ms root_end tp src true = Ok d /\
      Forall2 covers (map decl_of_id (def_identifiers d)) (visible root_end t) /\
      (sets_outside_ifs t -> map decl_of_id (def_identifiers d) = visible root_end t).
Proof.
  intros src t ms root tp Hok Hs Hp Hd Hn Hms.
  destruct (C10_exact_scopes src t ms root tp Hok Hs Hp Hd Hms) as (d & H1 & H2).
  exists d. split; [exact H1|]. rewrite H2. split.
  - apply visible_covers; [apply pt_le_refl|exact Hn].
  - intros Ho. symmetry. now apply visible_introduced.
Qed.
Print Assumptions C55_set_in_if_partial.
Example C55_example :
  tpl_ok c55_src c55_tpl /\ straight c55_tpl /\ plain_headers c55_tpl /\ distinct_nodes c55_tpl /\
  nested c55_end c55_tpl /\ ~ sets_outside_ifs c55_tpl /\
  map (fun d => (dc_name d, col (dc_until d))) (introduced c55_end c55_tpl) = [("x"%string, 25)] /\
  map (fun d => (dc_name d, col (dc_until d))) (visible c55_end c55_tpl) = [("x"%string, 43)] /\
  sets_outside_ifs c12_tpl.
Proof.
  split; [tpl_okay|]. split; [tpl_okay|]. split; [tpl_okay|]. split; [nodes_distinct|].
  split; [nest|]. split; [cbn; tauto|]. split; [reflexivity|]. split; [reflexivity|].
  cbn. tauto.
Qed.

(** ** C92: bindings after an inline conditional *)
Definition c92_use : jobject := obj_new "e" (mkpt 0 54) (mkpt 0 55) false false.
Theorem C92_after_conditional_refuted :
  exists src t root_end d real use,
    tpl_ok src t /\ plain_ends t /\ distinct_nodes t /\ nested root_end t /\
    definition_query [captures_of t] root_end pt0 src true = Ok d /\
    In real (introduced root_end t) /\ dc_kind real = WithVariable /\
    ~ In (dc_name real) (map id_name (def_identifiers d)) /\
    (* a use inside the block is reported as undefined *)
    o_name use = dc_name real /\ pt_lt (dc_start real) (fst (o_loc use)) /\
    pt_lt (snd (o_loc use)) (dc_until real) /\
    lint_object [("f"%string, def_identifiers d)] (def_identifiers d) false use
      = [(Undefined, id_of_obj use)].
Proof.
  exists c92_src, c92_tpl, c92_end. do 2 eexists. exists c92_use.
  split; [tpl_okay|]. split; [tpl_okay|]. split; [nodes_distinct|]. split; [nest|].
  split; [vm_compute; reflexivity|]. split; [right; right; left; reflexivity|].
  split; [reflexivity|]. split; [vm_compute; intuition discriminate|].
  split; [reflexivity|]. split; [cbn; right; cbn; lia|]. split; [cbn; right; cbn; lia|].
  vm_compute. reflexivity.
Qed.
Print Assumptions C92_after_conditional_refuted.
(** Exactly the identifiers before the first inline conditional are recorded
    for the list; everything else comes from the body and from what follows. *)
Theorem C92_header_partial :
  forall src kw bs b e body et rest ms root_end tp,
    let t := TBlock (HWith kw bs) b e body et rest in
    tpl_ok src t -> plain_ends t -> distinct_nodes t -> concat ms = captures_of t ->
    exists d others, definition_query ms root_end tp src true = Ok d /\
      map id_name (def_identifiers d) = map snd (before_if (flat_binds bs)) ++ others /\
      incl others (map dc_name (recorded root_end body ++ recorded root_end rest)).
Proof.
  intros src kw bs b e body et rest ms root tp t Hok Hp Hd Hms.
  destruct (exact_extents src t ms root tp Hok Hp Hd Hms) as (d & H1 & H2).
  exists d. destruct (with_names root kw bs b e body et rest) as (others & Ht & Hi).
  exists others. split; [exact H1|]. split; [|exact Hi].
  rewrite <- Ht. fold t. rewrite <- H2, map_map. reflexivity.
Qed.
Print Assumptions C92_header_partial.
Example C92_example :
  tpl_ok c92_src c92_tpl /\ plain_ends c92_tpl /\ distinct_nodes c92_tpl /\
  map (fun d => (dc_name d, col (dc_until d))) (extents c92_end 0 (marks c92_tpl))
    = [("i", 90); ("a", 90); ("b", 90)]%string /\
  map (fun d => (dc_name d, col (dc_until d))) (introduced c92_end c92_tpl)
    = [("i", 71); ("a", 58); ("e", 58)]%string.
Proof.
  split; [tpl_okay|]. split; [tpl_okay|]. split; [nodes_distinct|]. split; reflexivity.
Qed.
