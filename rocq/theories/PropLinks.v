(** * PropLinks: property C110 (hints in Python code, from its syntax tree). *)
From Verif Require Import Base RString Utf8 Rope Types Captures.
From Verif Require Import MDefinition MObjects MTemplates MSearchErrors MLspFiles MNode MQueries.
From Verif Require Import SpecFiles SpecNode SpecQueries SpecQueries2 SpecQueries3.
From Verif Require Import PQueries7 PQueries8 PropObjects PropLint PropNode PropQueries.

(** ** C110 *)
Theorem C110_dotted :
  forall parse edit F url b os (s : node_state (ts_with parse edit)) id f content n k s' links uri tr t ws,
    node_run F url b os (node_new _) = Ok s -> url (home_url f id "py") = Some uri -> file_ext uri = Some Backend ->
    add_one F url b id f content n "py" k s = Ok (s', links) ->
    parse PPython (encode (padded k content)) (sget uri (ls_bt (nd_files s))) = Some tr ->
    scalars (padded k content) -> on_characters (padded k content) tr -> told_apart tr -> no_error tr -> parents tr ->
    Forall (fun x => in_host n (n_start (s_node x)) /\ in_host n (n_end (s_node x))) (preorder tr) ->
    pure (encode (padded k content)) tr t ws ->
    filter (pos_at (place n (n_start (s_node t)))) links = times (link_to n t ws) (called ws) (temporary os).
Proof. exact python_linked. Qed.
Print Assumptions C110_dotted.
(** In code whose attributes are all parts of dotted names, nothing else is
    linked. *)
Theorem C110_exact :
  forall parse edit F url b os (s : node_state (ts_with parse edit)) id f content n k s' links uri tr,
    node_run F url b os (node_new _) = Ok s -> url (home_url f id "py") = Some uri -> file_ext uri = Some Backend ->
    add_one F url b id f content n "py" k s = Ok (s', links) ->
    parse PPython (encode (padded k content)) (sget uri (ls_bt (nd_files s))) = Some tr ->
    scalars (padded k content) -> on_characters (padded k content) tr -> told_apart tr -> no_error tr -> parents tr ->
    Forall (fun x => in_host n (n_start (s_node x)) /\ in_host n (n_end (s_node x))) (preorder tr) ->
    (forall x, In x (preorder tr) -> s_kind x = "attribute"%string ->
       exists t ws, pure (encode (padded k content)) tr t ws /\ n_start (s_node t) = n_start (s_node x)) ->
    forall l, In l links <->
      exists t ws a, pure (encode (padded k content)) tr t ws /\ In a (temporary os) /\ na_name a = String.concat "." ws /\ l = link_to n t ws.
Proof. exact python_only. Qed.
Print Assumptions C110_exact.

Definition pn (i a z p : N) : node := mknode i a z (mkpt 0 a) (mkpt 0 z) (mkpt 0 a, mkpt 0 z) (mkpt 0 a, mkpt 0 z) (Some (mkpt 0 p)).
Definition pl (f : string) (i a z p : N) : string * stree := (f, SN "identifier" (pn i a z p) []).
Definition hint_ops (names : list string) : list node_op := [OSave (Some (map (fun x => mknact x "") names)) None].
Definition hinted (tr : stree) (names : list string) : node_state (always tr) :=
  save_link_hint (Some (map (fun x => mknact x "") names)) None (node_new (always tr)).
Definition py_uri : string := "file:///home/v.7.py".
Definition c110_src : string := "print(user.name, a.b.c)".
Definition c110_user : stree := SN "attribute" (pn 6 6 15 5) [pl "object" 7 6 10 6; pl "attribute" 8 11 15 6].
Definition c110_abc : stree :=
  SN "attribute" (pn 9 17 22 5)
    [("object"%string, SN "attribute" (pn 10 17 20 17) [pl "object" 11 17 18 17; pl "attribute" 12 19 20 17]); pl "attribute" 13 21 22 17].
Definition c110_tree : stree :=
  SN "module" (nn 1 0 23)
    [(""%string, SN "expression_statement" (pn 2 0 23 0)
      [(""%string, SN "call" (pn 3 0 23 0)
        [pl "function" 4 0 5 0; ("arguments"%string, SN "argument_list" (pn 5 5 23 0) [(""%string, c110_user); (""%string, c110_abc)])])])].
Ltac good_tree := split; [repeat constructor|]; split; [whole|]; split;
  [unfold told_apart; vm_compute; repeat constructor; cbn; intuition discriminate|]; split; [vm_compute; repeat constructor; discriminate|];
  split; [vm_compute; repeat constructor|];
  repeat (apply Forall_cons; [repeat split; vm_compute; reflexivity|]); apply Forall_nil.
Definition links_are (tr : stree) (names : list string) (src : string) (l : list js_identifier) : Prop :=
  match add_one (fs_with []) scheme_url Debug 7 "v" (ascii_text src) 40 "py" None (hinted tr names) with Ok (_, l') => l' = l | Panic => False end.
Lemma links_ok tr names src l : links_are tr names src l ->
  exists s', add_one (fs_with []) scheme_url Debug 7 "v" (ascii_text src) 40 "py" None (hinted tr names) = Ok (s', l).
Proof. unfold links_are. destruct (add_one _ _ _ _ _ _ _ _ _ _) as [[s' l']|]; [intros <-; now exists s'|intros []]. Qed.
Definition good (n : N) (t : text) (tr : stree) : Prop :=
  scalars t /\ on_characters t tr /\ told_apart tr /\ no_error tr /\ parents tr /\
  Forall (fun x => in_host n (n_start (s_node x)) /\ in_host n (n_end (s_node x))) (preorder tr).
Lemma c110_good : good 40 (ascii_text c110_src) c110_tree.
Proof. good_tree. Qed.
Example C110_example :
  node_run (fs_with []) scheme_url Debug (hint_ops ["user.name"; "x"; "a.b.c"; "a.b.c"]%string) (node_new (always c110_tree)) = Ok (hinted c110_tree ["user.name"; "x"; "a.b.c"; "a.b.c"]%string) /\
  scheme_url (home_url "v" 7 "py") = Some py_uri /\ file_ext py_uri = Some Backend /\
  links_are c110_tree ["user.name"; "x"; "a.b.c"; "a.b.c"]%string c110_src
    [link_to 40 c110_user ["user"; "name"]%string; link_to 40 c110_abc ["a"; "b"; "c"]%string; link_to 40 c110_abc ["a"; "b"; "c"]%string] /\
  good 40 (ascii_text c110_src) c110_tree /\
  pure c110_src c110_tree c110_user ["user"; "name"]%string /\ pure c110_src c110_tree c110_abc ["a"; "b"; "c"]%string /\
  (forall x, In x (preorder c110_tree) -> s_kind x = "attribute"%string ->
     exists t ws, pure c110_src c110_tree t ws /\ n_start (s_node t) = n_start (s_node x)).
Proof.
  assert (P1 : pure c110_src c110_tree c110_user ["user"; "name"]%string).
  { split; [vm_compute; tauto|]. split; [exact (DnTwo c110_src (pn 6 6 15 5) "object" (pn 7 6 10 6) "attribute" (pn 8 11 15 6) eq_refl)|]. intros x Hx Hk Hs.
    repeat destruct Hx as [<-|Hx]; try discriminate; try (vm_compute; tauto). }
  assert (P2 : pure c110_src c110_tree c110_abc ["a"; "b"; "c"]%string).
  { split; [vm_compute; tauto|]. split; [exact (DnMore c110_src (pn 9 17 22 5) "object" _ _ "attribute" (pn 13 21 22 17) (DnTwo c110_src (pn 10 17 20 17) "object" (pn 11 17 18 17) "attribute" (pn 12 19 20 17) eq_refl) eq_refl eq_refl)|].
    intros x Hx Hk Hs. repeat destruct Hx as [<-|Hx]; try discriminate; try (vm_compute; tauto). }
  split; [reflexivity|]. split; [reflexivity|]. split; [reflexivity|]. split; [vm_compute; reflexivity|]. split; [exact c110_good|]. split; [exact P1|]. split; [exact P2|].
  intros x Hx Hk. repeat destruct Hx as [<-|Hx]; try discriminate; try (now destruct Hx).
  - now exists c110_user, ["user"; "name"]%string.
  - now exists c110_abc, ["a"; "b"; "c"]%string.
  - now exists c110_abc, ["a"; "b"; "c"]%string.
Qed.
(** Every use of a hinted name is linked: false for a name without dots. *)
Definition c110x_tree : stree :=
  SN "module" (nn 1 0 1) [(""%string, SN "expression_statement" (pn 2 0 1 0) [pl "" 3 0 1 0])].
Theorem C110_plain_refuted :
  exists F url b os src tr (s s' : node_state (always tr)) id f n links uri y a,
    node_run F url b os (node_new (always tr)) = Ok s /\ url (home_url f id "py") = Some uri /\ file_ext uri = Some Backend /\
    add_one F url b id f (ascii_text src) n "py" None s = Ok (s', links) /\ good n (ascii_text src) tr /\
    In y (preorder tr) /\ s_kind y = "identifier"%string /\ In a (temporary os) /\ na_name a = text_of src (s_node y) /\ links = [].
Proof.
  destruct (links_ok c110x_tree ["x"]%string "x" []) as (s' & H); [vm_compute; reflexivity|].
  exists (fs_with []), scheme_url, Debug, (hint_ops ["x"]%string), "x"%string, c110x_tree, (hinted c110x_tree ["x"]%string), s', 7, "v"%string, 40, [], py_uri.
  exists (SN "identifier" (pn 3 0 1 0) []), (mknact "x" "").
  split; [reflexivity|]. split; [reflexivity|]. split; [reflexivity|]. split; [exact H|]. split; [unfold good; good_tree|].
  split; [vm_compute; tauto|]. split; [reflexivity|]. split; [now left|]. split; reflexivity.
Qed.
Print Assumptions C110_plain_refuted.
(** What is linked is what the hint names: false, [a.b().c] is linked to the hint
    [a.b.c]. *)
Definition c110c_tree : stree :=
  SN "module" (nn 1 0 7) [(""%string, SN "expression_statement" (pn 2 0 7 0)
    [(""%string, SN "attribute" (pn 3 0 7 0)
      [("object"%string, SN "call" (pn 4 0 5 0)
        [("function"%string, SN "attribute" (pn 5 0 3 0) [pl "object" 6 0 1 0; pl "attribute" 7 2 3 0]);
         ("arguments"%string, SN "argument_list" (pn 8 3 5 0) [])]);
       pl "attribute" 9 6 7 0])])].
Theorem C110_call_refuted :
  exists F url b os src tr (s s' : node_state (always tr)) id f n links uri x l a,
    node_run F url b os (node_new (always tr)) = Ok s /\ url (home_url f id "py") = Some uri /\ file_ext uri = Some Backend /\
    add_one F url b id f (ascii_text src) n "py" None s = Ok (s', links) /\ good n (ascii_text src) tr /\
    In l links /\ In a (temporary os) /\ js_name l = na_name a /\
    In x (preorder tr) /\ js_start l = place n (n_start (s_node x)) /\ js_end l = place n (n_end (s_node x)) /\
    text_of src (s_node x) = "a.b().c"%string /\ na_name a = "a.b.c"%string.
Proof.
  destruct (links_ok c110c_tree ["a.b.c"]%string "a.b().c" [mkjs (mkpos 40 0) (mkpos 40 7) "a.b.c" JsLink]) as (s' & H); [vm_compute; reflexivity|].
  exists (fs_with []), scheme_url, Debug, (hint_ops ["a.b.c"]%string), "a.b().c"%string, c110c_tree, (hinted c110c_tree ["a.b.c"]%string), s', 7, "v"%string, 40. eexists. exists py_uri.
  exists (nth 2 (preorder c110c_tree) c110c_tree), (mkjs (mkpos 40 0) (mkpos 40 7) "a.b.c" JsLink), (mknact "a.b.c" "").
  split; [reflexivity|]. split; [reflexivity|]. split; [reflexivity|]. split; [exact H|]. split; [unfold good; good_tree|].
  split; [now left|]. split; [now left|]. split; [reflexivity|]. split; [vm_compute; tauto|]. repeat split.
Qed.
Print Assumptions C110_call_refuted.
