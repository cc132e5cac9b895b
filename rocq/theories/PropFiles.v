(** * PropFiles: properties C08, C09 and C56 (the document store). *)
From Verif Require Import Base Utf8 Rope Types Captures MSearchErrors MLspFiles.
From Verif Require Import SpecFiles PFiles.

(** An oracle whose tree is the text it was parsed from; no captures. *)
Definition ts_echo : ts :=
  mkts string (fun _ c _ => Some c) (fun t _ => t) (fun _ _ _ => []) (fun _ => pt0).
(** An empty file system. *)
Definition fs_empty : fs :=
  mkfs (fun _ => CanonNotFound) (fun _ => None) (fun _ => []) (fun _ => None).

(** ** C08: the stored tree of every document is a parse of its current text. *)
Theorem C08_trees_current :
  forall T (b : build) (es : list doc_event) (s s' : lsp_files T),
    parse_total T -> Forall event_ok es -> trees_current s ->
    doc_history b es s = Ok s' -> trees_current s'.
Proof. intros T b es s s'. apply history_current. Qed.
Print Assumptions C08_trees_current.
(** The two states a session starts from: the empty one and an indexed one. *)
Theorem C08_initial : forall T, trees_current (ls_default T).
Proof. intros T. exact default_current. Qed.
Print Assumptions C08_initial.
Theorem C08_indexed :
  forall T F b c d (s : lsp_files T),
    parse_total T -> disk_ok F -> walkdir T F b c = Ok (Some (d, s)) -> trees_current s.
Proof. intros T F b c d s. apply walkdir_current. Qed.
Print Assumptions C08_indexed.

(** Two documents, edited in turn; the trees follow the texts. *)
Definition c08_events : list doc_event :=
  [EvOpen fs_empty "file:///a.html" [97; 98];
   EvOpen fs_empty "file:///b.py" [99];
   EvChange 0 "file:///a.html"
     [mkchange (Some (mkrange (mkpos 0 1) (mkpos 0 1))) [120; 121];
      mkchange (Some (mkrange (mkpos 0 0) (mkpos 0 1))) []];
   EvSave fs_empty "file:///a.html";
   EvChange 1 "file:///b.py" [mkchange (Some (mkrange (mkpos 0 1) (mkpos 0 1))) [100]]]%string.
Example C08_example :
  parse_total ts_echo /\ Forall event_ok c08_events /\
  exists s', doc_history Debug c08_events (ls_default ts_echo) = Ok s' /\
    sget "file:///a.html" (ls_docs s') = Some [120; 121; 98] /\
    sget "file:///a.html" (ls_tt s') = Some "xyb"%string /\
    sget "file:///b.py" (ls_bt s') = Some "cd"%string.
Proof.
  split; [intros l c old; discriminate|]. split.
  - repeat constructor; discriminate.
  - eexists. vm_compute. repeat split; reflexivity.
Qed.
Example C08_index_example :
  let F := mkfs (fun p => if String.eqb p "t/a.html" then CanonOk "/w/t/a.html" else CanonNotFound)
             (fun p => Some [104; 105]) (fun d => [WFile "t/a.html"; WOther "t/x"]) (fun _ => None) in
  let c := mkcfg "t" [] "rust" true None in
  disk_ok F /\
  exists d s, walkdir ts_echo F Debug c = Ok (Some (d, s)) /\
    sget "file:///w/t/a.html" (ls_tt s) = Some "hi"%string.
Proof.
  cbn zeta. split.
  - split; cbn; intros p n.
    + destruct (String.eqb_spec p "t/a.html"); [|discriminate]. intros H; inversion H; subst. reflexivity.
    + intros H; inversion H; subst. repeat constructor.
  - do 2 eexists. vm_compute. split; reflexivity.
Qed.

(** ** C09: a notification for one URI leaves the others alone. *)
Theorem C09_isolation :
  forall T b e uri (s s' : lsp_files T),
    match e with EvOpen _ u _ | EvChange _ u _ | EvSave _ u => u = uri end ->
    doc_step b s e = Ok s' -> same_elsewhere uri s s'.
Proof. intros T b e uri s s'. apply doc_step_frame. Qed.
Print Assumptions C09_isolation.
Theorem C09_unknown_uri :
  forall T tid uri cs (s : lsp_files T),
    sget uri (ls_docs s) = None -> did_change tid uri cs s = Ok (s, None).
Proof. intros T tid uri cs s. apply did_change_unknown. Qed.
Print Assumptions C09_unknown_uri.
Example C09_example :
  exists s1 s2, doc_history Debug (firstn 4 c08_events) (ls_default ts_echo) = Ok s1 /\
    doc_step Debug s1 (EvChange 1 "file:///b.py"
      [mkchange (Some (mkrange (mkpos 0 1) (mkpos 0 1))) [100]]) = Ok s2 /\
    sget "file:///a.html" (ls_docs s1) <> None /\
    sget "file:///b.py" (ls_docs s1) <> sget "file:///b.py" (ls_docs s2).
Proof.
  eexists. eexists. split; [vm_compute; reflexivity|]. split; [vm_compute; reflexivity|].
  split; vm_compute; discriminate.
Qed.

(** ** C56: reopening hands the unedited old tree to the parser. *)
(** A parser that trusts an unedited old tree, as tree-sitter does: trees
    remember the text they were parsed from until they are edited. *)
Definition ts_reuse : ts :=
  mkts (option string)
    (fun _ c old => match old with Some (Some o) => Some (Some o) | _ => Some (Some c) end)
    (fun _ _ => None) (fun _ _ _ => []) (fun _ => pt0).
Theorem C56_reopen_stale_tree_refuted :
  exists (T : ts) (tree_text : tree T -> option string) b uri t1 t2 s1 s2 d1 d2,
    (* parses are correct from scratch, from an edited tree, and from an
       unedited tree of the same text *)
    (forall l c old, match old with None => True | Some o => tree_text o = None \/ tree_text o = Some c end ->
       exists tr, t_parse T l c old = Some tr /\ tree_text tr = Some c) /\
    (forall tr ie, tree_text (t_edit T tr ie) = None) /\
    did_open fs_empty b uri t1 false (ls_default T) = Ok (s1, d1) /\
    did_open fs_empty b uri t2 false s1 = Ok (s2, d2) /\
    sget uri (ls_docs s2) = Some t2 /\
    (exists tr, sget uri (ls_tt s2) = Some tr /\ tree_text tr = Some (encode t1)) /\
    encode t1 <> encode t2.
Proof.
  exists ts_reuse, (fun x => x), Debug, "file:///a.html"%string, [97], [98].
  do 4 eexists. split.
  - intros l c [o|] H; cbn in *; [|eauto]. destruct H as [->| ->]; eauto.
  - split; [reflexivity|]. split; [vm_compute; reflexivity|]. split; [vm_compute; reflexivity|].
    split; [vm_compute; reflexivity|]. split; [eexists; vm_compute; split; reflexivity|].
    vm_compute. discriminate.
Qed.
Print Assumptions C56_reopen_stale_tree_refuted.
(** Exactly which tree is passed, in every state. *)
Theorem C56_reopen_old_tree :
  forall T F b uri l t (s s' : lsp_files T) d,
    parse_total T -> file_ext uri = Some l -> did_open F b uri t false s = Ok (s', d) ->
    sget uri (trees_of l s') =
      t_parse T (match l with Template => PJinja | Backend => ls_parser s end) (encode t)
        (sget uri (trees_of l s)).
Proof. intros T F b uri l t s s' d. apply did_open_tree. Qed.
Print Assumptions C56_reopen_old_tree.
Example C56_example :
  parse_total ts_reuse /\ file_ext "file:///a.html" = Some Template /\
  exists s d, did_open fs_empty Debug "file:///a.html" [97] false (ls_default ts_reuse) = Ok (s, d).
Proof.
  split; [intros l c [[o|]|]; discriminate|]. split; [reflexivity|].
  do 2 eexists. vm_compute. reflexivity.
Qed.
