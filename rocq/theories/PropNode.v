(** * PropNode: the Node binding (C49-C52, C78-C82). *)
From Verif Require Import Base RString Utf8 Rope Types Captures.
From Verif Require Import MDefinition MObjects MTemplates MSearchErrors MLspFiles MLspTask MNode.
From Verif Require Import SpecText SpecFiles SpecScope SpecObjects SpecNode PUtf8 PObjects PNode PNode2.
From Verif Require Import PropFiles PropObjects PropLint PropNav.

(* [split] on anything but a conjunction would evaluate it lazily. *)
Ltac conj := lazymatch goal with |- _ /\ _ => split; conj | _ => idtac end.
Ltac exam := cbv zeta; conj; try (vm_compute; reflexivity).

(** ** C49 *)
Theorem C49_variables :
  forall T b id n (s : node_state T) vs,
    sget id (ls_vars (nd_files s)) = Some vs ->
    Forall (fun v => in_host n (id_start v) /\ in_host n (id_end v)) vs ->
    get_variables b id n s =
      Ok (Some (map (fun v => mkjs (place n (id_start v)) (place n (id_end v)) (id_name v) (JsOf (id_type v))) vs)).
Proof. intros T b id n s vs. exact (variables_placed b id n s vs). Qed.
Print Assumptions C49_variables.
(** Hover answers with the server's range, moved. *)
Theorem C49_hover_range :
  forall T url b id f n pos (s : node_state T) uri i ct,
    url (home_url f id "jinja") = Some uri -> hover b uri pos (nd_files s) = Ok (Some (i, ct)) ->
    in_host n (id_start i) -> in_host n (id_end i) ->
    exists o, node_hover url b id f n (lower n pos) s = Ok o /\
      forall v r, o = Some (v, r) -> r = mkrange (place n (id_start i)) (place n (id_end i)).
Proof. intros T url b id f n pos s uri i ct. exact (hover_range url b id f n pos s uri i ct). Qed.
Print Assumptions C49_hover_range.
(** A query moved down by the offset has the answer of the query without
    offset, moved down by it. *)
Theorem C49_hover :
  forall T url b id f n pos (s : node_state T) v r,
    node_hover url b id f 0 pos s = Ok (Some (v, r)) -> fits n r ->
    node_hover url b id f n (lower n pos) s = Ok (Some (v, lower_range n r)).
Proof. intros T url b id f n pos s v r. exact (hover_lowered url b id f n pos s v r). Qed.
Print Assumptions C49_hover.
(** What hover says: a built-in filter is explained, another one is not; for a
    name whose kind is known the first hint that begins with it, else its kind. *)
Theorem C49_hover_filter :
  forall T url b id f n pos (s : node_state T) uri i,
    url (home_url f id "jinja") = Some uri -> hover b uri pos (nd_files s) = Ok (Some (i, CtFilter)) ->
    in_host n (id_start i) -> in_host n (id_end i) ->
    (In (id_name i) filter_names ->
       node_hover url b id f n (lower n pos) s = Ok (Some (HvFilter (id_name i), mkrange (place n (id_start i)) (place n (id_end i))))) /\
    (~ In (id_name i) filter_names -> node_hover url b id f n (lower n pos) s = Ok None).
Proof. intros T. exact hover_filter. Qed.
Print Assumptions C49_hover_filter.
Theorem C49_hover_name :
  forall T url b id f n pos (s : node_state T) uri i ct,
    url (home_url f id "jinja") = Some uri -> hover b uri pos (nd_files s) = Ok (Some (i, ct)) -> ct <> CtFilter ->
    in_host n (id_start i) -> in_host n (id_end i) ->
    let range := mkrange (place n (id_start i)) (place n (id_end i)) in
    let hints := match sget "temp"%string (nd_actions s) with Some l => l | None => [] end in
    match data_type uri i (nd_files s) with
    | None => node_hover url b id f n (lower n pos) s = Ok None
    | Some t =>
        (forall a h z, hints = a ++ h :: z -> Forall (fun x => ~ exists r, na_name x = (id_name i ++ r)%string) a ->
           (exists r, na_name h = (id_name i ++ r)%string) ->
           node_hover url b id f n (lower n pos) s = Ok (Some (HvAction (na_desc h), range))) /\
        (Forall (fun x => ~ exists r, na_name x = (id_name i ++ r)%string) hints ->
           node_hover url b id f n (lower n pos) s = Ok (Some (HvDefault (completion_detail t) (id_name i), range)))
    end.
Proof. intros T. exact hover_name. Qed.
Print Assumptions C49_hover_name.
Theorem C49_complete :
  forall T url b id f n pos (s : node_state T) items,
    node_complete url b id f 0 pos s = Ok (Some items) -> items <> [] -> Forall (item_fits n) items ->
    node_complete url b id f n (lower n pos) s = Ok (Some (map (lower_item n) items)).
Proof. intros T url b id f n pos s items. exact (complete_lowered url b id f n pos s items). Qed.
Print Assumptions C49_complete.
Theorem C49_goto :
  forall T F url b id f n pos (s : node_state T) ls,
    node_goto F url b id f 0 pos s = Ok (Some ls) -> Forall (fun l => fits n (jl_range l)) ls ->
    node_goto F url b id f n (lower n pos) s = Ok (Some (map (lower_location n) ls)).
Proof. intros T F url b id f n pos s ls. exact (goto_lowered F url b id f n pos s ls). Qed.
Print Assumptions C49_goto.
(** Above the offset: a debug build panics; a release build asks far below the
    document and finds nothing. *)
Theorem C49_above_debug :
  forall T F url id f n pos (s : node_state T), line pos < n ->
    node_hover url Debug id f n pos s = Panic /\ node_complete url Debug id f n pos s = Panic /\
    node_goto F url Debug id f n pos s = Panic.
Proof. intros T F url id f n pos s. exact (above_panics F url id f n pos s). Qed.
Print Assumptions C49_above_debug.
Theorem C49_above_release :
  forall T url id f n pos (s : node_state T) uri,
    url (home_url f id "jinja") = Some uri -> line pos < n -> n < 4294967296 ->
    (forall tr t c, sget uri (ls_tt (nd_files s)) = Some tr -> sget uri (ls_docs (nd_files s)) = Some t ->
       In c (concat (t_captures T QObjects tr (rope_content t))) ->
       text_ok (rope_content t) c /\ (c_name c = CPipe -> n_start (c_node c) <> pt0) /\
       row (n_start (c_node c)) < line pos + (4294967296 - n) /\ row (n_end (c_node c)) < line pos + (4294967296 - n)) ->
    node_hover url Release id f n pos s = Ok None.
Proof. intros T url id f n pos s uri. exact (above_misses_none url id f n pos s uri). Qed.
Print Assumptions C49_above_release.

(** The example document and a URL parser that wants a scheme. *)
Definition scheme_url : url_parser := fun u => if contains u "://" then Some u else None.
Definition n_src : string := "{{ user.name }}{{ x | upper }}".
Definition n_ps : list piece :=
  [PExpr (ex 0 15); PChain (tk 3 7 "user") [mkacc (nd 7 8) false (tk 8 12 "name")];
   PExpr (ex 15 30); PChain (tk 18 19 "x") []; PFilter (tk 20 22 "| ") (tk 22 27 "upper")].
Definition n_ts : ts := ts_fixed n_ps.
Definition n_acts : list naction :=
  [mknact "user.name" "the name"; mknact "x" "ex"; mknact "user" "the user"; mknact "user.name" "again"].
Definition n_ops : list node_op := [OSave (Some [mknact "old" "o"]) None; OSave (Some n_acts) None; OSave (Some [mknact "k" "d"]) (Some "other"%string)].
Definition ok_or {A} (d : A) (r : res A) : A := match r with Ok a => a | Panic => d end.
Definition n_state0 : node_state n_ts := ok_or (node_new n_ts) (node_run fs_empty scheme_url Debug n_ops (node_new n_ts)).
Definition n_added (n : N) := ok_or (n_state0, []) (add_one fs_empty scheme_url Debug 7 "v.html" (ascii_text n_src) n "jinja" None n_state0).
Definition n_state : node_state n_ts := fst (n_added 40).
Example C49_example :
  get_variables Debug "temp" 40 n_state =
    Ok (Some (map (fun a => mkjs (mkpos 40 0) (mkpos 40 0) (na_name a) (JsOf BackendVariable)) n_acts)) /\
  node_hover scheme_url Debug 7 "v.html" 0 (mkpos 0 5) n_state =
    Ok (Some (HvAction "the name", mkrange (mkpos 0 3) (mkpos 0 7))) /\
  node_hover scheme_url Debug 7 "v.html" 40 (mkpos 40 5) n_state =
    Ok (Some (HvAction "the name", mkrange (mkpos 40 3) (mkpos 40 7))) /\
  node_hover scheme_url Debug 7 "v.html" 40 (mkpos 39 5) n_state = Panic /\
  node_hover scheme_url Release 7 "v.html" 40 (mkpos 39 5) n_state = Ok None /\
  node_complete scheme_url Debug 7 "v.html" 40 (mkpos 40 21) n_state = Ok (Some (map JsFilter filter_names)) /\
  node_complete scheme_url Debug 7 "v.html" 40 (mkpos 40 13) n_state =
    Ok (Some (map (fun x => JsIdent x "Backend variable") ["user.name"; "x"; "user"; "user.name"; "k"]%string)).
Proof. exam. Qed.

(** ** C50 *)
Theorem C50_links :
  forall T F url b os (s : node_state T) id f content n k s' links uri ps,
    let doc := repeat 32 (N.to_nat (match k with Some c => c | None => 0 end)) ++ content in
    parse_total T -> scalar_text doc -> node_run F url b os (node_new T) = Ok s ->
    url (home_url f id "jinja") = Some uri -> file_ext uri = Some Template ->
    add_one F url b id f content n "jinja" k s = Ok (s', links) ->
    pieces_ok (encode doc) ps ->
    (forall tr, t_parse T PJinja (encode doc) (sget uri (ls_tt (nd_files s))) = Some tr ->
       concat (t_captures T QObjects tr (encode doc)) = cap_pieces ps) ->
    Forall (fun o => in_host n (fst (o_loc o)) /\ in_host n (chain_end o)) (flat_map uses ps) ->
    links = flat_map (fun o => times (use_link n o) (names_chain (segments o)) (temporary os)) (flat_map uses ps).
Proof.
  intros T F url b os s id f content n k s' links uri ps.
  exact (links_pieces F url b os s id f content n k s' links uri ps).
Qed.
Print Assumptions C50_links.
(** The same for any document, relative to the uses the server reads in it. *)
Theorem C50_links_any :
  forall T F url b os (s : node_state T) id f content n k s' links uri objs,
    node_run F url b os (node_new T) = Ok s -> url (home_url f id "jinja") = Some uri -> file_ext uri = Some Template ->
    add_one F url b id f content n "jinja" k s = Ok (s', links) ->
    read_objects b uri (nd_files s') = Ok (Some objs) ->
    Forall (fun o => in_host n (fst (o_loc o)) /\ in_host n (chain_end o)) objs ->
    sget uri (ls_docs (nd_files s')) = Some (repeat 32 (N.to_nat (match k with Some c => c | None => 0 end)) ++ content) /\
    links = flat_map (fun o => times (use_link n o) (names_chain (segments o)) (temporary os)) objs.
Proof.
  intros T F url b os s id f content n k s' links uri objs.
  exact (links_exact F url b os s id f content n k s' links uri objs).
Qed.
Print Assumptions C50_links_any.
Theorem C50_python_links :
  forall T F url b os (s : node_state T) id f content n k s' links uri ids l,
    node_run F url b os (node_new T) = Ok s -> url (home_url f id "py") = Some uri -> file_ext uri = Some l ->
    add_one F url b id f content n "py" k s = Ok (s', links) ->
    read_python_ids uri (nd_files s') = Ok (Some ids) ->
    Forall (fun p => in_host n (py_start p) /\ in_host n (py_end p)) ids ->
    sget uri (ls_docs (nd_files s')) = Some (repeat 32 (N.to_nat (match k with Some c => c | None => 0 end)) ++ content) /\
    links = flat_map (fun p => times (py_link n p) (fun a => String.eqb (na_name a) (py_field p)) (temporary os)) ids.
Proof.
  intros T F url b os s id f content n k s' links uri ids l.
  exact (py_links_all F url b os s id f content n k s' links uri ids l).
Qed.
Print Assumptions C50_python_links.
(** Backend code is read as Python, whatever was called before. *)
Theorem C50_python_language :
  forall T F url b os (s : node_state T), node_run F url b os (node_new T) = Ok s ->
    ls_query (nd_files s) = PPython /\ ls_parser (nd_files s) = PPython.
Proof. intros T. exact node_python. Qed.
Print Assumptions C50_python_language.
(** [user.name] is registered twice; [x] once; [user] alone is no use of the
    document. *)
Example C50_example :
  node_run fs_empty scheme_url Debug n_ops (node_new n_ts) = Ok n_state0 /\
  pieces_ok n_src n_ps /\ temporary n_ops = n_acts /\
  add_one fs_empty scheme_url Debug 7 "v.html" (ascii_text n_src) 40 "jinja" None n_state0 = Ok (n_added 40) /\
  snd (n_added 40) =
    [mkjs (mkpos 40 3) (mkpos 40 12) "user" JsLink; mkjs (mkpos 40 3) (mkpos 40 12) "user" JsLink;
     mkjs (mkpos 40 18) (mkpos 40 19) "x" JsLink].
Proof. split; [vm_compute; reflexivity|]. split; [pieces_okay|]. exam. Qed.
(** Two python identifiers, one of them a chain. *)
Definition py_node (a z : N) (p : option point) : node :=
  mknode a a z (mkpt 0 a) (mkpt 0 z) (pt0, pt0) (pt0, pt0) p.
Definition py_caps : list capture :=
  [mkcap CIdentifier (py_node 0 4 (Some (mkpt 0 0))); mkcap CIdentifier (py_node 5 9 (Some (mkpt 0 0)));
   mkcap CIdentifier (py_node 10 11 (Some (mkpt 0 10)))].
Definition py_ts : ts := mkts unit (fun _ _ _ => Some tt) (fun t _ => t) (fun q _ _ => match q with QPythonIds => [py_caps] | _ => [] end) (fun _ => pt0).
Definition py_state0 : node_state py_ts := ok_or (node_new py_ts) (node_run fs_empty scheme_url Debug n_ops (node_new py_ts)).
Example C50_python_example :
  match add_one fs_empty scheme_url Debug 7 "v" (ascii_text "user.name x") 40 "py" None py_state0 with
  | Ok (s', links) =>
      read_python_ids "file:///home/v.7.py" (nd_files s') <> Ok None /\
      links = [mkjs (mkpos 40 0) (mkpos 40 9) "user.name" JsLink; mkjs (mkpos 40 0) (mkpos 40 9) "user.name" JsLink;
               mkjs (mkpos 40 10) (mkpos 40 11) "x" JsLink]
  | Panic => False
  end.
Proof. vm_compute. conj; congruence. Qed.

(** ** C51 *)
Theorem C51_saved_names :
  forall T b acts h n (s : node_state T), n < 4294967296 ->
    get_variables b (key_of h) n (save_link_hint (Some acts) h s) =
    Ok (Some (map (fun a => mkjs (mkpos n 0) (mkpos n 0) (na_name a) (JsOf BackendVariable)) acts)).
Proof. intros T b acts h n s. exact (save_get b acts h n s). Qed.
Print Assumptions C51_saved_names.
Theorem C51_others_untouched :
  forall T b acts h n k (s : node_state T),
    k <> key_of h -> get_variables b k n (save_link_hint acts h s) = get_variables b k n s.
Proof. intros T b acts h n k s. exact (save_other b acts h n k s). Qed.
Print Assumptions C51_others_untouched.
Theorem C51_removed :
  forall T b h n k (s : node_state T),
    get_variables b k n (remove_temp_link_hint h s) =
    if String.eqb k (key_of h) then Ok None else get_variables b k n s.
Proof. intros T b h n k s. exact (remove_get b h n k s). Qed.
Print Assumptions C51_removed.
(** The hint tables after any history of calls hold, for every key, the hints of
    the last call about that key. *)
Theorem C51_history :
  forall T F url b os (s : node_state T) key,
    node_run F url b os (node_new T) = Ok s ->
    sget key (nd_actions s) = registered key os /\
    sget key (nd_objs s) = option_map (map ao_of_action) (registered key os).
Proof. intros T F url b os s key. exact (node_hints F url b os s key). Qed.
Print Assumptions C51_history.
Example C51_example :
  registered "other" n_ops = Some [mknact "k" "d"] /\ registered "temp" n_ops = Some n_acts /\
  registered "temp" (n_ops ++ [ORemove None]) = None /\
  registered "other" (n_ops ++ [ORemove None]) = Some [mknact "k" "d"] /\
  get_variables Debug "temp" 3 (remove_temp_link_hint None n_state) = Ok None /\
  get_variables Debug "other" 3 (remove_temp_link_hint None n_state) =
    Ok (Some [mkjs (mkpos 3 0) (mkpos 3 0) "k" (JsOf BackendVariable)]).
Proof. exam. Qed.

(** ** C52 *)
Theorem C52_delete_exact :
  forall T f (s : node_state T) k,
    let gone := contains k f = true /\ sget k (ls_docs (nd_files s)) <> None in
    let files := nd_files s in let files' := nd_files (delete_all f s) in
    (gone -> sget k (ls_docs files') = None /\ sget k (ls_vars files') = None /\ sget k (ls_tt files') = None) /\
    (~ gone -> sget k (ls_docs files') = sget k (ls_docs files) /\ sget k (ls_vars files') = sget k (ls_vars files) /\
               sget k (ls_tt files') = sget k (ls_tt files)) /\
    ls_bt files' = ls_bt files /\ ls_config files' = ls_config files /\ ls_actions files' = ls_actions files /\
    nd_actions (delete_all f s) = nd_actions s /\ nd_objs (delete_all f s) = nd_objs s.
Proof. intros T f s k. exact (delete_exact f s k). Qed.
Print Assumptions C52_delete_exact.
Definition two_files : list node_op :=
  [OSave (Some n_acts) None; OOne 1 "a.html" (ascii_text n_src) 0 "jinja" None; OOne 2 "a.html" (ascii_text n_src) 0 "jinja" None;
   OOne 1 "ba.html" (ascii_text n_src) 0 "jinja" None; OOne 1 "c.html" (ascii_text n_src) 0 "jinja" None].
Definition two_state : node_state n_ts := ok_or (node_new n_ts) (node_run fs_empty scheme_url Debug two_files (node_new n_ts)).
Definition doc_uris {T} (s : node_state T) : list string := map fst (ls_docs (nd_files s)).
Example C52_example :
  node_run fs_empty scheme_url Debug two_files (node_new n_ts) = Ok two_state /\
  length (doc_uris two_state) = 4%nat /\
  doc_uris (delete_all "/a.html" two_state) =
    filter (fun u => negb (contains u "/a.html")) (doc_uris two_state) /\
  length (doc_uris (delete_all "/a.html" two_state)) = 2%nat /\
  get_variables Debug "temp" 0 (delete_all "/a.html" two_state) = get_variables Debug "temp" 0 two_state.
Proof. exam. Qed.

(** ** C78: registered hints are offered with their description *)
Definition offered_with_description {T} (url : url_parser) b id f n pos (s : node_state T) (acts : list naction) : Prop :=
  forall items, node_complete url b id f n pos s = Ok (Some items) ->
    forall a, In a acts -> In (JsIdent (na_name a) (na_desc a)) items.
(** Hints saved under "temp" are offered with a fixed text instead of their
    description; hints registered by [add_link_hints] are not offered. *)
Theorem C78_description_refuted :
  exists T url b id f n pos (s : node_state T) acts items,
    registered "temp" n_ops = Some acts /\ sget "temp"%string (nd_actions s) = Some acts /\
    node_complete url b id f n pos s = Ok (Some items) /\
    In (mknact "x" "ex") acts /\ In (JsIdent "x" "Backend variable") items /\
    ~ offered_with_description url b id f n pos s acts /\
    exists s2 items2, s2 = add_link_hints "temp" (Some acts) (remove_temp_link_hint None s) /\
      sget "temp"%string (nd_actions s2) = Some acts /\
      node_complete url b id f n pos s2 = Ok (Some items2) /\
      forall d, ~ In (JsIdent "x" d) items2.
Proof.
  exists n_ts, scheme_url, Debug, 7, "v.html"%string, 40, (mkpos 40 13), n_state, n_acts.
  eexists. split; [vm_compute; reflexivity|]. split; [vm_compute; reflexivity|]. split; [vm_compute; reflexivity|].
  split; [right; left; reflexivity|]. split; [right; left; reflexivity|]. split.
  - intros H. unfold offered_with_description in H.
    assert (E : exists items, node_complete scheme_url Debug 7 "v.html" 40 (mkpos 40 13) n_state = Ok (Some items) /\
              forall i, In i items -> exists x, i = JsIdent x "Backend variable").
    { eexists. split; [vm_compute; reflexivity|]. intros i Hi. repeat (destruct Hi as [<-|Hi]; [eauto|]). destruct Hi. }
    destruct E as (items & E & Hi). specialize (H items E (mknact "x" "ex") (or_intror (or_introl eq_refl))).
    destruct (Hi _ H) as (x & Ex). discriminate.
  - do 2 eexists. split; [reflexivity|]. split; [vm_compute; reflexivity|]. split; [vm_compute; reflexivity|].
    intros d H. repeat (destruct H as [H|H]; [discriminate|]). destruct H.
Qed.
Print Assumptions C78_description_refuted.
(** Every hint saved under "temp" is offered by name. *)
Theorem C78_offered_partial :
  forall T url b id f n pos (s : node_state T) acts uri ct auto items,
    let s1 := save_link_hint (Some acts) None s in
    url (home_url f id "jinja") = Some uri ->
    completion b uri pos (Some TkTriggerCharacter) (nd_files s1) = Ok (Some (ct, auto)) -> ct = CtIdentifier ->
    node_complete url b id f n (lower n pos) s1 = Ok (Some items) ->
    forall a, In a acts -> exists d, In (JsIdent (na_name a) d) items.
Proof. intros T url b id f n pos s acts uri ct auto items. exact (saved_offered url b id f n pos s acts uri ct auto items). Qed.
Print Assumptions C78_offered_partial.
Definition v_uri : string := "file:///home/v.html.7.jinja".
Example C78_example :
  let s1 := save_link_hint (Some n_acts) None n_state in
  scheme_url (home_url "v.html" 7 "jinja") = Some v_uri /\
  completion Debug v_uri (mkpos 0 13) (Some TkTriggerCharacter) (nd_files s1) = Ok (Some (CtIdentifier, false)) /\
  node_complete scheme_url Debug 7 "v.html" 40 (mkpos 40 13) s1 =
    Ok (Some (map (fun x => JsIdent x "Backend variable") ["user.name"; "x"; "user"; "user.name"; "k"]%string)).
Proof. exam. Qed.

(** ** C79: goto through the binding *)
Definition g_state : node_state (ts_fixed nav_ps) :=
  mknd (mkls (T := ts_fixed nav_ps) [(v_uri, tt)] [] [(v_uri, ascii_text nav_src)] PRust PRust (cfg_dir "") None true
          [(v_uri, nav_ids)] [] false false) 0 [] [].
(** A definition in the same document: the server has its place, the binding
    panics when the caller's file name is not itself a URL.  The place of a
    saved hint is no URL either. *)
Theorem C79_goto_refuted :
  exists (url : url_parser) uri l,
    (forall u, contains u "://" = true -> url u = Some u) /\
    url (home_url "v.html" 7 "jinja") = Some uri /\
    goto_definition fs_empty url Debug uri (mkpos 0 34) (nd_files g_state) = Ok (Some (GScalar (mkloc uri l))) /\
    (forall b, node_goto fs_empty url b 7 "v.html" 40 (mkpos 40 34) g_state = Panic) /\
    (forall b, node_goto fs_empty url b 7 "v.html" 40 (mkpos 40 5) n_state = Panic).
Proof.
  exists scheme_url, v_uri, (mkrange (mkpos 0 22) (mkpos 0 23)).
  split; [intros u H; unfold scheme_url; now rewrite H|]. split; [vm_compute; reflexivity|].
  split; [vm_compute; reflexivity|]. split; intros []; vm_compute; reflexivity.
Qed.
Print Assumptions C79_goto_refuted.
Theorem C79_goto_crash :
  forall T F url b id f n pos (s : node_state T) uri l,
    url (home_url f id "jinja") = Some uri -> goto_definition F url b uri pos (nd_files s) = Ok (Some (GScalar l)) ->
    contains (loc_uri l) f = true -> url f = None -> node_goto F url b id f n (lower n pos) s = Panic.
Proof. intros T F url b id f n pos s uri l. exact (goto_file_crash F url b id f n pos s uri l). Qed.
Print Assumptions C79_goto_crash.
(** When the file name is a URL the server's place is returned, moved. *)
Theorem C79_goto_partial :
  forall T F url b id f n pos (s : node_state T) uri l u a z,
    url (home_url f id "jinja") = Some uri -> goto_definition F url b uri pos (nd_files s) = Ok (Some (GScalar l)) ->
    contains (loc_uri l) f = true -> url f = Some u -> loc_range l = mkrange (place 0 a) (place 0 z) -> in_host n a -> in_host n z ->
    node_goto F url b id f n (lower n pos) s = Ok (Some [mkjl u (mkrange (place n a) (place n z)) false]).
Proof. intros T F url b id f n pos s uri l u a z. exact (goto_file_found F url b id f n pos s uri l u a z). Qed.
Print Assumptions C79_goto_partial.
Example C79_example :
  goto_definition fs_empty Some Debug v_uri (mkpos 0 34) (nd_files g_state) = Ok (Some (GScalar (at_pos v_uri 22 23))) /\
  contains v_uri "v.html" = true /\
  node_goto fs_empty Some Debug 7 "v.html" 40 (mkpos 40 34) g_state =
    Ok (Some [mkjl "v.html" (mkrange (mkpos 40 22) (mkpos 40 23)) false]).
Proof. exam. Qed.

(** ** C80: deleting one file keeps the documents of the others *)
Theorem C80_other_file_refuted :
  exists T url (os : list node_op) (s : node_state T) t,
    node_run fs_empty url Debug os (node_new T) = Ok s /\
    sget (home_url "ba.html" 1 "jinja") (ls_docs (nd_files s)) = Some t /\ t <> [] /\
    sget (home_url "ba.html" 1 "jinja") (ls_docs (nd_files (delete_all "a.html" s))) = None.
Proof.
  exists n_ts, scheme_url, two_files, two_state, (ascii_text n_src). conj; try (vm_compute; reflexivity). discriminate.
Qed.
Print Assumptions C80_other_file_refuted.
(** The name of the deleted file must not occur anywhere in the other's URI, of
    which "file:///home/" and the extension are part. *)
Theorem C80_other_file_partial :
  forall T f (s : node_state T) g id ext,
    let uri := home_url g id ext in
    let files := nd_files s in let files' := nd_files (delete_all f s) in
    contains uri f = false ->
    sget uri (ls_docs files') = sget uri (ls_docs files) /\ sget uri (ls_vars files') = sget uri (ls_vars files) /\
    sget uri (ls_tt files') = sget uri (ls_tt files) /\ sget uri (ls_bt files') = sget uri (ls_bt files).
Proof. intros T f s g id ext. exact (delete_keeps f s (home_url g id ext)). Qed.
Print Assumptions C80_other_file_partial.
Example C80_example :
  contains (home_url "c.html" 1 "jinja") "a.html" = false /\
  sget (home_url "c.html" 1 "jinja") (ls_docs (nd_files (delete_all "a.html" two_state))) = Some (ascii_text n_src) /\
  doc_uris (delete_all "home" two_state) = [].
Proof. exam. Qed.

(** ** C81: a document added after [delete_all] is treated as new *)
Theorem C81_fresh_partial :
  forall T F url b f (s : node_state T) id g content n ext k s' links uri l,
    parse_total T -> url (home_url g id ext) = Some uri -> file_ext uri = Some l -> l = Template ->
    contains uri f = true -> sget uri (ls_docs (nd_files s)) <> None ->
    add_one F url b id g content n ext k (delete_all f s) = Ok (s', links) ->
    sget uri (ls_tt (nd_files s')) =
      t_parse T PJinja (encode (repeat 32 (N.to_nat (match k with Some c => c | None => 0 end)) ++ content)) None.
Proof. intros T F url b f s id g content n ext k s' links uri l. exact (fresh_after_delete F url b f s id g content n ext k s' links uri l). Qed.
Print Assumptions C81_fresh_partial.
Definition once (f ext t : string) (T : ts) : node_state T :=
  ok_or (node_new T) (node_run fs_empty scheme_url Debug [OOne 1 f (ascii_text t) 0 ext None] (node_new T)).
Definition again (f ext t t2 : string) (T : ts) : node_state T :=
  ok_or (node_new T) (node_run fs_empty scheme_url Debug [OOne 1 f (ascii_text t2) 0 ext None] (delete_all f (once f ext t T))).
Example C81_example :
  parse_total ts_reuse /\ file_ext "file:///home/v.1.jinja" = Some Template /\
  sget "file:///home/v.1.jinja"%string (ls_docs (nd_files (once "v" "jinja" "a" ts_reuse))) = Some [97] /\
  sget "file:///home/v.1.jinja"%string (ls_tt (nd_files (again "v" "jinja" "a" "b" ts_reuse))) = Some (Some "b"%string).
Proof. split; [intros l c [[o|]|]; discriminate|]. exam. Qed.
(** The tree of a deleted python document survives and is passed, unedited, to
    the parse of the next document: with a parser that may reuse it, the new
    document has the tree of the old one, unlike in a new binding. *)
Theorem C81_python_refuted :
  exists (T : ts) (tree_text : tree T -> option string) uri,
    (forall l c old, match old with None => True | Some o => tree_text o = None \/ tree_text o = Some c end ->
       exists tr, t_parse T l c old = Some tr /\ tree_text tr = Some c) /\
    sget uri (ls_docs (nd_files (again "v" "py" "a" "b" T))) = Some (ascii_text "b") /\
    (exists tr, sget uri (ls_bt (nd_files (again "v" "py" "a" "b" T))) = Some tr /\ tree_text tr = Some "a"%string) /\
    (exists tr, sget uri (ls_bt (nd_files (once "v" "py" "b" T))) = Some tr /\ tree_text tr = Some "b"%string).
Proof.
  exists ts_reuse, (fun x => x), "file:///home/v.1.py"%string. split.
  - intros l c [o|] H; cbn in *; [|eauto]. destruct H as [->| ->]; eauto.
  - split; [vm_compute; reflexivity|]. split; eexists; (split; [vm_compute; reflexivity|reflexivity]).
Qed.
Print Assumptions C81_python_refuted.

(** ** C82: completing a partly typed name through the binding *)
(** Whatever was registered and opened, nothing is offered, unless hints were
    registered under the file name itself: the variables are looked up under it. *)
Theorem C82_nothing_offered :
  forall T F url b os (s : node_state T) id f n pos uri name r auto,
    node_run F url b os (node_new T) = Ok s ->
    (forall o, In o os -> match o with
       | OSave (Some _) h => key_of h <> f
       | OOne id g _ _ ext _ => url (home_url g id ext) <> Some f
       | _ => True end) ->
    url (home_url f id "jinja") = Some uri ->
    completion b uri pos (Some TkTriggerCharacter) (nd_files s) = Ok (Some (CtIncompleteIdentifier name r, auto)) ->
    fits n r ->
    node_complete url b id f n (lower n pos) s = Ok None.
Proof.
  intros T F url b os s id f n pos uri name r auto.
  exact (partial_none F url b os s id f n pos uri name r auto).
Qed.
Print Assumptions C82_nothing_offered.
(** A saved hint that begins with what is typed is not offered. *)
Theorem C82_partial_name_refuted :
  exists os r,
    node_run fs_empty scheme_url Debug os (node_new n_ts) = Ok n_state /\
    (exists acts, registered "temp" os = Some acts /\ In (mknact "user" "the user") acts) /\
    completion Debug "file:///home/v.html.7.jinja" (mkpos 0 5) (Some TkTriggerCharacter) (nd_files n_state) =
      Ok (Some (CtIncompleteIdentifier "us" r, false)) /\
    node_complete scheme_url Debug 7 "v.html" 40 (mkpos 40 5) n_state = Ok None.
Proof.
  exists (n_ops ++ [OOne 7 "v.html" (ascii_text n_src) 40 "jinja" None]), (mkrange (mkpos 0 3) (mkpos 0 12)). exam.
  exists n_acts. conj; [reflexivity|cbn; tauto].
Qed.
Print Assumptions C82_partial_name_refuted.
Theorem C82_partial_name_partial :
  forall T url b id f n pos (s : node_state T) uri name r auto acts,
    sget f (ls_vars (nd_files s)) = Some (hint_ids acts) -> url (home_url f id "jinja") = Some uri ->
    completion b uri pos (Some TkTriggerCharacter) (nd_files s) = Ok (Some (CtIncompleteIdentifier name r, auto)) ->
    fits n r ->
    exists items, node_complete url b id f n (lower n pos) s = Ok (Some items) /\
      forall a, In a acts -> contains (na_name a) name = true -> In (JsIncomplete (na_name a) (lower_range n r)) items.
Proof.
  intros T url b id f n pos s uri name r auto acts.
  exact (partial_offered url b id f n pos s uri name r auto acts).
Qed.
Print Assumptions C82_partial_name_partial.
(** "us" of "user.name" is typed; "user" and "user.name" are saved hints. *)
Example C82_example :
  let r := mkrange (mkpos 0 3) (mkpos 0 12) in
  node_run fs_empty scheme_url Debug (n_ops ++ [OOne 7 "v.html" (ascii_text n_src) 40 "jinja" None]) (node_new n_ts) = Ok n_state /\
  completion Debug v_uri (mkpos 0 5) (Some TkTriggerCharacter) (nd_files n_state) =
    Ok (Some (CtIncompleteIdentifier "us" r, false)) /\
  node_complete scheme_url Debug 7 "v.html" 40 (mkpos 40 5) n_state = Ok None /\
  match node_complete scheme_url Debug 7 "v.html" 40 (mkpos 40 5) (save_link_hint (Some n_acts) (Some "v.html"%string) n_state) with
  | Ok (Some items) => In (JsIncomplete "user" (lower_range 40 r)) items
  | _ => False
  end.
Proof. exam. vm_compute. tauto. Qed.
