(** * PropBackend: the analysis of backend files (C53, C54, C83, C84). *)
From Verif Require Import Base RString Utf8 Rope Types Captures.
From Verif Require Import MDefinition MObjects MTemplates MSearchErrors MLspFiles.
From Verif Require Import SpecText SpecFiles SpecBackend PBackend PropFiles PropObjects.

Ltac conj := lazymatch goal with |- _ /\ _ => split; conj | _ => idtac end.
Ltac covered := repeat (apply Forall_cons; [vm_compute; reflexivity|]); apply Forall_nil.

(** A capture on the first line covering the bytes [a, z). *)
Definition bcp (k : cname) (a z : N) (parent : option point) (t : string) : bcap :=
  mkbcap k (mknode a a z (mkpt 0 a) (mkpt 0 z) (pt0, pt0) (pt0, pt0) parent) t.

(** ** C53 *)
Theorem C53_chains_partial :
  forall ms src l cs, concat ms = map as_capture cs -> Forall (covers src) cs ->
    exists ids, python_identifiers ms src l = Ok ids /\ NoDup (map py_start ids) /\
      forall p, only_segments_at p cs -> forall i, In i ids /\ py_start i = down l p <-> is_chain l p cs i.
Proof. exact python_chains. Qed.
Print Assumptions C53_chains_partial.
Definition c53_src : string := "user.a.name + x.y".
Definition c53_cs : list bcap :=
  [bcp CIdentifier 0 4 (Some (mkpt 0 0)) "user"; bcp CIdentifier 5 6 (Some (mkpt 0 0)) "a";
   bcp CIdentifier 14 15 (Some (mkpt 0 14)) "x"; bcp CIdentifier 7 11 (Some (mkpt 0 0)) "name";
   bcp CIdentifier 16 17 (Some (mkpt 0 14)) "y"].
Example C53_example :
  Forall (covers c53_src) c53_cs /\ only_segments_at (mkpt 0 0) c53_cs /\
  python_identifiers [map as_capture c53_cs] c53_src 7 =
    Ok [mkpy 0 (mkpt 7 0) (mkpt 7 11) "user.a.name"; mkpy 0 (mkpt 7 14) (mkpt 7 17) "x.y"].
Proof.
  conj; [covered| |vm_compute; reflexivity].
  intros c Hc _. repeat (destruct Hc as [<-|Hc]; [reflexivity|]). destruct Hc.
Qed.
(** The query also captures errors, and the name of the capture is not looked
    at: an error in the chain becomes a segment of the name. *)
Theorem C53_error_refuted :
  exists src cs ids i,
    Forall (covers src) cs /\ python_identifiers [map as_capture cs] src 0 = Ok ids /\
    map bc_text (segments_at pt0 cs) = ["user"; "name"]%string /\
    In i ids /\ py_start i = pt0 /\ py_field i = "user.??.name"%string.
Proof.
  exists "user.??name"%string,
    [bcp CIdentifier 0 4 (Some pt0) "user"; bcp CError 5 7 (Some pt0) "??"; bcp CIdentifier 7 11 (Some pt0) "name"].
  do 2 eexists. split; [covered|]. split; [vm_compute; reflexivity|]. split; [vm_compute; reflexivity|].
  split; [left; reflexivity|]. split; reflexivity.
Qed.
Print Assumptions C53_error_refuted.

(** ** C54 *)
Theorem C54_definitions :
  forall ms tp src cs, concat ms = map as_capture cs -> Forall (covers src) cs ->
    backend_definition_query ms tp src true = Ok (definitions_in cs).
Proof. exact definitions_exact. Qed.
Print Assumptions C54_definitions.
Theorem C54_references :
  forall ms tp src cs, concat ms = map as_capture cs -> Forall (covers src) cs ->
    exists s, backend_templates_query ms tp src true = Ok s /\ bt_templates s = references [] cs.
Proof. exact references_exact. Qed.
Print Assumptions C54_references.
(** The server stores both for an opened backend file. *)
Theorem C54_server :
  forall T F b uri t ig (s s' : lsp_files T) d tr ds rs,
    file_ext uri = Some Backend ->
    t_parse T (ls_parser s) (encode t) (sget uri (ls_bt s)) = Some tr ->
    concat (t_captures T (QBackendDefs (ls_query s)) tr (encode t)) = map as_capture ds -> Forall (covers (encode t)) ds ->
    concat (t_captures T (QBackendTemplates (ls_query s)) tr (encode t)) = map as_capture rs -> Forall (covers (encode t)) rs ->
    did_open F b uri t ig s = Ok (s', d) ->
    sget uri (ls_vars s') = Some (definitions_in ds ++ references [] rs).
Proof. intros T F b uri t ig s s' d tr ds rs. exact (backend_variables F b uri t ig s s' d tr ds rs). Qed.
Print Assumptions C54_server.
Definition c54_src : string := "g('a') r f(k=1) render_jinja('x.html', 'y') ! z".
Definition c54_ds : list bcap :=
  [bcp CName 2 5 None "'a'"; bcp COther 7 8 None "r"; bcp CKeyId 11 12 None "k"; bcp CError 44 45 None "!"; bcp CKeyId 46 47 None "z"].
Definition c54_rs : list bcap :=
  [bcp CTemplateName 2 5 None "'a'"; bcp CMethodName 7 8 None "r"; bcp CTemplateName 2 5 None "'a'"; bcp CMethodName 16 28 None "render_jinja"; bcp CMethodName 7 8 None "r";
   bcp CTemplateName 29 37 None "'x.html'"; bcp CTemplateName 39 42 None "'y'"].
Definition c54_ts : ts :=
  mkts unit (fun _ _ _ => Some tt) (fun t _ => t)
    (fun q _ _ => match q with QBackendDefs _ => [map as_capture c54_ds] | QBackendTemplates _ => [map as_capture c54_rs] | _ => [] end)
    (fun _ => pt0).
Definition b_id (name : string) (a z : N) (k : identifier_type) : identifier := mkid (mkpt 0 a) (mkpt 0 z) name (0, pt0) k [].
Example C54_example :
  Forall (covers c54_src) c54_ds /\ Forall (covers c54_src) c54_rs /\ file_ext "file:///a.rs" = Some Backend /\
  exists s' d, did_open fs_empty Debug "file:///a.rs" (ascii_text c54_src) true (ls_default c54_ts) = Ok (s', d) /\
    sget "file:///a.rs"%string (ls_vars s') =
      Some [b_id "a" 2 5 BackendVariable; b_id "k" 11 12 BackendVariable; b_id "x.html" 29 37 JinjaTemplate].
Proof. conj; [covered|covered|reflexivity|]. do 2 eexists. split; vm_compute; reflexivity. Qed.

(** ** C83: a reported python name is what is written there *)
Theorem C83_written_partial :
  forall ms src l cs p ids i c rest,
    concat ms = map as_capture cs -> Forall (covers src) cs -> only_segments_at p cs ->
    segments_at p cs = c :: rest -> dotted src (c :: rest) ->
    python_identifiers ms src l = Ok ids -> In i ids -> py_start i = down l p ->
    exists z, In z (c :: rest) /\ py_end i = down l (n_end (bc_node z)) /\
      py_field i = written src (n_sb (bc_node c)) (n_eb (bc_node z)).
Proof. exact chain_written. Qed.
Print Assumptions C83_written_partial.
Example C83_example :
  segments_at (mkpt 0 0) c53_cs =
    [bcp CIdentifier 0 4 (Some (mkpt 0 0)) "user"; bcp CIdentifier 5 6 (Some (mkpt 0 0)) "a"; bcp CIdentifier 7 11 (Some (mkpt 0 0)) "name"] /\
  dotted c53_src (segments_at (mkpt 0 0) c53_cs) /\ written c53_src 0 11 = "user.a.name"%string.
Proof. vm_compute. conj; auto. Qed.
(** The captures of [user[0].name] are its last segment only, of
    [a.b[0].c] all three: a subscript or call in between is dropped. *)
Theorem C83_written_refuted :
  exists src cs src2 cs2 i i2,
    Forall (covers src) cs /\ python_identifiers [map as_capture cs] src 0 = Ok [i] /\
    py_start i = mkpt 0 0 /\ py_end i = mkpt 0 12 /\ written src 0 12 = "user[0].name"%string /\ py_field i = "name"%string /\
    Forall (covers src2) cs2 /\ python_identifiers [map as_capture cs2] src2 0 = Ok [i2] /\
    py_start i2 = mkpt 0 0 /\ py_end i2 = mkpt 0 8 /\ written src2 0 8 = "a.b[0].c"%string /\ py_field i2 = "a.b.c"%string.
Proof.
  exists "user[0].name"%string, [bcp CIdentifier 8 12 (Some pt0) "name"], "a.b[0].c"%string,
    [bcp CIdentifier 0 1 (Some pt0) "a"; bcp CIdentifier 2 3 (Some pt0) "b"; bcp CIdentifier 7 8 (Some pt0) "c"].
  do 2 eexists. split; [covered|]. split; [vm_compute; reflexivity|]. do 4 (split; [vm_compute; reflexivity|]).
  split; [covered|]. split; [vm_compute; reflexivity|]. conj; vm_compute; reflexivity.
Qed.
Print Assumptions C83_written_refuted.

(** ** C84: a backend template reference names the content of its literal *)
Theorem C84_literal_partial :
  forall ms tp src pre m c post q s,
    concat ms = map as_capture (pre ++ m :: c :: post) -> Forall (covers src) (pre ++ m :: c :: post) ->
    is_loader m = true -> is_string c = true -> bc_text c = literal_of q s -> is_quote q = true -> plain s ->
    exists st, backend_templates_query ms tp src true = Ok st /\
      In (mkid (n_start (bc_node c)) (n_end (bc_node c)) s (0, pt0) JinjaTemplate []) (bt_templates st).
Proof. exact literal_named. Qed.
Print Assumptions C84_literal_partial.
Example C84_example :
  concat [map as_capture (firstn 3 c54_rs ++ skipn 3 c54_rs)] = map as_capture c54_rs /\
  is_loader (bcp CMethodName 16 28 None "render_jinja") = true /\
  bc_text (bcp CTemplateName 29 37 None "'x.html'") = literal_of squote "x.html" /\ is_quote squote = true /\
  plain "x.html".
Proof.
  conj; try reflexivity. intros a Ha. repeat (destruct Ha as [<-|Ha]; [reflexivity|]). destruct Ha.
Qed.
(** Quotes inside the literal are dropped and a prefix is kept: [render_jinja]
    applied to ["it's.html"] refers to [its.html], to [r"a.html"] to [ra.html]. *)
Definition c84_caps (z : N) (t : string) : list bcap :=
  [bcp CMethodName 0 12 None "render_jinja"; bcp CTemplateName 13 z None t].
Definition c84_ref (t : string) : string := ("render_jinja(" ++ t ++ ")")%string.
Theorem C84_literal_refuted :
  exists t1 t2 st1 st2,
    t1 = literal_of dquote "it's.html" /\ t2 = ("r" ++ literal_of dquote "a.html")%string /\
    Forall (covers (c84_ref t1)) (c84_caps 24 t1) /\ Forall (covers (c84_ref t2)) (c84_caps 22 t2) /\
    backend_templates_query [map as_capture (c84_caps 24 t1)] pt0 (c84_ref t1) true = Ok st1 /\
    map id_name (bt_templates st1) = ["its.html"%string] /\
    backend_templates_query [map as_capture (c84_caps 22 t2)] pt0 (c84_ref t2) true = Ok st2 /\
    map id_name (bt_templates st2) = ["ra.html"%string].
Proof.
  do 4 eexists. split; [reflexivity|]. split; [reflexivity|]. split; [covered|]. split; [covered|].
  split; [vm_compute; reflexivity|]. split; [vm_compute; reflexivity|]. split; vm_compute; reflexivity.
Qed.
Print Assumptions C84_literal_refuted.
