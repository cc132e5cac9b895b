(** * PropIndex9: the templates that are offered after an indexing (C139). *)
From Verif Require Import Base RString Utf8 Rope Types Captures MTemplates MDefinition MObjects MLspFiles MSearchErrors MLspTask MChannels MQueries.
From Verif Require Import SpecText SpecFiles SpecBackend SpecObjects SpecLint SpecNav SpecConfig SpecQueries SpecQueries2 SpecQueries4 SpecChannels SpecServer SpecClient SpecQueries5 SpecQueries6 SpecScreen SpecCode SpecSettings SpecIndex SpecIndex2 SpecIndex3.
From Verif Require Import PConfig PQueries7 PClient PNav3 PIndex9 PropObjects PropLint PropQueries PropQueries2 PropQueries3 PropFiles PropChannels PropQueries4 PropCode PropCode2.

(** ** C139: which templates are offered *)
(** Completion between the quotes of a reference offers, once each, the templates
    that were on the disk when it was last indexed or were opened since, whose URIs
    contain what is typed. *)
Theorem C139_template :
  forall parse edit url b, parse_total (ts_with parse edit) ->
  forall l (y : sys (ts_with parse edit)) sy a F more rid F0 c since, exec url b (sys0 (ts_with parse edit)) l = Some y -> y_task y = TIdle sy ->
  forall uri t tr tp ps1 ps2 sts i r pos ctx typed rest,
    file_ext uri = Some Template -> editor_text uri (map fst a) t -> conveys parse t tr tp (ps1 ++ ps2) sts ->
    y_taken y = a ++ (MCompletion rid uri pos ctx, F) :: more -> indexed_before (ts_with parse edit) url b a F0 c since -> usable F0 c ->
    In i sts -> In r (refs i) -> in_quotes (point_of pos) r -> between (point_of pos) ps1 ps2 ->
    ctx = Some TkInvoked \/ ctx = Some TkTriggerCharacter -> outside ps1 (point_of pos) ->
    plain_line r -> snd r = (typed ++ rest)%string -> col (point_of pos) = col (n_start (fst r)) + 1 + slen typed ->
    exists s x n, replay url b (task0 (ts_with parse edit)) a = Ok (s, x) /\ quoted_prefix typed (snd r) n /\
      let d := strip_dots (cf_templates c) in
      ((forall u, known_template F0 c since u -> sought n u -> exists label, lies_below d u label) ->
       exists us items, In (rid, RCompletion (map RItem items)) (y_replies y) /\
         (forall u, In u us <-> known_template F0 c since u /\ sought n u) /\ NoDup us /\
         Forall2 (template_for d (ls_vscode (tk_data s)) (lsp_range (n_start (fst r)) (n_end (fst r)))) us items).
Proof. exact offered_template. Qed.
Print Assumptions C139_template.
(** The same in a string with which code loads a template; elsewhere in code nothing
    is offered. *)
Theorem C139_code :
  forall parse edit url b, parse_total (ts_with parse edit) ->
  forall l (y : sys (ts_with parse edit)) sy a F more rid F0 c since, exec url b (sys0 (ts_with parse edit)) l = Some y -> y_task y = TIdle sy ->
  forall uri t pos ctx tr, file_ext uri = Some Backend -> editor_text uri (map fst a) t -> y_taken y = a ++ (MCompletion rid uri pos ctx, F) :: more ->
    indexed_before (ts_with parse edit) url b a F0 c since -> usable F0 c ->
    let d := strip_dots (cf_templates c) in
    let lang := SpecConfig.lang_of c in
    let src := encode t in
    let cur := point_of pos in
    code_conveys parse lang t tr ->
    exists s x, replay url b (task0 (ts_with parse edit)) a = Ok (s, x) /\
      (forall ar n typed rest, loading lang src tr ar n -> touches cur (loaded_ref src n) -> first_in_line lang src tr cur n ->
         ctx = Some TkInvoked \/ ctx = Some TkTriggerCharacter ->
         plain_line (loaded_ref src n) -> snd (loaded_ref src n) = (typed ++ rest)%string -> col cur = col (n_start n) + 1 + slen typed ->
         exists pre, quoted_prefix typed (snd (loaded_ref src n)) pre /\
           ((forall u, known_template F0 c since u -> sought pre u -> exists label, lies_below d u label) ->
            exists us items, In (rid, RCompletion (map RItem items)) (y_replies y) /\
              (forall u, In u us <-> known_template F0 c since u /\ sought pre u) /\ NoDup us /\
              Forall2 (template_for d (ls_vscode (tk_data s)) (lsp_range (n_start n) (n_end n))) us items)) /\
      ((forall ar n, loading lang src tr ar n -> ~ touches cur (loaded_ref src n)) -> In (rid, RNull) (y_replies y)).
Proof. exact offered_code. Qed.
Print Assumptions C139_code.

(** The template [b2.html] is on the disk, [b1.html] and [a.html] are opened. *)
Definition c139_fs : fs :=
  mkfs (fun p => if String.eqb p "views/b2.html" then CanonOk "/views/b2.html"%string else CanonNotFound)
    (fun p => if String.eqb p "/views/b2.html" then Some (ascii_text c117_src) else None)
    (fun d => if String.eqb d "views" then [WFile "views/b2.html"%string] else []) (fun _ => None).
Definition c139_run := script (T := always c117_tree) any_url Debug c139_fs true (sys0 (always c117_tree))
  [MDidChangeConfiguration (Some (cfg_dir "views")); MDidOpen (c117_url "b1.html") (ascii_text c117_src); MDidOpen (c117_url "a.html") (ascii_text c117_src)].
Definition c139_asked := script (T := always c117_tree) any_url Debug c139_fs false (snd c139_run) [MCompletion 8 (c117_url "a.html") (mkpos 0 29) (Some TkInvoked)].
Definition c139_refs : list identifier := [ref_id c117_b; ref_id c117_c].
Definition c139_since : list msg :=
  [MCodeActions [(c117_url "b2.html", c139_refs)]; MDidOpen (c117_url "b1.html") (ascii_text c117_src); MCodeActions [(c117_url "b1.html", c139_refs)];
   MDidOpen (c117_url "a.html") (ascii_text c117_src); MCodeActions [(c117_url "a.html", c139_refs)]].
Definition c139_told : list msg := MDidChangeConfiguration (Some (cfg_dir "views")) :: MInitialized :: c139_since.
Definition c139_before : list (msg * fs) := map (fun m => (m, c139_fs)) c139_told.
Lemma c139_taken : y_taken (snd c139_asked) = c139_before ++ [(MCompletion 8 (c117_url "a.html") (mkpos 0 29) (Some TkInvoked), c139_fs)].
Proof. vm_compute. reflexivity. Qed.
Lemma c139_known u : known_template c139_fs (cfg_dir "views") c139_since u <-> In u (map c117_url ["b2.html"; "b1.html"; "a.html"])%string.
Proof.
  split.
  - intros [(t & p & name & (d & [-> |[]] & [H|[]]) & _ & Hc & _ & ->)|(_ & t & H)]; [injection H as <-; cbn in Hc; injection Hc as <-; now left|].
    repeat (destruct H as [H|H]; [try discriminate H; injection H as <- <-; cbn; auto|]). destruct H.
  - intros [<-|[<-|[<-|[]]]]; [left|right|right].
    + exists (ascii_text c117_src), "views/b2.html"%string, "/views/b2.html"%string. split; [exists "views"%string; split; [now left|now left]|].
      split; [apply file_ext_spec; reflexivity|]. split; [reflexivity|]. split; reflexivity.
    + split; [reflexivity|]. eexists. right. now left.
    + split; [reflexivity|]. eexists. right. right. right. now left.
Qed.
Example C139_example :
  indexed_before (always c117_tree) any_url Debug c139_before c139_fs (cfg_dir "views") c139_since /\ usable c139_fs (cfg_dir "views") /\
  exec any_url Debug (sys0 (always c117_tree)) (fst c139_run ++ fst c139_asked) = Some (snd c139_asked) /\
  editor_text (c117_url "a.html") (map fst c139_before) (ascii_text c117_src) /\
  (forall u, known_template c139_fs (cfg_dir "views") c139_since u <-> In u (map c117_url ["b2.html"; "b1.html"; "a.html"])%string) /\
  (exists i, In i c117_sts /\ In c117_b (refs i)) /\ in_quotes (mkpt 0 29) c117_b /\ between (mkpt 0 29) c117_ps1 c117_ps2 /\ outside c117_ps1 (mkpt 0 29) /\ plain_line c117_b /\
  quoted_prefix "b." "b.html" "b" /\ col (mkpt 0 29) = col (n_start (fst c117_b)) + 1 + slen "b." /\
  (forall u, known_template c139_fs (cfg_dir "views") c139_since u -> exists label, lies_below (strip_dots "views") u label) /\
  sought "b" (c117_url "b1.html") /\ sought "b" (c117_url "b2.html") /\ ~ sought "b" (c117_url "a.html") /\
  map (fun r => match snd r with RCompletion l => (fst r, map (fun i => match i with RItem c => ci_label c | RDoc n _ => n | RSnippet n _ _ => n end) l) | _ => (fst r, []) end) (y_replies (snd c139_asked)) =
    [(8, ["b2.html"; "b1.html"]%string)].
Proof.
  split. { exists [(MDidChangeConfiguration (Some (cfg_dir "views")), c139_fs)], (map (fun m => (m, c139_fs)) c139_since),
      (mktask (cfg_dir "views") (ls_default (always c117_tree)) 0), [(MDidChangeConfiguration (Some (cfg_dir "views")), [ESelf MInitialized])].
    split; [reflexivity|]. split; [reflexivity|]. split; [cbn; intuition discriminate|]. split; reflexivity. }
  split. { split; [now left|]. intros (d & [-> |[]] & H). cbn in H. intuition discriminate. }
  split; [ran|].
  split. { unfold c139_before. rewrite map_map, map_id. apply (et_other _ [_; _; _; _; _; _]); [apply (et_open _ [_; _; _; _; _])|exact I]. }
  split; [exact c139_known|]. split; [eexists; split; [now left|now left]|]. split; [split; before|].
  split; [split; [before|split; [repeat (apply Forall_cons; [before|]); apply Forall_nil|before]]|].
  split; [intros n [H|[H|[H|[H|[]]]]]; try discriminate H; injection H as <-; before|]. split; [split; [repeat constructor|reflexivity]|].
  split; [right; exists "."%char; split; [reflexivity|discriminate]|]. split; [reflexivity|].
  split. { intros u H. apply c139_known in H. destruct H as [<-|[<-|[<-|[]]]]; [exists "b2.html"%string|exists "b1.html"%string|exists "a.html"%string];
    (split; [discriminate|]; exists "file:///"%string; split; [reflexivity|]; intros a z H;
     do 8 (destruct a as [|? a]; [discriminate H|]; injection H as <- H); destruct a as [|? a]; [reflexivity|];
     exfalso; repeat (injection H as <- H; destruct a as [|? a]; [discriminate H|]); discriminate H). }
  split; [apply contains_iff; vm_compute; reflexivity|]. split; [apply contains_iff; vm_compute; reflexivity|].
  split; [intros H; apply contains_iff in H; vm_compute in H; discriminate|]. vm_compute. reflexivity.
Qed.
