(** * PropCode: property C124 (template names in Rust and Python code, under the
    cursor). *)
From Verif Require Import Base RString Utf8 Rope Types Captures.
From Verif Require Import MDefinition MObjects MTemplates MSearchErrors MLspFiles MLspTask MChannels MQueries.
From Verif Require Import SpecText SpecFiles SpecBackend SpecObjects SpecLint SpecNav SpecConfig SpecQueries SpecQueries2 SpecQueries4 SpecChannels SpecServer SpecClient SpecQueries5 SpecQueries6 SpecScreen SpecCode.
From Verif Require Import PQueries7 PNav3 PCode PCode2 PropObjects PropLint PropQueries PropQueries2 PropQueries3 PropFiles PropChannels PropQueries4.

(** ** C124: template names in code *)
(** Goto on a string that loads a template leads to the template file, or nowhere
    if there is none; goto anywhere else in the code leads nowhere. *)
Theorem C124_goto :
  forall parse edit url b, parse_total (ts_with parse edit) ->
  forall l (y : sys (ts_with parse edit)) sy a F c rid, exec url b (sys0 (ts_with parse edit)) l = Some y -> y_task y = TIdle sy ->
  forall uri t pos, file_ext uri = Some Backend -> editor_text uri (map fst a) t -> y_taken y = a ++ (MGoto rid uri pos, F) :: c ->
  exists s x, replay url b (task0 (ts_with parse edit)) a = Ok (s, x) /\
    let dir := cf_templates (ls_config (tk_data s)) in
    let lang := SpecConfig.lang_of (ls_config (tk_data s)) in
    let src := encode t in
    let cur := point_of pos in
    forall tr, code_conveys parse lang t tr ->
      (forall ar n, loading lang src tr ar n -> touches cur (loaded_ref src n) -> first_in_line lang src tr cur n ->
         let name := snd (loaded_ref src n) in proper_name name ->
         (forall u, stands_for F url dir name u -> In (rid, RGoto (GScalar (mkloc u range0))) (y_replies y)) /\
         ((forall u, ~ stands_for F url dir name u) -> In (rid, RNull) (y_replies y))) /\
      ((forall ar n, loading lang src tr ar n -> ~ touches cur (loaded_ref src n)) -> In (rid, RNull) (y_replies y)).
Proof. exact @asked_code_goto. Qed.
Print Assumptions C124_goto.

(** Completion inside such a string offers the templates whose URI contains what
    was typed, each once; completion anywhere else in the code offers nothing. *)
Theorem C124_completion :
  forall parse edit url b, parse_total (ts_with parse edit) ->
  forall l (y : sys (ts_with parse edit)) sy a F c rid, exec url b (sys0 (ts_with parse edit)) l = Some y -> y_task y = TIdle sy ->
  forall uri t pos ctx, file_ext uri = Some Backend -> editor_text uri (map fst a) t -> y_taken y = a ++ (MCompletion rid uri pos ctx, F) :: c ->
  exists s x, replay url b (task0 (ts_with parse edit)) a = Ok (s, x) /\
    let d := strip_dots (cf_templates (ls_config (tk_data s))) in
    let lang := SpecConfig.lang_of (ls_config (tk_data s)) in
    let src := encode t in
    let cur := point_of pos in
    let known := map fst (ls_tt (tk_data s)) in
    forall tr, code_conveys parse lang t tr ->
      (forall ar n typed rest, loading lang src tr ar n -> touches cur (loaded_ref src n) -> first_in_line lang src tr cur n ->
         ctx = Some TkInvoked \/ ctx = Some TkTriggerCharacter ->
         plain_line (loaded_ref src n) -> snd (loaded_ref src n) = (typed ++ rest)%string -> col cur = col (n_start n) + 1 + slen typed ->
         exists pre, quoted_prefix typed (snd (loaded_ref src n)) pre /\
           ((forall u, In u known -> sought pre u -> exists label, lies_below d u label) ->
            exists us items, In (rid, RCompletion (map RItem items)) (y_replies y) /\
              (forall u, In u us <-> In u known /\ sought pre u) /\ (NoDup known -> NoDup us) /\
              Forall2 (template_for d (ls_vscode (tk_data s)) (lsp_range (n_start n) (n_end n))) us items)) /\
      ((forall ar n, loading lang src tr ar n -> ~ touches cur (loaded_ref src n)) -> In (rid, RNull) (y_replies y)).
Proof. exact @asked_code_offer. Qed.
Print Assumptions C124_completion.

(** Rust code with two calls, the second with a third one among its arguments. *)
Definition c124_src : string := "render_jinja(""b.html"");get_template(""c.html"",get_template(""d.html""))".
Definition c124_inner : stree :=
  SN "call_expression" (nn 9 45 67) [lf "function" "identifier" 10 45 57; ("arguments", SN "arguments" (nn 11 57 67) [lf "" "string_literal" 12 58 66])]%string.
Definition c124_outer_args : stree :=
  SN "arguments" (nn 8 35 68) [lf "" "string_literal" 13 36 44; ("", c124_inner)]%string.
Definition c124_first_args : stree := SN "arguments" (nn 4 12 22) [lf "" "string_literal" 5 13 21]%string.
Definition c124_first : stree := SN "call_expression" (nn 2 0 22) [lf "function" "identifier" 3 0 12; ("arguments", c124_first_args)]%string.
Definition c124_outer : stree := SN "call_expression" (nn 6 23 68) [lf "function" "identifier" 7 23 35; ("arguments", c124_outer_args)]%string.
Definition c124_tree : stree := SN "source_file" (nn 1 0 68) [("", c124_first); ("", c124_outer)]%string.
Lemma c124_conveys : code_conveys (fun _ _ _ => Some c124_tree) PRust (ascii_text c124_src) c124_tree.
Proof.
  constructor.
  - repeat constructor.
  - intros old. reflexivity.
  - whole.
  - unfold told_apart. vm_compute. repeat constructor; cbn; intuition discriminate.
  - vm_compute. repeat constructor; discriminate.
  - repeat (apply Forall_cons; [split; [before|split; [repeat (apply FOP_cons; [repeat (apply Forall_cons; [before|]); apply Forall_nil|]); apply FOP_nil|
      repeat (apply Forall_cons; [split; before|]); apply Forall_nil]]|]); apply Forall_nil.
  - repeat (apply Forall_cons; [intros H; first [discriminate H|before]|]); apply Forall_nil.
  - repeat (apply Forall_cons; [repeat split; vm_compute; reflexivity|]); apply Forall_nil.
Qed.
Lemma c124_loading ar n : loading PRust c124_src c124_tree ar n ->
  ar = c124_first_args /\ n = nn 5 13 21 \/ ar = c124_outer_args /\ n = nn 13 36 44 \/ n = nn 12 58 66.
Proof.
  intros (x & f & callee & g & h & method & rest & Hin & Hk & Ho & _ & _ & Ha & Hs).
  apply in_order_r in Ho. cbn in Hin. repeat destruct Hin as [<-|Hin]; try discriminate Hk; try destruct Hin;
    destruct Ho as [Ho|[Ho|[]]]; injection Ho as <- <-; try discriminate Ha; injection Hs as <- <-; auto.
Qed.
Lemma c124_loads :
  loading PRust c124_src c124_tree c124_first_args (nn 5 13 21) /\ loading PRust c124_src c124_tree c124_outer_args (nn 13 36 44).
Proof.
  split.
  - exists c124_first, "function"%string, (snd (lf "function" "identifier" 3 0 12)), "arguments"%string, ""%string, (snd (lf "function" "identifier" 3 0 12)), [].
    split; [right; now left|]. split; [reflexivity|]. split; [exists [], [], []; reflexivity|]. split; [left; split; reflexivity|]. split; [now left|]. split; reflexivity.
  - exists c124_outer, "function"%string, (snd (lf "function" "identifier" 7 23 35)), "arguments"%string, ""%string, (snd (lf "function" "identifier" 7 23 35)), [].
    split; [do 5 right; now left|]. split; [reflexivity|]. split; [exists [], [], []; reflexivity|]. split; [left; split; reflexivity|]. split; [right; now left|]. split; reflexivity.
Qed.
Definition c124_main : string := "file:///main.rs".
Definition c124_asks : list msg :=
  [MGoto 5 c124_main (mkpos 0 15); MGoto 6 c124_main (mkpos 0 40); MGoto 7 c124_main (mkpos 0 28);
   MCompletion 8 c124_main (mkpos 0 16) (Some TkInvoked); MCompletion 9 c124_main (mkpos 0 28) (Some TkInvoked)].
Definition c124_open := script (T := always c124_tree) any_url Debug c117_fs true (sys0 (always c124_tree))
  [MDidChangeConfiguration (Some (cfg_dir "views")); MDidOpen (c117_url "b1.html") (ascii_text c124_src); MDidOpen c124_main (ascii_text c124_src)].
Definition c124_asked := script (T := always c124_tree) any_url Debug c117_fs false (snd c124_open) c124_asks.
Definition c124_told : list msg :=
  [MDidChangeConfiguration (Some (cfg_dir "views")); MInitialized; MCodeActions []; MDidOpen (c117_url "b1.html") (ascii_text c124_src);
   MCodeActions [(c117_url "b1.html", [])]; MDidOpen c124_main (ascii_text c124_src)].
Definition c124_passed : msg := MCodeActions [(c124_main, [ref_id (loaded_ref c124_src (nn 5 13 21)); ref_id (loaded_ref c124_src (nn 12 58 66))])].
Lemma c124_taken : map fst (y_taken (snd c124_asked)) = (c124_told ++ [c124_passed]) ++ c124_asks.
Proof. vm_compute. reflexivity. Qed.
(** Only [c.html] exists: goto leads there, and nowhere from [b.html]. With the
    cursor behind [b.] the known template with a [b] in its URI is offered. *)
Example C124_example :
  file_ext c124_main = Some Backend /\ SpecConfig.lang_of (cfg_dir "views") = PRust /\
  code_conveys (fun _ _ _ => Some c124_tree) PRust (ascii_text c124_src) c124_tree /\
  loading PRust c124_src c124_tree c124_first_args (nn 5 13 21) /\ loading PRust c124_src c124_tree c124_outer_args (nn 13 36 44) /\
  Forall (fun r => proper_name (snd r) /\ plain_line r) [loaded_ref c124_src (nn 5 13 21); loaded_ref c124_src (nn 13 36 44)] /\
  Forall (fun c => touches (mkpt 0 c) (loaded_ref c124_src (nn 5 13 21)) /\ first_in_line PRust c124_src c124_tree (mkpt 0 c) (nn 5 13 21)) [15; 16] /\
  touches (mkpt 0 40) (loaded_ref c124_src (nn 13 36 44)) /\ first_in_line PRust c124_src c124_tree (mkpt 0 40) (nn 13 36 44) /\
  (forall ar n, loading PRust c124_src c124_tree ar n -> ~ touches (mkpt 0 28) (loaded_ref c124_src n)) /\
  (forall u, ~ stands_for c117_fs any_url "views" (snd (loaded_ref c124_src (nn 5 13 21))) u) /\
  stands_for c117_fs any_url "views" (snd (loaded_ref c124_src (nn 13 36 44))) "file://views/c.html" /\
  exec any_url Debug (sys0 (always c124_tree)) (fst c124_open ++ fst c124_asked) = Some (snd c124_asked) /\
  map fst (y_taken (snd c124_asked)) = (c124_told ++ [c124_passed]) ++ c124_asks /\
  editor_text c124_main (c124_told ++ [c124_passed]) (ascii_text c124_src) /\
  quoted_prefix "b." (snd (loaded_ref c124_src (nn 5 13 21))) "b" /\ sought "b" (c117_url "b1.html") /\
  map (fun r => match snd r with
                | RCompletion l => (fst r, Some (map (fun i => match i with RItem c => ci_label c | RDoc n _ => n | RSnippet n _ _ => n end) l))
                | RGoto (GScalar g) => (fst r, Some [loc_uri g])
                | _ => (fst r, None) end) (y_replies (snd c124_asked)) =
    [(5, None); (6, Some ["file://views/c.html"]); (7, None); (8, Some ["b1.html"]); (9, None)]%string.
Proof.
  split; [reflexivity|]. split; [reflexivity|]. split; [exact c124_conveys|]. split; [exact (proj1 c124_loads)|]. split; [exact (proj2 c124_loads)|].
  split. { repeat (apply Forall_cons; [split; [unfold proper_name; vm_compute; intuition discriminate|split; [repeat constructor|reflexivity]]|]); apply Forall_nil. }
  split.
  { repeat (apply Forall_cons; [split; [split; before|]; intros ar n H; apply c124_loading in H; destruct H as [(-> & ->)|[(-> & ->)| ->]]; [now left|right; left; before|right; left; before]|]); apply Forall_nil. }
  split; [split; before|].
  split. { intros ar n H. apply c124_loading in H. destruct H as [(-> & ->)|[(-> & ->)| ->]]; [right; right; before|now left|right; left; before]. }
  split. { intros ar n H (A & B). apply c124_loading in H. destruct H as [(-> & ->)|[(-> & ->)| ->]]; vm_compute in A, B; intuition discriminate. }
  split; [intros u (p & H & _); vm_compute in H; discriminate|].
  split; [exists "views/c.html"%string; split; reflexivity|].
  split; [ran|]. split; [exact c124_taken|].
  split; [apply et_other; [exact (et_open c124_main [_; _; _; _; _] _)|exact I]|].
  split; [right; exists "."%char; split; [reflexivity|discriminate]|].
  split; [apply contains_iff; vm_compute; reflexivity|]. vm_compute. reflexivity.
Qed.
