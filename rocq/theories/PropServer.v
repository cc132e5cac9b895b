(** * PropServer: whole sessions (C08 and C85). *)
From Verif Require Import Base RString Utf8 Rope Types Captures MSearchErrors MLspFiles MLspTask MChannels.
From Verif Require Import SpecText SpecFiles SpecChannels SpecServer PServer.

(** ** C08 for the running server *)
(** In every state the running server can be in, the tree of every document was
    parsed from its current text. *)
Theorem C08_reachable_current :
  forall T url b l (y : sys T) s,
    parse_total T -> exec url b (sys0 T) l = Some y ->
    (forall m F, In (m, F) (y_taken y) -> ranged_only F m) ->
    state_of y s -> trees_current (tk_data s).
Proof. exact reachable_current. Qed.
Print Assumptions C08_reachable_current.
(** If tree-sitter keeps its word, it is even the tree of that text, in every
    state of every honest session: incremental parsing was never given a wrong
    old tree. *)
Theorem C08_reachable_fits :
  forall T url b (P : parser_contract T),
    parse_total T -> (b = Debug -> names_on_one_row P) -> urls_ok url ->
    forall l (y : sys T) s,
      exec url b (sys0 T) l = Some y -> session url b (honest url b) (task0 T) (y_taken y) ->
      state_of y s -> trees_fit P (tk_data s).
Proof. exact @honest_fits. Qed.
Print Assumptions C08_reachable_fits.

(** ** C85: the server survives *)
Theorem C85_survives_partial :
  forall T url b (P : parser_contract T),
    parse_total T -> (b = Debug -> names_on_one_row P) -> urls_ok url ->
    forall l (y : sys T),
      exec url b (sys0 T) l = Some y -> session url b (honest url b) (task0 T) (y_taken y) ->
      alive y /\ y_diag y <> DDead.
Proof. exact @honest_survives. Qed.
Print Assumptions C85_survives_partial.
(** With a parser that copes with any old tree, documents may be opened again
    with any text, and every edit that is applied correctly is fine. *)
Theorem C85_survives_any_reopening_partial :
  forall T url b l (y : sys T),
    parse_total T -> trusting_inside T -> (b = Debug -> trusting_rows T) -> urls_ok url ->
    exec url b (sys0 T) l = Some y -> session url b (lenient url b) (task0 T) (y_taken y) ->
    alive y /\ y_diag y <> DDead.
Proof. exact lenient_survives. Qed.
Print Assumptions C85_survives_any_reopening_partial.

(** A parser for examples: the tree is the text, and [caps] are the captures of
    one particular text. *)
Definition ts_one (text : string) (caps : query -> list (list capture)) : ts :=
  mkts string (fun _ c _ => Some c) (fun t _ => t)
    (fun q _ c => if String.eqb c text then caps q else []) (fun _ => pt0).
Lemma ts_one_inside text caps l tr c q x :
  (forall q, Forall (inside text) (concat (caps q))) ->
  tr = c -> In x (concat (t_captures (ts_one text caps) q tr c)) -> l = l :> plang -> inside c x.
Proof.
  intros H -> Hx _. cbn in Hx. destruct (String.eqb_spec c text) as [->|]; [|destruct Hx].
  specialize (H q). rewrite Forall_forall in H. now apply H.
Qed.
Definition pc_one text caps (H : forall q, Forall (inside text) (concat (caps q))) : parser_contract (ts_one text caps).
Proof.
  refine (mkpc (ts_one text caps) (fun _ tr c => tr = c) (fun _ _ _ => True) _ _ _ _ _); cbn; auto; try congruence.
  intros l tr c q x Hf Hx. exact (ts_one_inside text caps l tr c q x H Hf Hx eq_refl).
Defined.

(** Open "{{ usr }}", insert the "e", ask for a hover, save. *)
Definition c85_caps (q : query) : list (list capture) :=
  match q with
  | QObjects => [[mkcap CExpr (mknode 1 0 10 (mkpt 0 0) (mkpt 0 10) (mkpt 0 0, mkpt 0 2) (mkpt 0 8, mkpt 0 10) None);
                  mkcap CJustId (mknode 2 3 7 (mkpt 0 3) (mkpt 0 7) (mkpt 0 3, mkpt 0 7) (mkpt 0 3, mkpt 0 7) (Some (mkpt 0 0)))]]
  | _ => []
  end.
Lemma c85_inside q : Forall (inside "{{ user }}") (concat (c85_caps q)).
Proof.
  destruct q; repeat constructor; cbn; try discriminate; (eexists; vm_compute; reflexivity).
Qed.
Definition c85_ts : ts := ts_one "{{ user }}" c85_caps.
Definition c85_fs : fs := mkfs (fun _ => CanonNotFound) (fun _ => None) (fun _ => []) (fun _ => None).
Definition any_url : url_parser := fun u => Some u.
Definition c85_session : list action :=
  [AClient (MDidOpen "file:///a.html" [123; 123; 32; 117; 115; 114; 32; 125; 125]); ATake c85_fs; AEffect; AEffect;
   ADiagTake; ADiagPublish; ADiagPublish; ADiagSend;
   AClient (MDidChange "file:///a.html" [mkchange (Some (mkrange (mkpos 0 5) (mkpos 0 5))) [101]]);
   ATake c85_fs; AEffect; ATake c85_fs; AEffect; AEffect;
   AClient (MHover 7 "file:///a.html" (mkpos 0 4)); ATake c85_fs; AEffect; AEffect;
   AClient (MDidSave "file:///a.html"); ATake c85_fs; AEffect; AEffect]%string.
Example C85_example :
  parse_total c85_ts /\ names_on_one_row (pc_one "{{ user }}" c85_caps c85_inside) /\ urls_ok any_url /\
  exists y s, exec any_url Debug (sys0 c85_ts) c85_session = Some y /\
    session any_url Debug (honest any_url Debug) (task0 c85_ts) (y_taken y) /\
    state_of y s /\ sget "file:///a.html" (ls_docs (tk_data s)) = Some [123; 123; 32; 117; 115; 101; 114; 32; 125; 125].
Proof.
  split; [intros l c old; discriminate|]. split.
  { intros l tr c q x Hf Hx _. cbn in Hf, Hx. destruct (String.eqb c _); [|destruct Hx].
    destruct q; cbn in Hx; try contradiction. destruct Hx as [<-|[<-|[]]]; reflexivity. }
  split; [intros r; discriminate|].
  eexists. eexists. split; [vm_compute; reflexivity|]. split; [|split; [left; reflexivity|vm_compute; reflexivity]].
  cbn [y_taken session honest].
  split.
  { split; [repeat constructor|]. split; [split; intros; discriminate|]. vm_compute. discriminate. }
  intros s1 e1 H1. vm_compute in H1. injection H1 as <- <-. split; [exact I|].
  intros s2 e2 H2. vm_compute in H2. injection H2 as <- <-. split.
  { split; [repeat constructor|]. intros t Ht. vm_compute in Ht. injection Ht as <-.
    eexists. apply honest_cons with (t1 := [123; 123; 32; 117; 115; 101; 114; 32; 125; 125]); [|apply honest_nil].
    exists 5%nat, 5%nat. split; [exists [123; 123; 32; 117; 115; 114; 32; 125; 125], [], 5%nat; repeat split; cbn; lia|].
    split; [exists [123; 123; 32; 117; 115; 114; 32; 125; 125], [], 5%nat; repeat split; cbn; lia|].
    split; [lia|]. split; [reflexivity|]. split; [intros c []|repeat constructor; lia]. }
  intros s3 e3 H3. split; [exact I|]. intros s5 e5 H5. split; [exact I|]. intros s4 e4 H4. exact I.
Qed.

Example C08_reachable_example :
  exists y s, exec any_url Debug (sys0 c85_ts) c85_session = Some y /\ state_of y s /\
    (forall m F, In (m, F) (y_taken y) -> ranged_only F m) /\
    sget "file:///a.html" (trees_of Template (tk_data s)) = Some "{{ user }}"%string.
Proof.
  eexists. eexists. split; [vm_compute; reflexivity|]. split; [left; reflexivity|]. split; [|vm_compute; reflexivity].
  intros m F Hm. cbn in Hm.
  repeat (destruct Hm as [Hm|Hm]; [injection Hm as <- <-; cbn; repeat constructor; try discriminate|]).
  destruct Hm.
Qed.
Example C85_reopening_example :
  trusting_inside c85_ts /\ trusting_rows c85_ts /\
  exists y, exec any_url Debug (sys0 c85_ts)
      [AClient (MDidOpen "file:///a.html" [123; 123]); ATake c85_fs; AEffect; AEffect;
       AClient (MDidOpen "file:///a.html" [233; 97]); ATake c85_fs; AEffect; AEffect;
       AClient (MDidChange "file:///a.html" [mkchange (Some (mkrange (mkpos 0 1) (mkpos 0 1))) [101]]); ATake c85_fs] = Some y /\
    session any_url Debug (lenient any_url Debug) (task0 c85_ts) (y_taken y).
Proof.
  assert (H : forall c q x, In x (concat (if String.eqb c "{{ user }}" then c85_caps q else [])) -> inside c x /\ one_row x).
  { intros c q x Hx. destruct (String.eqb_spec c "{{ user }}") as [->|]; [|destruct Hx]. split.
    - pose proof (c85_inside q) as H. rewrite Forall_forall in H. now apply H.
    - intros _. destruct q; cbn in Hx; try contradiction. destruct Hx as [<-|[<-|[]]]; reflexivity. }
  split; [intros l c old tr q x _ Hx; exact (proj1 (H _ _ _ Hx))|].
  split; [intros l c old tr q x _ Hx; exact (proj2 (H _ _ _ Hx))|].
  eexists. split; [vm_compute; reflexivity|]. cbn [y_taken session lenient].
  split; [split; [repeat constructor|split; intros; discriminate]|]. intros s1 e1 H1. vm_compute in H1. injection H1 as <- <-.
  split; [split; [repeat constructor|split; intros; discriminate]|]. intros s2 e2 H2. vm_compute in H2. injection H2 as <- <-.
  split; [|intros; exact I].
  split; [repeat constructor|]. intros t Ht. vm_compute in Ht. injection Ht as <-.
  eexists. apply easy_cons with (t1 := [233; 101; 97]); [|apply easy_nil]. exists 1%nat, 1%nat.
  assert (Hi : index_of [233; 97] (mkpos 0 1) 1) by (exists [233; 97], [], 1%nat; repeat split; cbn; lia).
  split; [exact Hi|]. split; [exact Hi|]. split; [lia|]. split; [reflexivity|]. split; [intros c []|].
  split; split; repeat constructor.
Qed.

(** ** What the restrictions are for *)
(** An editor that opens a document a second time with another text can kill
    the server, although tree-sitter keeps its word (the same happens after an
    edit behind a non-ASCII character, C04). *)
Definition c85_stale : ts :=
  mkts (option string)
    (fun _ c old => match old with Some (Some o) => Some (Some o) | _ => Some (Some c) end)
    (fun _ _ => None)
    (fun q tr _ => match q, tr with
       | QDefinitions, Some o =>
           if String.eqb o "ab"
           then [[mkcap CDefinition (mknode 1 0 2 (mkpt 0 0) (mkpt 0 2) (mkpt 0 0, mkpt 0 2) (mkpt 0 0, mkpt 0 2) None)]]
           else []
       | _, _ => [] end)
    (fun _ => pt0).
Definition c85_stale_contract : parser_contract c85_stale.
Proof.
  refine (mkpc c85_stale (fun _ tr c => tr = Some c) (fun _ tr c => tr = None \/ tr = Some c) _ _ _ _ _); cbn; auto.
  - congruence.
  - intros l c o tr [->| ->] H; congruence.
  - intros l tr c q x -> Hx. destruct q; try contradiction.
    destruct (String.eqb_spec c "ab") as [->|]; [|destruct Hx].
    destruct Hx as [<-|[]]. split; [eexists; vm_compute; reflexivity|discriminate].
Defined.
Definition opens_only (url : url_parser) (m : msg) : Prop :=
  match m with MDidOpen uri t => scalars t /\ linkable url uri | _ => False end.
Theorem C85_reopen_crash_refuted :
  exists T (P : parser_contract T) url b l (y : sys T),
    parse_total T /\ names_on_one_row P /\ urls_ok url /\
    exec url b (sys0 T) l = Some y /\ (forall m F, In (m, F) (y_taken y) -> opens_only url m) /\
    y_task y = TDead.
Proof.
  exists c85_stale, c85_stale_contract, any_url, Release,
    [AClient (MDidOpen "file:///a.html" [97; 98]); ATake c85_fs; AEffect; AEffect;
     AClient (MDidOpen "file:///a.html" [97]); ATake c85_fs]. eexists.
  split; [intros l c [[o|]|]; discriminate|]. split.
  { intros l tr c q x Hf Hx. cbn in Hf, Hx. subst tr. destruct q; try contradiction.
    destruct (String.eqb c "ab"); [|destruct Hx]. destruct Hx as [<-|[]]. intros _. reflexivity. }
  split; [intros r; discriminate|]. split; [vm_compute; reflexivity|]. split; [|reflexivity].
  intros m F [H|[H|[]]]; injection H as <- <-; (split; [repeat constructor|split; intros; discriminate]).
Qed.
Print Assumptions C85_reopen_crash_refuted.

(** In a debug build an honest session can still end in a crash: a template
    name written over two lines, and a completion on the first of them. *)
Definition c85_text : string := "{% include ""a" ++ String (Ascii.ascii_of_nat 10) "bcdef"" %}".
Definition c85_caps2 (q : query) : list (list capture) :=
  match q with
  | QImports => [[mkcap CInclude (mknode 1 0 23 (mkpt 0 0) (mkpt 1 9) (mkpt 0 0, mkpt 0 2) (mkpt 1 7, mkpt 1 9) None);
                  mkcap CTemplateName (mknode 2 11 20 (mkpt 0 11) (mkpt 1 6) (mkpt 0 11, mkpt 0 12) (mkpt 1 5, mkpt 1 6) (Some (mkpt 0 0)))]]
  | _ => []
  end.
Lemma c85_inside2 q : Forall (inside c85_text) (concat (c85_caps2 q)).
Proof.
  destruct q; repeat constructor; cbn; try discriminate; (eexists; vm_compute; reflexivity).
Qed.
Theorem C85_two_line_name_crash_refuted :
  exists T (P : parser_contract T) url l (y : sys T),
    parse_total T /\ urls_ok url /\ exec url Debug (sys0 T) l = Some y /\
    session url Debug (honest url Debug) (task0 T) (y_taken y) /\ y_task y = TDead.
Proof.
  exists (ts_one c85_text c85_caps2), (pc_one c85_text c85_caps2 c85_inside2), any_url,
    [AClient (MDidOpen "file:///a.html"
       [123; 37; 32; 105; 110; 99; 108; 117; 100; 101; 32; 34; 97; 10; 98; 99; 100; 101; 102; 34; 32; 37; 125]);
     ATake c85_fs; AEffect; AEffect;
     AClient (MCompletion 1 "file:///a.html" (mkpos 0 12) (Some TkInvoked)); ATake c85_fs]. eexists.
  split; [intros l c old; discriminate|]. split; [intros r; discriminate|].
  split; [vm_compute; reflexivity|]. split; [|reflexivity].
  cbn [y_taken session honest]. split.
  { split; [repeat constructor|]. split; [split; intros; discriminate|]. vm_compute. discriminate. }
  intros s1 e1 H1. split; [intros _; reflexivity|]. intros; exact I.
Qed.
Print Assumptions C85_two_line_name_crash_refuted.
