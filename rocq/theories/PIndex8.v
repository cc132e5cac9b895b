(** * PIndex8: references are looked up with the settings of the last indexing (C138). *)
From Verif Require Import Base RString Utf8 Rope Types Captures MTemplates MDefinition MObjects MLspFiles MSearchErrors MLspTask MChannels MQueries.
From Verif Require Import SpecText SpecFiles SpecBackend SpecScope SpecScope2 SpecObjects SpecObjects2 SpecLint SpecNav SpecConfig SpecChannels SpecServer SpecClient SpecQueries SpecQueries2 SpecQueries4 SpecQueries5 SpecQueries6 SpecScreen SpecCode SpecSettings SpecIndex SpecIndex2.
From Verif Require Import PUtf8 PText PText2 PFiles PNode PNav PNav2 POrder PObjects PLint PLint2 PLint3 PScope3 PConfig PBackend PQueries PQueries2 PQueries3 PQueries4 PQueries6 PQueries7 PQueries9 PQueries10 PQueries12 PChannels PChannels2 PChannels3 PChannels4 PChannels5 PNav3 PServer PClient PClient2 PQueries11 PScreen PCode PCode2 PCode3 PCode4 PHistory PIndex PIndex2 PIndex3 PIndex4 PIndex5 PIndex6 PIndex7.

Section Led.
Variables (parse : plang -> string -> option stree -> option stree) (edit : stree -> input_edit -> stree).
Notation T := (ts_with parse edit).
Variables (url : url_parser) (b : build).
Hypothesis Hpt : parse_total T.
Lemma settings_then a s x F c : replay url b (task0 T) a = Ok (s, x) -> set_up T url b a F c -> usable F c -> ls_config (tk_data s) = c.
Proof.
  intros Hr (pre & post & s0 & x0 & Ea & Hno & R0 & Hc) Hus. pose proof (indexed_settings parse edit url b Hpt _ s x pre F post s0 x0 c Hr Ea Hno R0 Hc Hus) as Hm.
  unfold modes in Hm. now injection Hm as _ _ Hcf.
Qed.
Lemma led_template : forall l (y : sys T) sy a F rest rid F0 c, exec url b (sys0 T) l = Some y -> y_task y = TIdle sy ->
  forall uri t tr tp ps1 ps2 sts i r pos,
    file_ext uri = Some Template -> editor_text uri (map fst a) t -> conveys parse t tr tp (ps1 ++ ps2) sts ->
    y_taken y = a ++ (MGoto rid uri pos, F) :: rest -> set_up T url b a F0 c -> usable F0 c ->
    In i sts -> In r (refs i) -> proper_name (snd r) -> in_quotes (point_of pos) r -> between (point_of pos) ps1 ps2 ->
    forall u, stands_for F url (cf_templates c) (snd r) u -> In (rid, RGoto (GScalar (mkloc u range0))) (y_replies y).
Proof.
  intros l y sy a F rest rid F0 c He Hidle uri t tr tp ps1 ps2 sts i r pos Hx Ht R Hy Hset Hus Hi Hr Hn Hq Hb.
  destruct (asked_reference url b Hpt l y sy a F rest rid He Hidle uri t tr tp ps1 ps2 sts i r pos Hx Ht R Hy Hi Hr Hn Hq Hb) as (s & x & Hrp & H & _).
  rewrite (settings_then a s x F0 c Hrp Hset Hus) in H. exact H.
Qed.
Lemma led_code : forall l (y : sys T) sy a F rest rid F0 c, exec url b (sys0 T) l = Some y -> y_task y = TIdle sy ->
  forall uri t pos tr, file_ext uri = Some Backend -> editor_text uri (map fst a) t -> y_taken y = a ++ (MGoto rid uri pos, F) :: rest ->
    set_up T url b a F0 c -> usable F0 c ->
    let lang := SpecConfig.lang_of c in
    let src := encode t in
    let cur := point_of pos in
    code_conveys parse lang t tr ->
      (forall ar n, loading lang src tr ar n -> touches cur (loaded_ref src n) -> first_in_line lang src tr cur n ->
         let name := snd (loaded_ref src n) in proper_name name ->
         (forall u, stands_for F url (cf_templates c) name u -> In (rid, RGoto (GScalar (mkloc u range0))) (y_replies y)) /\
         ((forall u, ~ stands_for F url (cf_templates c) name u) -> In (rid, RNull) (y_replies y))) /\
      ((forall ar n, loading lang src tr ar n -> ~ touches cur (loaded_ref src n)) -> In (rid, RNull) (y_replies y)).
Proof.
  intros l y sy a F rest rid F0 c He Hidle uri t pos tr Hx Ht Hy Hset Hus lang src cur R.
  destruct (asked_code_goto parse edit url b Hpt l y sy a F rest rid He Hidle uri t pos Hx Ht Hy) as (s & x & Hrp & H).
  cbv zeta in H. rewrite (settings_then a s x F0 c Hrp Hset Hus) in H. exact (H tr R).
Qed.
End Led.
