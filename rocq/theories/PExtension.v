(** * PExtension: lemmas about the settings Visual Studio Code sends (for C120). *)
From Verif Require Import Base RString Utf8 Types Captures MSearchErrors MLspFiles MLspTask MSettings MExtension.
From Verif Require Import SpecFiles SpecConfig SpecSettings SpecExtension SpecServer.
From Verif Require Import PText PFiles PConfig POrder PSettings.

Lemma merged_get user k : NoDup (map fst user) ->
  sget k (fold_right (fun kv m => sinsert (fst kv) (snd kv) m) default_settings user) =
  match sget k user with Some v => Some v | None => sget k default_settings end.
Proof.
  induction user as [|[k' v'] user IH]; intros Hn; [reflexivity|]. cbn [map] in Hn. inversion Hn as [|? ? Hk Hn']; subst.
  cbn [fold_right fst snd]. unfold sget at 2, hm_get. destruct (String.eqb_spec k k') as [->|E].
  - now rewrite sget_sinsert_same.
  - rewrite sget_sinsert_other by exact E. exact (IH Hn').
Qed.
Lemma set_to_get user k d v : NoDup (map fst user) ->
  (set_to user k d v <-> match sget k user with Some w => w | None => d end = v).
Proof.
  intros Hn. unfold set_to. destruct (sget k user) as [w|] eqn:E.
  - split.
    + intros [H|[H _]]; [apply (in_sget _ _ _ Hn) in H; congruence|]. apply sget_in in E. now elim (H w).
    + intros <-. left. now apply sget_in.
  - split.
    + intros [H|[_ ->]]; [apply (in_sget _ _ _ Hn) in H; congruence|reflexivity].
    + intros <-. right. split; [|reflexivity]. intros w H. apply (in_sget _ _ _ Hn) in H. congruence.
Qed.
Lemma options_understood user c : NoDup (map fst user) ->
  (config_of_json (client_options user) = Some c <-> settings_say user c /\ cf_user c = false).
Proof.
  intros Hn. unfold client_options. cbn [config_of_json]. unfold de_map. rewrite !(merged_get user _ Hn).
  change (sget "templates" default_settings) with (Some (VStr "./templates")).
  change (sget "backend" default_settings) with (Some (VArr [VStr "./src"])).
  change (sget "lang" default_settings) with (Some (VStr "rust")).
  change (sget "hide_undefined" default_settings) with (@None value).
  unfold settings_say. rewrite !(set_to_get user _ _ _ Hn).
  assert (E : (match cf_hide c with Some h => In ("hide_undefined"%string, VBool h) user
               | None => set_to user "hide_undefined" VNull VNull end) <->
              match sget "hide_undefined" user with Some w => w | None => VNull end = match cf_hide c with Some h => VBool h | None => VNull end).
  { destruct (cf_hide c) as [h|]; [|exact (set_to_get user _ _ _ Hn)]. split; intros H.
    - now rewrite (in_sget _ _ _ Hn H).
    - destruct (sget "hide_undefined" user) as [w|] eqn:Eh; [|discriminate H]. subst w. now apply sget_in. }
  rewrite E. clear E.
  destruct (sget "templates" user) as [t|], (sget "backend" user) as [b|], (sget "lang" user) as [l|];
    (rewrite de_fields_spec; destruct (sget "hide_undefined" user) as [h|]; tauto).
Qed.
Lemma options_keys user : distinct_keys (client_options user).
Proof.
  unfold client_options. cbn [distinct_keys].
  induction user as [|[k v] user IH]; [cbn; repeat constructor; cbn; intuition discriminate|]. cbn [fold_right]. now apply sinsert_nodup.
Qed.
Lemma options_say user c : NoDup (map fst user) -> (json_says (client_options user) c <-> settings_say user c).
Proof.
  intros Hn. set (c0 := mkcfg (cf_templates c) (cf_backend c) (cf_lang c) false (cf_hide c)).
  change (json_says (client_options user) c) with (json_says (client_options user) c0). change (settings_say user c) with (settings_say user c0).
  pose proof (options_understood user c0 Hn) as A. pose proof (config_of_json_spec _ c0 (options_keys user)) as B. cbn [cf_user c0] in *. tauto.
Qed.
Lemma extension_used {T : ts} F url b rid user c (s s1 s2 : task_state T) es1 es2 :
  parse_total T -> NoDup (map fst user) -> settings_say user c ->
  (cf_lang c = "rust" \/ cf_lang c = "python")%string -> ~ entry F c WErr ->
  forall m1 m2, extension_start rid user = [m1; m2] ->
  step F url b s m1 = Ok (s1, es1) -> step F url b s1 m2 = Ok (s2, es2) ->
  user_config c (tk_config s2) /\ SpecConfig.indexed F (SpecConfig.lang_of c) (entry F c) (tk_data s2) /\
  ls_ignore (tk_data s2) = (match cf_hide c with Some h => h | None => false end) /\ ls_vscode (tk_data s2) = true.
Proof.
  intros Hp Hn Hs Hl He m1 m2 E H1 H2. injection E as <- <-.
  destruct (settings_used F url b rid _ _ c s1 s2 es1 es2 s Hp (options_keys user) (proj2 (options_say user c Hn) Hs) Hl He H1 H2) as (A & B & C).
  split; [exact A|]. split; [exact B|]. split; [exact C|].
  cbn [step] in H1. inversion H1; subst s1 es1. clear H1. cbn [step] in H2.
  destruct (do_initialized_cases F b _ s2 es2 Hp H2) as [(_ & _ & _ & _ & _ & _ & _ & _ & _ & _ & V & _)|(_ & -> & _)].
  - rewrite V. reflexivity.
  - reflexivity.
Qed.
Lemma files_ignored {T : ts} F F' url b rid user c (s : task_state T) : NoDup (map fst user) -> settings_say user c ->
  forall m1 m2, extension_start rid user = [m1; m2] -> step F url b s m1 = step F' url b s m1.
Proof.
  intros Hn Hs m1 m2 E. assert (E1 : m1 = MInitialize rid (Some "Visual Studio Code"%string) (Some (config_of_json (client_options user)))) by (unfold extension_start in E; congruence). subst m1. set (c0 := mkcfg (cf_templates c) (cf_backend c) (cf_lang c) false (cf_hide c)).
  rewrite (proj2 (options_understood user c0 Hn) (conj (Hs : settings_say user c0) eq_refl)). reflexivity.
Qed.
