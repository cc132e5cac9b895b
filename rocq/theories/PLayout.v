(** * PLayout: diagnostics of a template laid out differently or renamed (C123). *)
From Verif Require Import Base RString Utf8 Rope Types Captures MTemplates MDefinition MObjects MLspFiles MSearchErrors MLspTask MChannels MQueries.
From Verif Require Import SpecText SpecFiles SpecScope SpecScope2 SpecObjects SpecObjects2 SpecLint SpecNav SpecQueries SpecQueries2 SpecQueries4 SpecChannels SpecServer SpecClient SpecQueries5 SpecScreen SpecLayout.
From Verif Require Import PLint PQueries PQueries6 PQueries9 PQueries10 PQueries11 PClient PScreen.

Lemma pairs_l {A B} (R : A -> B -> Prop) l l' x : Forall2 R l l' -> In x l -> exists x', In x' l' /\ R x x'.
Proof. induction 1 as [|a b ? ? H _ IH]; [intros []|]; intros [E|E]; [subst; exists b; split; [now left|exact H]|]. destruct (IH E) as (z & H1 & H2). exists z. split; [now right|exact H2]. Qed.
Lemma pairs_r {A B} (R : A -> B -> Prop) l l' x' : Forall2 R l l' -> In x' l' -> exists x, In x l /\ R x x'.
Proof. induction 1 as [|a b ? ? H _ IH]; [intros []|]; intros [E|E]; [subst; exists a; split; [now left|exact H]|]. destruct (IH E) as (z & H1 & H2). exists z. split; [now right|exact H2]. Qed.

Section Alike.
Variables (f : point -> point) (g : string -> string).
Hypothesis (Hf : keeps_order f) (Hg : renaming g).

Lemma keeps_lt p q : pt_lt p q <-> pt_lt (f p) (f q).
Proof.
  split; [apply Hf|]. intros H. assert (C : pt_lt p q \/ p = q \/ pt_lt q p).
  { destruct p as [a b], q as [c d]. unfold pt_lt in *. cbn. destruct (N.lt_total a c) as [L|[L|L]]; [left; lia| |right; right; lia].
    destruct (N.lt_total b d) as [L2|[L2|L2]]; [left; lia|right; left; congruence|right; right; lia]. }
  destruct C as [C|[->|C]]; [exact C| |apply Hf in C]; exfalso; unfold pt_lt in *; lia.
Qed.
Lemma keeps_le p q : pt_le p q <-> pt_le (f p) (f q).
Proof.
  assert (N : forall a b, pt_le a b <-> ~ pt_lt b a) by (intros a b; unfold pt_le, pt_lt; lia).
  rewrite !N. now rewrite keeps_lt.
Qed.

(** ** What opens, closes and introduces names *)
Inductive mark_like : SpecScope2.mark -> SpecScope2.mark -> Prop :=
| MlOpen : mark_like MOpen MOpen
| MlClose p : mark_like (MClose p) (MClose (f p))
| MlName k t t' : word_like f g t t' -> mark_like (MName k t) (MName k t').
Lemma opens_like es es' : Forall2 (noise_like f g) es es' -> Forall2 mark_like (opens es) (opens es').
Proof.
  induction 1 as [|? ? ? ? H _ IH]; [constructor|]. unfold opens in *. cbn [flat_map]. apply Forall2_app; [|exact IH].
  destruct H; repeat constructor.
Qed.
Lemma listed_like k es es' : Forall2 (noise_like f g) es es' -> forall live, Forall2 mark_like (listed k live es) (listed k live es').
Proof.
  induction 1 as [|? ? ? ? H _ IH]; intros live; [constructor|]. destruct H; cbn [listed]; [|apply IH|constructor; [constructor|apply IH]].
  apply Forall2_app; [|apply IH]. destruct live; repeat constructor; auto; apply H.
Qed.
Lemma binds_like bs bs' : Forall2 (bind_like f g) bs bs' -> Forall2 (noise_like f g) (flat_binds bs) (flat_binds bs').
Proof.
  induction 1 as [|? ? ? ? (H & H') _ IH]; [constructor|]. unfold flat_binds in *. cbn [flat_map]. apply Forall2_app; [|exact IH].
  constructor; [now constructor|exact H'].
Qed.
Lemma header_marks_like h h' : header_like f g h h' -> Forall2 mark_like (header_marks h) (header_marks h').
Proof.
  intros H. destruct H; cbn [header_marks]; repeat (constructor; [constructor; try assumption|]);
    first [now apply opens_like|now apply listed_like, binds_like].
Qed.
Lemma marks_like tp tp' : tpl_like f g tp tp' -> Forall2 mark_like (SpecScope2.marks tp) (SpecScope2.marks tp').
Proof.
  assert (Hc : forall et et', tag_like f et et' -> mark_like (MClose (et_at et)) (MClose (et_at et'))) by (intros et et' E; red in E; rewrite E; constructor).
  induction 1; cbn [SpecScope2.marks]; try (constructor; [now constructor|]); repeat apply Forall2_app; auto using opens_like, header_marks_like; constructor; auto.
Qed.
Definition decl_like (d d' : decl) : Prop :=
  dc_name d' = g (dc_name d) /\ dc_kind d' = dc_kind d /\ dc_start d' = f (dc_start d) /\ dc_end d' = f (dc_end d) /\ dc_until d' = f (dc_until d).
Lemma closing_like ms ms' : Forall2 mark_like ms ms' -> forall d, closing d ms' = option_map f (closing d ms).
Proof. induction 1 as [|? ? ? ? H _ IH]; intros d; [reflexivity|]. destruct H; cbn [closing]; auto. destruct d; auto. Qed.
Lemma extents_like u ms ms' : Forall2 mark_like ms ms' -> forall o, Forall2 decl_like (extents u o ms) (extents (f u) o ms').
Proof.
  induction 1 as [|? ? ms ms' H Hr IH]; intros o; [constructor|]. destruct H as [| |k t t' ((H1 & H2) & H3)]; cbn [extents]; auto.
  constructor; [|apply IH]. unfold decl_like, decl_of. cbn [dc_name dc_kind dc_start dc_end dc_until]. repeat split; auto.
  unfold reach_of. destruct o; [reflexivity|]. rewrite (closing_like _ _ Hr). now destruct (closing 0 ms).
Qed.
Lemma tallied_like u tp tp' : tpl_like f g tp tp' -> Forall2 decl_like (tallied u tp) (tallied (f u) tp').
Proof. intros H. apply extents_like. now apply marks_like. Qed.

(** ** Verdicts *)
Section Verdicts.
Variables (ds ds' : list decl) (any any' : string -> Prop).
Hypothesis (Hds : Forall2 decl_like ds ds').
Hypothesis (Hn : forall d, In d ds -> dc_until d <> pt0) (Hn' : forall d, In d ds' -> dc_until d <> pt0).

Lemma there d : In d ds -> exists d', In d' ds' /\ decl_like d d'.
Proof. apply pairs_l. exact Hds. Qed.
Lemma back d' : In d' ds' -> exists d, In d ds /\ decl_like d d'.
Proof. apply pairs_r. exact Hds. Qed.
Lemma means_like name d d' : decl_like d d' -> (means name d <-> means (g name) d').
Proof. intros (H1 & H2 & _). unfold means. rewrite H1, H2. split; intros (A & B); (split; [|exact B]); [now rewrite A|now apply Hg]. Qed.
Lemma seen_like s e d d' : In d ds -> In d' ds' -> decl_like d d' -> (seen_from s e d <-> seen_from (f s) (f e) d').
Proof.
  intros I I' (_ & _ & H3 & _ & H5). unfold seen_from. pose proof (Hn _ I). pose proof (Hn' _ I').
  rewrite (keeps_le (dc_start d) e), <- H3. rewrite (keeps_lt s), <- H5. tauto.
Qed.
Lemma verdict_like name s e r : (any name <-> any' (g name)) -> verdict ds any name s e r -> verdict ds' any' (g name) (f s) (f e) r.
Proof.
  intros Ha H. destruct H as [d I M S|d I M S|M A|M A].
  - destruct (there d I) as (d' & I' & L). apply (VFine _ _ _ _ _ d'); [exact I'|now apply (means_like name d)|now apply (seen_like s e d)].
  - destruct (there d I) as (d' & I' & L). apply (VOutOfScope _ _ _ _ _ d'); [exact I'|now apply (means_like name d)|].
    intros c' J' M'. destruct (back c' J') as (c & J & K). intros S'. apply (S c J); [now apply (means_like name c c')|now apply (seen_like s e c c')].
  - apply VNowhere; [|tauto]. intros c' J' M'. destruct (back c' J') as (c & J & K). apply (M c J). now apply (means_like name c c').
  - apply VElsewhere; [|tauto]. intros c' J' M'. destruct (back c' J') as (c & J & K). apply (M c J). now apply (means_like name c c').
Qed.
Lemma reported_like us : forall us' e e',
  Forall2 (word_like f g) (map fst us) (map fst us') -> (forall u, In u us -> (any (snd (fst u)) <-> any' (g (snd (fst u))))) ->
  reported ds any us e -> reported ds' any' us' e' -> Forall2 (report_like f) e e'.
Proof.
  induction us as [|u us IH]; intros us' e e' Hu Ha H H'.
  - destruct us' as [|u' us']; [|inversion Hu]. inversion H; inversion H'; subst. constructor.
  - destruct us' as [|u' us']; [inversion Hu|]. inversion Hu as [|? ? ? ? ((W1 & W2) & W3) Hr]; subst.
    inversion H as [|? ? ? V R|? ? ? ? V R]; subst; inversion H' as [|? ? ? V' R'|? ? ? ? V' R']; subst;
      apply (verdict_like (snd (fst u)) (n_start (fst (fst u))) (n_end (fst (fst u)))) in V; try (apply Ha; now left);
      rewrite <- W1, <- W2, <- W3 in V; pose proof (verdict_unique _ _ _ _ _ _ _ V V') as E; try discriminate E.
    + apply (IH us'); auto. intros x Hx. apply Ha. now right.
    + injection E as <-. constructor; [|apply (IH us'); auto; intros x Hx; apply Ha; now right].
      split; [reflexivity|]. cbn [snd use_id id_start id_end]. auto.
Qed.
End Verdicts.
Lemma missing_like F F' dir dir' sts sts' : refs_like f sts sts' -> found_alike F F' dir dir' sts ->
  Forall2 (report_like f) (missing_reports F dir sts) (missing_reports F' dir' sts').
Proof.
  unfold refs_like, found_alike, missing_reports. generalize (flat_map refs sts'). generalize (flat_map refs sts). intros l l' H.
  induction H as [|r r' l l' ((H1 & H2) & H3) _ IH]; intros Ha; [constructor|]. cbn [filter map]. rewrite H3, <- (Ha r) by now left.
  assert (IH' := IH (fun x Hx => Ha x (or_intror Hx))). destruct (missing F dir (snd r)); [|exact IH']. cbn [map]. constructor; [|exact IH'].
  split; [reflexivity|]. cbn. auto.
Qed.
End Alike.

Section Tree.
Variables (parse : plang -> string -> option stree -> option stree) (edit : stree -> input_edit -> stree).
Notation T := (ts_with parse edit).
Lemma conveyed_until t tr tp ps sts d : conveys parse t tr tp ps sts -> In d (tallied (n_end (s_node tr)) tp) -> dc_until d <> pt0.
Proof.
  intros H. set (s := @mkls T [("a.html"%string, tr)] [] [("a.html"%string, t)] PRust PRust config0 None false [] [] false false).
  apply (until_some parse edit s "a.html"%string t tr tp ps sts). destruct H. constructor; auto.
Qed.
Lemma layout_reports f g F F' dir dir' t t' tr tr' tp tp' ps ps' sts sts' vars vars' e e' :
  keeps_order f -> renaming g -> conveys parse t tr tp ps sts -> conveys parse t' tr' tp' ps' sts' ->
  tpl_like f g tp tp' -> uses_like f g ps ps' -> refs_like f sts sts' -> n_end (s_node tr') = f (n_end (s_node tr)) ->
  known_alike g vars vars' ps -> found_alike F F' dir dir' sts ->
  reported (defines tr tp) (indexed vars) (chains ps) e -> reported (defines tr' tp') (indexed vars') (chains ps') e' ->
  Forall2 (report_like f) (e ++ missing_reports F dir sts) (e' ++ missing_reports F' dir' sts').
Proof.
  intros Hf Hg C C' Ht Hu Hr He Hk Hm R R'. apply Forall2_app; [|now apply missing_like].
  unfold defines in *. rewrite He in R'. eapply (reported_like f g Hf Hg); [| | |exact Hu|exact Hk|exact R|exact R'].
  - now apply tallied_like.
  - intros d. now apply (conveyed_until t tr tp ps sts).
  - intros d. rewrite <- He. now apply (conveyed_until t' tr' tp' ps' sts').
Qed.
Lemma layout_opened f g F F' b uri uri' t t' tr tr' tp tp' ps ps' sts sts' (s s' : lsp_files T) :
  keeps_order f -> renaming g -> file_ext uri = Some Template -> file_ext uri' = Some Template ->
  conveys parse t tr tp ps sts -> conveys parse t' tr' tp' ps' sts' -> ls_ignore s = false -> ls_ignore s' = false ->
  tpl_like f g tp tp' -> uses_like f g ps ps' -> refs_like f sts sts' -> n_end (s_node tr') = f (n_end (s_node tr)) ->
  found_alike F F' (cf_templates (ls_config s)) (cf_templates (ls_config s')) sts ->
  exists s1 e s1' e', did_open F b uri t false s = Ok (s1, Some [(uri, e)]) /\ did_open F' b uri' t' false s' = Ok (s1', Some [(uri', e')]) /\
    (known_alike g (ls_vars s1) (ls_vars s1') ps -> Forall2 (report_like f) e e').
Proof.
  intros Hf Hg X X' C C' G G' Ht Hu Hr He Hm.
  destruct (tree_open_any parse edit F b uri t tr tp ps sts s X (rd_text _ _ _ _ _ _ C) G (rd_parse _ _ _ _ _ _ C _) (rd_depicts _ _ _ _ _ _ C) (rd_ends _ _ _ _ _ _ C)) as (s1 & e1 & E1 & R1 & _).
  destruct (tree_open_any parse edit F' b uri' t' tr' tp' ps' sts' s' X' (rd_text _ _ _ _ _ _ C') G' (rd_parse _ _ _ _ _ _ C' _) (rd_depicts _ _ _ _ _ _ C') (rd_ends _ _ _ _ _ _ C')) as (s2 & e2 & E2 & R2 & _).
  exists s1, (e1 ++ missing_reports F (cf_templates (ls_config s)) sts), s2, (e2 ++ missing_reports F' (cf_templates (ls_config s')) sts').
  split; [exact E1|]. split; [exact E2|]. intros Hk. eapply layout_reports; eauto.
Qed.
Lemma layout_screen f g url b l l' (y y' : sys T) s s' uri uri' v v' t t' tr tr' tp tp' ps ps' sts sts' :
  parse_total T -> keeps_order f -> renaming g ->
  exec url b (sys0 T) l = Some y -> at_rest y -> state_of y s -> file_ext uri = Some Template ->
  just_read uri (map fst (y_taken y)) t -> conveys parse t tr tp ps sts ->
  ls_ignore (tk_data s) = false -> url uri = Some v -> (forall u, url u = Some v -> u = uri) ->
  exec url b (sys0 T) l' = Some y' -> at_rest y' -> state_of y' s' -> file_ext uri' = Some Template ->
  just_read uri' (map fst (y_taken y')) t' -> conveys parse t' tr' tp' ps' sts' ->
  ls_ignore (tk_data s') = false -> url uri' = Some v' -> (forall u, url u = Some v' -> u = uri') ->
  tpl_like f g tp tp' -> uses_like f g ps ps' -> refs_like f sts sts' -> n_end (s_node tr') = f (n_end (s_node tr)) ->
  exists F s1 e F' s1' e', last_reading url b y uri F s1 /\ last_reading url b y' uri' F' s1' /\
    last_published v (y_published y) = Some (publish_of e) /\ last_published v' (y_published y') = Some (publish_of e') /\
    (known_alike g (ls_vars (tk_data s1)) (ls_vars (tk_data s1')) ps ->
     found_alike F F' (cf_templates (ls_config (tk_data s))) (cf_templates (ls_config (tk_data s'))) sts ->
     Forall2 (report_like f) e e').
Proof.
  intros Hp Hf Hg A1 A2 A3 A4 A5 A6 A7 A8 A9 B1 B2 B3 B4 B5 B6 B7 B8 B9 Ht Hu Hr He.
  destruct (screen parse edit url b Hp l y s uri v t tr tp ps sts) as (F & s1 & e & L & P & R); auto.
  destruct (screen parse edit url b Hp l' y' s' uri' v' t' tr' tp' ps' sts') as (F' & s1' & e' & L' & P' & R'); auto.
  eexists F, s1, _, F', s1', _. split; [exact L|]. split; [exact L'|]. split; [exact P|]. split; [exact P'|].
  intros Hk Hm. eapply layout_reports; eauto.
Qed.

(** ** Goto *)
Lemma conveyed_displayed t tr tp ps sts : conveys parse t tr tp ps sts ->
  displayed (@mkls T [("a.html"%string, tr)] [] [("a.html"%string, t)] PRust PRust config0 None false [] [] false false) "a.html"%string t tr tp ps sts.
Proof. intros H. destruct H. constructor; auto. Qed.
Lemma same_start t tr tp ps sts d d' : conveys parse t tr tp ps sts -> In d (defines tr tp) -> In d' (defines tr tp) ->
  dc_start d = dc_start d' -> dc_end d = dc_end d'.
Proof.
  intros C H H' E. pose proof (conveyed_displayed _ _ _ _ _ C) as Hd.
  destruct (decl_node _ _ _ _ _ _ _ _ _ Hd d H) as (x & Hx & Kx & X1 & X2 & _). destruct (decl_node _ _ _ _ _ _ _ _ _ Hd d' H') as (z & Hz & Kz & Z1 & Z2 & _).
  destruct (leaf_at _ _ _ _ _ _ _ _ _ Hd x Hx) as (Cx & Lx); [rewrite Kx; now left|]. destruct (leaf_at _ _ _ _ _ _ _ _ _ Hd z Hz) as (Cz & Lz); [rewrite Kz; now left|].
  destruct (two_leaves _ _ _ (proj1 (rd_placed _ _ _ _ _ _ C)) Hx Hz Cx Cz) as [->|[L|L]]; [congruence| |]; exfalso; unfold pt_le, pt_lt in *;
    rewrite X1, ?X2, ?Z1, ?Z2, ?E in *; lia.
Qed.
Definition goes (h : tok) (d : decl) : Prop := dc_name d = snd h /\ pt_le (dc_start d) (n_end (fst h)) /\ pt_lt (n_start (fst h)) (dc_until d).
Lemma goes_iff t tr tp ps sts h fs d cur : conveys parse t tr tp ps sts -> In (h, fs) (chains ps) -> cursor_on tr cur (fst h) -> In d (defines tr tp) ->
  (goto_sees cur (snd h) d <-> goes h d).
Proof.
  intros C I Hc Hd. pose proof (conveyed_displayed _ _ _ _ _ C) as Hs. unfold goto_sees, goes.
  rewrite <- (until_iff _ _ _ _ _ _ _ _ _ Hs h fs I d cur Hd Hc). split; intros (H1 & H2 & H3); (split; [exact H1|]); (split; [|exact H3]).
  - destruct Hc as ((_ & Hc) & _). unfold pt_le in *. lia.
  - exact (proj1 (start_cases _ _ _ _ _ _ _ _ _ Hs h fs I d cur Hd Hc H2)).
Qed.
Lemma goes_like f g h h' d d' : keeps_order f -> renaming g -> word_like f g h h' -> decl_like f g d d' -> (goes h d <-> goes h' d').
Proof.
  intros Hf Hg ((W1 & W2) & W3) (D1 & _ & D3 & _ & D5). unfold goes. rewrite D1, D3, D5, W1, W2, W3.
  rewrite <- keeps_le by exact Hf. rewrite <- keeps_lt by exact Hf. split; intros (H1 & H2); (split; [|exact H2]); [now rewrite H1|now apply Hg].
Qed.
Lemma layout_goto f g url b l l' (y y' : sys T) sy sy' a a' F F' c c' rid rid' uri uri' t t' tr tr' tp tp' ps ps' sts sts' h h' fs fs' pos pos' :
  parse_total T -> keeps_order f -> renaming g ->
  exec url b (sys0 T) l = Some y -> y_task y = TIdle sy -> file_ext uri = Some Template ->
  y_taken y = a ++ (MGoto rid uri pos, F) :: c -> just_read uri (map fst a) t -> conveys parse t tr tp ps sts ->
  In (h, fs) (chains ps) -> cursor_on tr (point_of pos) (fst h) ->
  exec url b (sys0 T) l' = Some y' -> y_task y' = TIdle sy' -> file_ext uri' = Some Template ->
  y_taken y' = a' ++ (MGoto rid' uri' pos', F') :: c' -> just_read uri' (map fst a') t' -> conveys parse t' tr' tp' ps' sts' ->
  In (h', fs') (chains ps') -> cursor_on tr' (point_of pos') (fst h') ->
  tpl_like f g tp tp' -> n_end (s_node tr') = f (n_end (s_node tr)) -> word_like f g h h' ->
  (exists d, In d (defines tr tp) /\ goto_sees (point_of pos) (snd h) d) ->
  exists p q, In (rid, RGoto (GScalar (mkloc uri (lsp_range p q)))) (y_replies y) /\
    In (rid', RGoto (GScalar (mkloc uri' (lsp_range (f p) (f q))))) (y_replies y').
Proof.
  intros Hp Hf Hg A1 A2 A3 A4 A5 A6 A7 A8 B1 B2 B3 B4 B5 B6 B7 B8 Ht He Hw (d0 & I0 & S0).
  pose proof (tallied_like f g (n_end (s_node tr)) tp tp' Ht) as Hd. rewrite <- He in Hd. fold (defines tr tp) (defines tr' tp') in Hd.
  assert (Hto : forall d, In d (defines tr tp) -> goto_sees (point_of pos) (snd h) d -> exists d', In d' (defines tr' tp') /\ decl_like f g d d' /\ goto_sees (point_of pos') (snd h') d').
  { intros d I S. destruct (pairs_l _ _ _ _ Hd I) as (d' & I' & L). exists d'. split; [exact I'|]. split; [exact L|].
    apply (goes_iff t' tr' tp' ps' sts' h' fs' d' _ B6 B7 B8 I'). apply (goes_like f g h h' d d' Hf Hg Hw L). now apply (goes_iff t tr tp ps sts h fs d _ A6 A7 A8 I). }
  assert (Hfro : forall d', In d' (defines tr' tp') -> goto_sees (point_of pos') (snd h') d' -> exists d, In d (defines tr tp) /\ decl_like f g d d' /\ goto_sees (point_of pos) (snd h) d).
  { intros d' I S. destruct (pairs_r _ _ _ _ Hd I) as (d & I' & L). exists d. split; [exact I'|]. split; [exact L|].
    apply (goes_iff t tr tp ps sts h fs d _ A6 A7 A8 I'). apply (goes_like f g h h' d d' Hf Hg Hw L). now apply (goes_iff t' tr' tp' ps' sts' h' fs' d' _ B6 B7 B8 I). }
  destruct (asked_goto parse edit url b Hp l y sy a F c rid A1 A2 uri t tr tp ps sts t tr tp ps sts A3 (just_last _ _ _ A5) A6 A6 h fs pos A4 A7 A8) as (d & (I & S & M) & R); [now exists d0|].
  destruct (asked_goto parse edit url b Hp l' y' sy' a' F' c' rid' B1 B2 uri' t' tr' tp' ps' sts' t' tr' tp' ps' sts' B3 (just_last _ _ _ B5) B6 B6 h' fs' pos' B4 B7 B8) as (d' & (I' & S' & M') & R').
  { destruct (Hto d0 I0 S0) as (z & Z & _ & Z'). now exists z. }
  exists (dc_start d), (dc_end d). split; [exact R|].
  destruct (Hto d I S) as (e' & Ie' & (_ & _ & L3 & L4 & _) & Se'). destruct (Hfro d' I' S') as (e & Ie & (_ & _ & K3 & _) & Se).
  assert (E : dc_start d' = dc_start e').
  { pose proof (M' e' Ie' Se') as X1. pose proof (M e Ie Se) as X2. apply (proj1 (keeps_le f Hf _ _)) in X2. rewrite <- K3, <- L3 in X2. clear - X1 X2.
    destruct (dc_start d'), (dc_start e'). unfold pt_le in *. cbn in *. f_equal; lia. }
  rewrite <- L3, <- L4, <- E, <- (same_start _ _ _ _ _ d' e' B6 I' Ie' E). exact R'.
Qed.
End Tree.
