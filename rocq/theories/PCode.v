(** * PCode: which string that loads a template the cursor is in (C124). *)
From Verif Require Import Base RString Utf8 Rope Types Captures MTemplates MSearchErrors MLspFiles MLspTask MQueries.
From Verif Require Import SpecText SpecFiles SpecBackend SpecObjects SpecLint SpecNav SpecConfig SpecQueries SpecQueries2 SpecQueries4 SpecScreen SpecCode.
From Verif Require Import PText PFiles PNode PObjects PConfig PBackend PQueries PQueries2 PQueries3 PQueries4 PQueries7 PQueries9.

Lemma loads_exists call member name args str src t n :
  loads call member name args str src t n <-> exists ar, loads_in call member name args str src t ar n.
Proof.
  unfold loads, loads_in. split.
  - intros (x & f & callee & g & ar & h & method & rest & H). exists ar, x, f, callee, g, h, method, rest. exact H.
  - intros (ar & x & f & callee & g & h & method & rest & H). exists x, f, callee, g, ar, h, method, rest. exact H.
Qed.
Lemma loading_exists lang src t n : (exists ar, loading lang src t ar n) <-> match lang with PPython => python_loads | _ => rust_loads end src t n.
Proof. destruct lang; cbn [loading]; symmetry; apply loads_exists. Qed.

(** ** Starts are in order *)
Lemma laid_starts : forall t a x z, laid_out t -> preorder t = a ++ x :: z ->
  Forall (fun y => pt_le (n_start (s_node x)) (n_start (s_node y))) z.
Proof.
  assert (W : forall k t, (length (preorder t) < k)%nat -> forall a x z, laid_out t -> preorder t = a ++ x :: z ->
    Forall (fun y => pt_le (n_start (s_node x)) (n_start (s_node y))) z).
  { induction k as [|k IH]; intros t Hk a x z Hl E; [lia|]. pose proof Hl as Hl0. destruct t as [kd n ch]. cbn [preorder] in E.
    destruct a as [|w a]; cbn [app] in E; inversion E; subst.
    { apply Forall_forall. intros y Hy. apply (laid_inside (SN kd n ch)); [exact Hl|]. cbn [preorder]. now right. }
    clear E. assert (Hch : forall c, In c ch -> laid_out (snd c)) by (intros (f & c) Hc; exact (laid_child _ _ _ _ _ Hl Hc)).
    assert (Hp : ForallOrdPairs (fun a b => pt_le (n_end (s_node (snd a))) (n_start (s_node (snd b)))) ch).
    { unfold laid_out in Hl. rewrite Forall_forall in Hl. exact (proj1 (proj2 (Hl (SN kd n ch) (or_introl eq_refl)))). }
    cbn [preorder length] in Hk. apply Nat.succ_lt_mono in Hk. clear Hl Hl0. revert a H1 Hk. induction ch as [|c ch IHc]; intros a E Hk; [destruct a; discriminate|].
    cbn [flat_map] in E, Hk. rewrite app_length in Hk. inversion Hp as [|c0 ch0 Hf Hr]; subst.
    destruct (app_cons_split _ _ _ _ _ E) as [(z1 & E1 & ->)|(a2 & -> & E2)].
    - apply Forall_app. split; [apply (IH (snd c)) with a; auto; [lia|apply Hch; now left]|].
      apply Forall_forall. intros y Hy. apply in_flat_map in Hy. destruct Hy as (d & Hd & Hy). rewrite Forall_forall in Hf. specialize (Hf _ Hd).
      assert (Hin : In x (preorder (snd c))) by (rewrite E1; apply in_or_app; right; now left).
      pose proof (Hch c (or_introl eq_refl)) as Hc. destruct (laid_inside _ _ Hc Hin) as (_ & A).
      unfold laid_out in Hc. rewrite Forall_forall in Hc. destruct (Hc _ Hin) as (A' & _).
      destruct (laid_inside _ _ (Hch d (or_intror Hd)) Hy) as (B & _).
      eapply pt_le_trans'; [exact A'|]. eapply pt_le_trans'; [exact A|]. eapply pt_le_trans'; [exact Hf|exact B].
    - apply (IHc (fun d Hd => Hch d (or_intror Hd)) Hr a2 E2). lia. }
  intros t a x z. apply (W (S (length (preorder t)))). lia.
Qed.
Lemma laid_all t x : laid_out t -> In x (preorder t) -> laid_out x.
Proof. intros H Hx. unfold laid_out in *. rewrite Forall_forall in *. intros y Hy. apply H. now apply preorder_trans with x. Qed.
Lemma laid_self t x : laid_out t -> In x (preorder t) -> pt_le (n_start (s_node x)) (n_end (s_node x)).
Proof. intros H Hx. unfold laid_out in H. rewrite Forall_forall in H. now apply H. Qed.
Lemma pairs_order {A} (R : A -> A -> Prop) l : ForallOrdPairs R l -> forall a x b y c, l = a ++ x :: b ++ y :: c -> R x y.
Proof.
  induction 1 as [|z l Hz _ IH]; intros a x b y c E; [destruct a; discriminate|]. destruct a as [|w a]; cbn in E; inversion E; subst; [|eauto].
  rewrite Forall_forall in Hz. apply Hz. apply in_or_app. right. now left.
Qed.
Lemma laid_order t x f y g z : laid_out t -> In x (preorder t) -> in_order (s_children x) f y g z -> pt_le (n_end (s_node y)) (n_start (s_node z)).
Proof.
  intros H Hx (a & b & c & E). unfold laid_out in H. rewrite Forall_forall in H. destruct (H _ Hx) as (_ & Hp & _).
  exact (pairs_order _ _ Hp a (f, y) b (g, z) c E).
Qed.
Lemma of_kind_cons k l n rest : of_kind k l = n :: rest ->
  exists a f x z, l = a ++ (f, x) :: z /\ s_kind x = k /\ s_node x = n /\ of_kind k z = rest.
Proof.
  unfold of_kind. induction l as [|(f & x) l IH]; cbn [filter map flat_map]; [discriminate|]. intros E. cbn [snd] in E.
  destruct (String.eqb_spec (s_kind x) k) as [Ek|Ek].
  - cbn in E. inversion E; subst. exists [], f, x, l. auto.
  - destruct (IH E) as (a & f' & x' & z & -> & H). exists ((f, x) :: a), f', x', z. auto.
Qed.

(** ** The strings that are collected *)
(** Matches of which a part may be missing. *)
Definition part_shape (M : list bcap) : Prop :=
  M = [] \/ exists c l, M = c :: l /\ is_loader c = true /\ Forall (fun c => is_string c = true) l.
Lemma references_parts Ms : Forall part_shape Ms -> forall pre, references pre (concat Ms) = flat_map first_string Ms.
Proof.
  induction 1 as [|M Ms [->|(c & l & -> & Hc & Hs)] _ IH]; intros pre; [reflexivity|exact (IH pre)|]. cbn [concat flat_map]. rewrite references_app. f_equal; [|apply IH].
  assert (Ec : is_string c = false) by (unfold is_loader in Hc; unfold is_string; destruct (bc_name c); congruence).
  destruct l as [|d l]; [cbn [references first_string]; now rewrite Ec|]. inversion Hs as [|? ? Hd Hs']; subst. cbn [references first_string].
  assert (Ed : is_loader d = false) by (unfold is_string in Hd; unfold is_loader; destruct (bc_name d); congruence).
  rewrite Ec. cbn [andb app]. rewrite PQueries4.follows_snoc, Hc, Hd. cbn [orb andb app]. f_equal. apply references_strings; [exact Hs'|].
  rewrite PQueries4.follows_snoc, Hd, Ed. reflexivity.
Qed.
Section Cursor.
Variables call member name args str : string.
Variables (src : string) (t : stree) (cur : point).
Hypothesis Hap : told_apart t.
Hypothesis Hlaid : laid_out t.
Hypothesis Hread : readable src t.
Notation L := (loads_in call member name args str src t).
Notation Ms := (matches [TEMPLATES call member name args str] src t).
Definition reached (n : node) : bool := pt_leb (n_start n) cur.
Definition collected (cs : list qcap) : list identifier :=
  match cs with _ :: c :: _ => if reached (snd c) then [at_node JinjaTemplate (snd c) (unquoted (text_of src (snd c)))] else [] | _ => [] end.
Lemma reached_le n m : pt_le (n_start n) (n_start m) -> reached m = true -> reached n = true.
Proof. unfold reached. intros H1 H2. apply pt_le_leb. apply pt_leb_le in H2. eapply pt_le_trans'; eauto. Qed.
Lemma match_reached x f callee g ar h method : In x (preorder t) -> in_order (s_children x) f callee g ar -> calls member name callee h method ->
  forall n, In n (of_kind str (s_children ar)) -> pt_le (n_start (s_node method)) (n_start n).
Proof.
  intros Hx Ho Hc n Hn. apply of_kind_in in Hn. destruct Hn as (k & y & Hy & _ & <-).
  assert (Hcal : In callee (preorder t)) by (apply preorder_trans with x; [exact Hx|]; eapply child_in; exact (in_order_l _ _ _ _ _ Ho)).
  assert (Har : In ar (preorder t)) by (apply preorder_trans with x; [exact Hx|]; eapply child_in; exact (in_order_r _ _ _ _ _ Ho)).
  assert (Hm : In method (preorder callee)) by (destruct Hc as [(_ & ->)|(_ & Hh & _)]; [apply self_inside|eapply child_in; exact Hh]).
  destruct (laid_inside callee method (laid_all _ _ Hlaid Hcal) Hm) as (_ & A).
  destruct (laid_inside ar y (laid_all _ _ Hlaid Har)) as (B & _); [eapply child_in; exact Hy|].
  pose proof (laid_self t method Hlaid (preorder_trans _ _ _ Hcal Hm)) as C. pose proof (laid_order t x f callee g ar Hlaid Hx Ho) as D.
  eapply pt_le_trans'; [exact C|]. eapply pt_le_trans'; [exact A|]. eapply pt_le_trans'; [exact D|exact B].
Qed.
Lemma strings_order ar : In ar (preorder t) -> forall n rest, of_kind str (s_children ar) = n :: rest -> forall m, In m rest -> pt_le (n_start n) (n_start m).
Proof.
  intros Har n rest E m Hm. destruct (of_kind_cons _ _ _ _ E) as (a & f & x & z & Ec & _ & <- & <-). apply of_kind_in in Hm. destruct Hm as (g & y & Hy & _ & <-).
  apply in_split in Hy. destruct Hy as (b & c & ->). eapply pt_le_trans'; [|exact (laid_order t ar f x g y Hlaid Har (ex_intro _ a (ex_intro _ b (ex_intro _ c Ec))))].
  apply (laid_self t x Hlaid). apply preorder_trans with ar; [exact Har|]. apply (child_in ar f). rewrite Ec. apply in_or_app. right. now left.
Qed.
Lemma filter_none {A} (p : A -> bool) l : (forall x, In x l -> p x = false) -> filter p l = [].
Proof. induction l as [|x l IH]; [reflexivity|]. intros H. cbn. rewrite (H x (or_introl eq_refl)). apply IH. intros y Hy. apply H. now right. Qed.
Lemma match_collected cs : In cs Ms ->
  let M := filter (fun c => reached (bc_node c)) (map (with_text src) cs) in part_shape M /\ first_string M = collected cs.
Proof.
  intros Hcs. apply template_matches in Hcs; [|exact Hap].
  destruct Hcs as (x & f & callee & g & ar & h & method & Hx & Hk & Ho & Hc & Ha & Hl & Hn & ->).
  pose proof (match_reached x f callee g ar h method Hx Ho Hc) as Hm.
  assert (Har : In ar (preorder t)) by (apply preorder_trans with x; [exact Hx|]; eapply child_in; exact (in_order_r _ _ _ _ _ Ho)).
  destruct (of_kind str (s_children ar)) as [|n rest] eqn:El; [contradiction|]. pose proof (strings_order ar Har _ _ El) as Hr.
  cbn [map filter with_text bc_node snd collected]. 
  assert (Hstr : forall l, Forall (fun c => is_string c = true) (filter (fun c => reached (bc_node c)) (map (with_text src) (map (pair "template_name"%string) l)))).
  { intros l. apply Forall_forall. intros c Hin. apply filter_In in Hin. destruct Hin as (Hin & _). rewrite map_map in Hin. apply in_map_iff in Hin. destruct Hin as (y & <- & _). reflexivity. }
  assert (Hld : is_loader (mkbcap (cname_of "method_name") (s_node method) (text_of src (s_node method))) = true).
  { unfold is_loader, cname_of. cbn [bc_name fst snd bc_text]. change (bc_name _) with CMethodName. cbn iota. unfold said in Hl. cbn in Hl. destruct Hl as [<-|[<-|[]]]; reflexivity. }
  assert (Hnone : reached n = false -> filter (fun c => reached (bc_node c)) (map (with_text src) (map (pair "template_name"%string) rest)) = []).
  { intros E. apply filter_none. intros c Hin. rewrite map_map in Hin. apply in_map_iff in Hin. destruct Hin as (y & <- & Hy). cbn. destruct (reached y) eqn:Ey; [|reflexivity].
    rewrite (reached_le n y (Hr y Hy) Ey) in E. discriminate. }
  cbv zeta. cbn [fst snd]. destruct (reached (s_node method)) eqn:Em.
  - split.
    + right. eexists _, _. split; [reflexivity|]. split; [exact Hld|]. destruct (reached n); [|apply Hstr]. constructor; [reflexivity|apply Hstr].
    + destruct (reached n) eqn:En; [reflexivity|]. rewrite (Hnone eq_refl). reflexivity.
  - destruct (reached n) eqn:En; [rewrite (reached_le (s_node method) n (Hm n (or_introl eq_refl)) En) in Em; discriminate|].
    rewrite (Hnone eq_refl). split; [now left|reflexivity].
Qed.
Lemma collect_run : exists st, backend_templates_query (captured [TEMPLATES call member name args str] src t) cur src false = Ok st /\
  bt_templates st = flat_map collected Ms.
Proof.
  set (Fs := map (fun cs => filter (fun c => reached (bc_node c)) (map (with_text src) cs)) Ms).
  assert (E : flat_captures false cur (captured [TEMPLATES call member name args str] src t) = map as_capture (concat Fs)).
  { unfold flat_captures, captured, Fs. generalize Ms. intros l. induction l as [|cs l IH]; [reflexivity|]. cbn [map flat_map concat]. rewrite IH, map_app. f_equal. clear.
    induction cs as [|c cs IH]; [reflexivity|]. cbn [map filter orb c_node with_text bc_node fst snd] in *. unfold reached at 1. destruct (pt_leb (n_start (snd c)) cur); cbn [map]; now rewrite IH. }
  assert (Hcov : Forall (covers src) (concat Fs)).
  { apply Forall_forall. intros c Hc. apply in_concat in Hc. destruct Hc as (M & HM & Hc). unfold Fs in HM. apply in_map_iff in HM. destruct HM as (cs & <- & Hcs).
    apply filter_In in Hc. destruct Hc as (Hc & _). pose proof (readable_covers src t (concat Ms) Hread (captured_inside _ _ _)) as Hall. rewrite Forall_forall in Hall. apply Hall.
    rewrite concat_map. apply in_concat. exists (map (with_text src) cs). split; [now apply in_map|exact Hc]. }
  destruct (references_run src (concat Fs) [] [] Hcov) as (fl & Er). cbn [app] in Er.
  unfold backend_templates_query. rewrite E. eexists. split; [exact Er|]. cbn [bt_templates]. rewrite references_parts.
  - unfold Fs. assert (Hall : Forall (fun cs => first_string (filter (fun c => reached (bc_node c)) (map (with_text src) cs)) = collected cs) Ms).
    { apply Forall_forall. intros cs Hcs. exact (proj2 (match_collected cs Hcs)). }
    revert Hall. generalize Ms. induction l as [|cs l IH]; [reflexivity|]. intros Hall. inversion Hall; subst. cbn [map flat_map]. rewrite IH by assumption. now f_equal.
  - unfold Fs. apply Forall_map. apply Forall_forall. intros cs Hcs. exact (proj1 (match_collected cs Hcs)).
Qed.
Lemma collected_iff i : In i (flat_map collected Ms) <->
  exists ar n, L ar n /\ reached n = true /\ i = at_node JinjaTemplate n (unquoted (text_of src n)).
Proof.
  rewrite in_flat_map. split.
  - intros (cs & Hcs & Hi). apply template_matches in Hcs; [|exact Hap].
    destruct Hcs as (x & f & callee & g & ar & h & method & Hx & Hk & Ho & Hc & Ha & Hl & Hn & ->). destruct (of_kind str (s_children ar)) as [|n rest] eqn:El; [contradiction|].
    cbn [map collected snd] in Hi. destruct (reached n) eqn:En; [|destruct Hi]. destruct Hi as [<-|[]]. exists ar, n. split; [|auto]. exists x, f, callee, g, h, method, rest. auto 10.
  - intros (ar & n & (x & f & callee & g & h & method & rest & Hx & Hk & Ho & Hc & Hl & Ha & El) & Hr & ->).
    exists (("method_name"%string, s_node method) :: map (pair "template_name"%string) (of_kind str (s_children ar))). split.
    + apply template_matches; [exact Hap|]. exists x, f, callee, g, ar, h, method. repeat (split; [assumption|]). rewrite El. split; [discriminate|reflexivity].
    + rewrite El. cbn [map collected snd]. rewrite Hr. now left.
Qed.
(** Matches are listed in the order of their last strings. *)
Lemma last_of_flat {A B} (g : A -> list B) l v : last_opt (flat_map g l) = Some v ->
  exists a x z, l = a ++ x :: z /\ In v (g x) /\ flat_map g z = [].
Proof.
  induction l as [|x l IH] using rev_ind; [discriminate|]. rewrite flat_map_app. cbn [flat_map]. rewrite app_nil_r. intros H. destruct (g x) as [|b r] eqn:E.
  - rewrite app_nil_r in H. destruct (IH H) as (a & y & z & -> & Hv & Hz). exists a, y, (z ++ [x]). rewrite <- app_assoc. split; [reflexivity|]. split; [exact Hv|].
    rewrite flat_map_app, Hz. cbn. now rewrite E.
  - exists l, x, []. split; [reflexivity|]. split; [|reflexivity]. rewrite E. assert (Hne : b :: r <> []) by discriminate. revert H Hne. generalize (b :: r) as q. clear. intros q H Hne.
    apply last_opt_Some in H. destruct H as (l' & H). destruct (exists_last Hne) as (q' & w & ->). rewrite app_assoc in H. apply app_inj_tail in H. destruct H as (_ & ->).
    apply in_or_app. right. now left.
Qed.
End Cursor.

(** ** The last of them *)
Section Last.
Variables call member name args str : string.
Variables (src : string) (t : stree) (cur : point).
Hypothesis Hap : told_apart t.
Hypothesis Hlaid : laid_out t.
Hypothesis Hstr : Forall (fun x => s_kind x = str -> pt_lt (n_start (s_node x)) (n_end (s_node x))) (preorder t).
Notation L := (loads_in call member name args str src t).
Notation Q := [TEMPLATES call member name args str].
Lemma same_id x y : In x (preorder t) -> In y (preorder t) -> n_id (s_node x) = n_id (s_node y) -> x = y.
Proof.
  unfold told_apart in Hap. intros Hx Hy E. apply in_split in Hx. destruct Hx as (a & z & Et). rewrite Et in Hap, Hy. rewrite map_app in Hap. cbn [map] in Hap.
  apply NoDup_remove_2 in Hap. apply in_app_or in Hy. destruct Hy as [Hy|[Hy|Hy]]; [|exact Hy|]; exfalso; apply Hap; rewrite E; apply in_or_app; [left|right];
    exact (in_map (fun x => n_id (s_node x)) _ _ Hy).
Qed.
Lemma last_node_in d l : l <> [] -> In (last_node d l) l.
Proof. intros H. destruct l as [|x l]; [contradiction|]. unfold last_node. clear H. revert x. induction l as [|y l IH]; intros x; [now left|]. right. apply IH. Qed.
(** What a match consists of, and where it ends. *)
Lemma match_ends y m : In y (preorder t) -> In m (filter (ends_at y) (flat_map (query_at Q src) (preorder t))) ->
  exists ar method n rest, L ar n /\ In ar (preorder t) /\ of_kind str (s_children ar) = n :: rest /\
    fst m = ("method_name"%string, s_node method) :: map (pair "template_name"%string) (n :: rest) /\
    exists f, In (f, y) (s_children ar) /\ s_kind y = str /\ pt_le (n_start n) (n_start (s_node y)).
Proof.
  intros Hy Hm. apply filter_In in Hm. destruct Hm as (Hm & He). apply in_flat_map in Hm. destruct Hm as (x & Hx & Hm).
  apply in_query in Hm. destruct Hm as (p & [<-|[]] & Hm). apply in_pattern in Hm. destruct Hm as (a & [<-|[]] & Hm & Hp). cbn [embed_root] in Hm.
  apply load_largest in Hm; [|now apply apart_inside with t].
  destruct Hm as (P & A & Qs & d & (f & callee & g & ar & h & method & Hk & Ho & Hc & Ha & -> & -> & ->) & Hn & ->). cbn [fst] in *. rewrite app_nil_r in *. cbn [app] in Hp. rewrite load_pred in Hp. apply mem_in in Hp.
  assert (Har : In ar (preorder t)) by (apply preorder_trans with x; [exact Hx|]; eapply child_in; exact (in_order_r _ _ _ _ _ Ho)).
  pose proof (last_node_in d _ Hn) as Hl. unfold ends_at in He. cbn [snd] in He. apply N.eqb_eq in He.
  destruct (of_kind str (s_children ar)) as [|n rest] eqn:El; [contradiction|]. set (z := last_node d (n :: rest)) in *.
  exists ar, method, n, rest. split; [exists x, f, callee, g, h, method, rest; auto 10|]. split; [exact Har|]. split; [exact El|]. split; [reflexivity|].
  assert (Hz : In z (of_kind str (s_children ar))) by (rewrite El; exact Hl). apply of_kind_in in Hz. destruct Hz as (k & w & Hw & Hwk & Hwz).
  assert (Hwt : In w (preorder t)) by (apply preorder_trans with ar; [exact Har|]; eapply child_in; exact Hw).
  assert (w = y) by (apply same_id; auto; now rewrite Hwz). subst w. exists k. split; [exact Hw|]. split; [exact Hwk|]. rewrite Hwz.
  destruct Hl as [El'|Hl]; [rewrite El'; right; split; lia|]. exact (strings_order str t Hlaid ar Har n rest El _ Hl).
Qed.
Lemma later_match cs cs' a b : matches Q src t = a ++ cs :: b -> In cs' b ->
  exists y y' m m', In y (preorder t) /\ In y' (preorder t) /\ pt_le (n_start (s_node y)) (n_start (s_node y')) /\
    In m (filter (ends_at y) (flat_map (query_at Q src) (preorder t))) /\ In m' (filter (ends_at y') (flat_map (query_at Q src) (preorder t))) /\ fst m = cs /\ fst m' = cs'.
Proof.
  unfold matches. intros E Hin. apply map_eq_app in E. destruct E as (la & lb & E & <- & E2). apply map_eq_cons in E2. destruct E2 as (m & lb' & -> & <- & <-).
  apply in_map_iff in Hin. destruct Hin as (m' & <- & Hin).
  set (f := fun y => filter (ends_at y) (flat_map (query_at Q src) (preorder t))) in *.
  assert (W : forall l pre, preorder t = pre ++ l -> forall la, flat_map f l = la ++ m :: lb' ->
    exists y y', In y l /\ In y' l /\ pt_le (n_start (s_node y)) (n_start (s_node y')) /\ In m (f y) /\ In m' (f y')).
  { induction l as [|y l IH]; intros pre Ep la0 El; [destruct la0; discriminate|]. cbn [flat_map] in El.
    destruct (app_cons_split _ _ _ _ _ El) as [(z1 & E1 & Ez)|(a2 & -> & E2)].
    - assert (Hmy : In m (f y)) by (rewrite E1; apply in_or_app; right; now left). subst lb'. apply in_app_or in Hin. destruct Hin as [Hin|Hin].
      + exists y, y. split; [now left|]. split; [now left|]. split; [right; split; lia|]. split; [exact Hmy|]. rewrite E1. apply in_or_app. right. now right.
      + apply in_flat_map in Hin. destruct Hin as (y' & Hy' & Hin). exists y, y'. split; [now left|]. split; [now right|]. split; [|auto].
        pose proof (laid_starts t pre y l Hlaid Ep) as Hs. rewrite Forall_forall in Hs. now apply Hs.
    - destruct (IH (pre ++ [y])) with (la := a2) as (u & u' & H1 & H2 & H3); [now rewrite <- app_assoc|exact E2|]. exists u, u'. split; [now right|]. split; [now right|exact H3]. }
  destruct (W (preorder t) [] eq_refl la E) as (y & y' & H1 & H2 & H3 & H4 & H5). exists y, y', m, m'. auto 10.
Qed.
Lemma last_collected ar n : L ar n -> reached cur n = true ->
  (forall ar' n', L ar' n' -> n' = n \/ pt_lt cur (n_start n') \/ pt_le (n_end (s_node ar')) (n_start n)) ->
  last_opt (flat_map (collected src cur) (matches Q src t)) = Some (at_node JinjaTemplate n (unquoted (text_of src n))).
Proof.
  intros HL Hr Halone. assert (Hin : In (at_node JinjaTemplate n (unquoted (text_of src n))) (flat_map (collected src cur) (matches Q src t))).
  { apply collected_iff; [exact Hap|]. exists ar, n. auto. }
  destruct (last_opt (flat_map (collected src cur) (matches Q src t))) as [v|] eqn:El.
  2:{ destruct (flat_map (collected src cur) (matches Q src t)) as [|w r]; [destruct Hin|]. exfalso. exact (last_opt_none _ _ El). }
  destruct (last_of_flat _ _ _ El) as (a & cs' & z & EM & Hv & Hz). f_equal.
  (* a match with [n] *)
  destruct HL as (x & f & callee & g & h & method & rest & Hx & Hk & Ho & Hc & Hl & Ha & Eo).
  set (cs := ("method_name"%string, s_node method) :: map (pair "template_name"%string) (of_kind str (s_children ar)) : list qcap).
  assert (Hcs : In cs (matches Q src t)).
  { unfold cs. apply template_matches; [exact Hap|]. exists x, f, callee, g, ar, h, method. repeat (split; [assumption|]). rewrite Eo. split; [discriminate|reflexivity]. }
  assert (Hcol : collected src cur cs = [at_node JinjaTemplate n (unquoted (text_of src n))]) by (unfold cs; rewrite Eo; cbn [map collected snd]; now rewrite Hr).
  rewrite EM in Hcs. apply in_app_or in Hcs. destruct Hcs as [Hcs|[<-|Hcs]].
  - apply in_split in Hcs. destruct Hcs as (a1 & a2 & ->). rewrite <- app_assoc in EM. cbn [app] in EM.
    destruct (later_match cs cs' a1 (a2 ++ cs' :: z) EM) as (y & y' & m & m' & Hy & Hy' & Hyy & Hm & Hm' & Em & Em'); [apply in_or_app; right; now left|].
    destruct (match_ends y m Hy Hm) as (ar1 & me1 & n1 & rest1 & _ & _ & _ & E1 & k1 & _ & Hyk & Hs1).
    destruct (match_ends y' m' Hy' Hm') as (ar2 & me2 & n2 & rest2 & HL2 & Har2 & _ & E2 & k2 & Hc2 & Hyk2 & Hs2).
    rewrite Em in E1. unfold cs in E1. rewrite Eo in E1. cbn [map] in E1. inversion E1; subst n1. rewrite Em' in E2. rewrite E2 in Hv. cbn [map collected snd] in Hv.
    destruct (reached cur n2) eqn:Er2; [|destruct Hv]. destruct Hv as [<-|[]]. destruct (Halone ar2 n2 HL2) as [->|[Hlt|Hle]]; [reflexivity| |].
    + exfalso. unfold reached in Er2. apply pt_lt_leb in Hlt. congruence.
    + exfalso. destruct (laid_inside ar2 y' (laid_all _ _ Hlaid Har2)) as (_ & B); [eapply child_in; exact Hc2|].
      rewrite Forall_forall in Hstr. specialize (Hstr _ Hy' Hyk2). unfold pt_le, pt_lt in *. lia.
  - rewrite Hcol in Hv. destruct Hv as [<-|[]]. reflexivity.
  - exfalso. assert (Hin2 : In (at_node JinjaTemplate n (unquoted (text_of src n))) (flat_map (collected src cur) z)) by (apply in_flat_map; exists cs; split; [exact Hcs|rewrite Hcol; now left]).
    rewrite Hz in Hin2. destruct Hin2.
Qed.
End Last.
Lemma templates_of lang : exists call member name args, query_of (QBackendTemplates lang) = [TEMPLATES call member name args (string_kind lang)] /\
  loading lang = loads_in call member name args (string_kind lang).
Proof. destruct lang; do 4 eexists; split; reflexivity. Qed.
Lemma templates_at lang src t cur : told_apart t -> laid_out t -> readable src t ->
  Forall (fun x => s_kind x = string_kind lang -> pt_lt (n_start (s_node x)) (n_end (s_node x))) (preorder t) ->
  exists st, backend_templates_query (captured (query_of (QBackendTemplates lang)) src t) cur src false = Ok st /\
    (forall ar n, loading lang src t ar n -> pt_le (n_start n) cur -> first_in_line lang src t cur n ->
       last_opt (bt_templates st) = Some (at_node JinjaTemplate n (unquoted (text_of src n)))) /\
    (forall i, last_opt (bt_templates st) = Some i -> exists ar n, loading lang src t ar n /\ i = at_node JinjaTemplate n (unquoted (text_of src n))).
Proof.
  intros Hap Hl Hr Hs. destruct (templates_of lang) as (call & member & name & args & EQ & EL). rewrite EQ. unfold first_in_line. rewrite EL.
  destruct (collect_run call member name args (string_kind lang) src t cur Hap Hl Hr) as (st & E & Eb). exists st. split; [exact E|]. rewrite Eb. split.
  - intros ar n HL Hle Hf. eapply last_collected; eauto. unfold reached. now apply pt_le_leb.
  - intros i Hi. apply last_opt_In in Hi. apply collected_iff in Hi; [|exact Hap]. destruct Hi as (ar & n & HL & _ & ->). exists ar, n. auto.
Qed.
