(** * PQueries4: variables and template references of backend files. *)
From Verif Require Import Base RString Utf8 Rope Types Captures MTemplates MLspFiles MQueries.
From Verif Require Import SpecBackend SpecQueries SpecQueries2 PText PBackend PQueries PQueries3.
From Verif Require PNav3.

(** ** Captured nodes are nodes of the tree *)
Definition inside (l : list stree) (c : qcap) : Prop := exists y, In y l /\ snd c = s_node y.
Definition caps_inside (p : qpat) : Prop := forall t m, In m (embed p t) -> Forall (inside (preorder t)) (fst m).
Definition step_caps_inside (s : qstep) : Prop := match s with QS _ _ alts => Forall caps_inside alts end.
Lemma inside_incl l l' cs : incl l l' -> Forall (inside l) cs -> Forall (inside l') cs.
Proof. intros H. apply Forall_impl. intros c (y & Hy & E). exists y. auto. Qed.
Notation kid_nodes := (flat_map (fun c : string * stree => preorder (snd c))).
Lemma child_caps f alts c m : Forall caps_inside alts -> In m (on_child f alts c) -> Forall (inside (preorder (snd c))) (fst m).
Proof. intros H Hm. apply in_child in Hm. destruct Hm as (_ & p & Hp & Hm). rewrite Forall_forall in H. exact (H p Hp _ _ Hm). Qed.
Lemma steps_caps ss : Forall step_caps_inside ss -> forall last ch m, In m (embed_steps ss last ch) -> Forall (inside (kid_nodes ch)) (fst m).
Proof.
  induction 1 as [|[q f alts] ss Hs _ IH]; intros last ch m Hm; [apply steps_nil in Hm; subst; constructor|]. cbn [step_caps_inside] in Hs.
  assert (L : forall (a : kids) c b, incl (preorder (snd c)) (kid_nodes (a ++ c :: b))).
  { intros a c b z Hz. rewrite flat_map_app. cbn [flat_map]. apply in_or_app. right. apply in_or_app. now left. }
  assert (R : forall (a : kids) c b, incl (kid_nodes b) (kid_nodes (a ++ c :: b))).
  { intros a c b z Hz. rewrite flat_map_app. cbn [flat_map]. apply in_or_app. right. apply in_or_app. now right. }
  assert (P : forall ch m, In m (pick (on_child f alts) (embed_steps ss) ch) -> Forall (inside (kid_nodes ch)) (fst m)).
  { clear Hm m ch last. intros ch m Hm. apply in_pick in Hm. destruct Hm as (a & c & b & m1 & m2 & -> & H1 & H2 & ->). cbn [fst].
    apply Forall_app. split; [eapply inside_incl; [apply L|]; eapply child_caps; eauto|]. eapply inside_incl; [apply R|]. eauto. }
  assert (S : forall ch m, In m (pick_some (on_child f alts) (embed_steps ss) ch) -> Forall (inside (kid_nodes ch)) (fst m)).
  { clear Hm m ch last. intros ch. remember (length ch) as k eqn:Ek. revert ch Ek. induction k as [k IHk] using (well_founded_induction Wf_nat.lt_wf). intros ch -> m Hm.
    apply in_pick_some in Hm. destruct Hm as (a & c & b & m1 & m2 & -> & H1 & H2 & ->). cbn [fst].
    apply Forall_app. split; [eapply inside_incl; [apply L|]; eapply child_caps; eauto|]. eapply inside_incl; [apply R|].
    destruct H2 as [H2|H2]; [|eauto]. apply (IHk (length b)); [rewrite app_length; cbn; lia|reflexivity|exact H2]. }
  rewrite steps_unfold in Hm. destruct q.
  - auto.
  - apply in_app_or in Hm. destruct Hm as [Hm|Hm]; eauto.
  - auto.
  - apply in_app_or in Hm. destruct Hm as [Hm|Hm]; eauto.
Qed.
Lemma node_caps k ss caps : Forall step_caps_inside ss -> caps_inside (QN k ss caps).
Proof.
  intros H t m Hm. apply in_embed in Hm. destruct Hm as (_ & m' & Hm & ->). unfold with_caps. cbn [fst]. apply Forall_app. split.
  - apply Forall_forall. intros c Hc. apply in_map_iff in Hc. destruct Hc as (z & <- & _). exists t. split; [apply self_inside|reflexivity].
  - eapply inside_incl; [|exact (steps_caps ss H _ _ _ Hm)]. intros y. apply children_inside.
Qed.
Fixpoint all_caps (p : qpat) : caps_inside p :=
  match p with
  | QN k ss caps =>
      node_caps k ss caps
        ((fix go ss : Forall step_caps_inside ss :=
            match ss with
            | [] => Forall_nil _
            | QS q f alts :: r =>
                Forall_cons (QS q f alts)
                  ((fix goa alts : Forall caps_inside alts :=
                      match alts with [] => Forall_nil _ | a :: r => Forall_cons a (all_caps a) (goa r) end) alts) (go r)
            end) ss)
  end.
Lemma root_caps r t m : In m (embed_root r t) -> Forall (inside (preorder t)) (fst m).
Proof.
  destruct r as [p|ss]; cbn [embed_root]; intros H; [exact (all_caps p _ _ H)|].
  assert (Hs : Forall step_caps_inside ss).
  { apply Forall_forall. intros [q f alts] _. cbn. apply Forall_forall. intros p _. apply all_caps. }
  eapply inside_incl; [|exact (steps_caps ss Hs _ _ _ H)]. intros y. apply children_inside.
Qed.
Lemma captured_inside q src t : Forall (inside (preorder t)) (concat (matches q src t)).
Proof.
  apply Forall_forall. intros c Hc. apply in_concat in Hc. destruct Hc as (cs & Hcs & Hc). apply in_matches in Hcs.
  destruct Hcs as (x & m & Hx & Hm & ->). apply in_query in Hm. destruct Hm as (p & _ & Hm). apply in_pattern in Hm. destruct Hm as (a & _ & Hm & _).
  apply in_largest in Hm. apply root_caps in Hm. rewrite Forall_forall in Hm. destruct (Hm c Hc) as (y & Hy & E). exists y. split; [|exact E]. now apply preorder_trans with x.
Qed.

(** ** With their texts *)
Definition with_text (src : string) (c : qcap) : bcap := mkbcap (cname_of (fst c)) (snd c) (text_of src (snd c)).
Lemma with_text_caps src cs : map as_capture (map (with_text src) cs) = map to_cap cs.
Proof. rewrite map_map. reflexivity. Qed.
Lemma readable_covers src t cs : readable src t -> Forall (inside (preorder t)) cs -> Forall (covers src) (map (with_text src) cs).
Proof.
  intros Hr H. apply Forall_map. eapply Forall_impl; [|exact H]. intros c (y & Hy & E). unfold covers. cbn. rewrite E.
  unfold readable in Hr. rewrite Forall_forall in Hr. auto.
Qed.

(** ** Template references *)
Definition calls (member name : string) (callee : stree) (h : string) (method : stree) : Prop :=
  s_kind callee = "identifier"%string /\ method = callee \/
  s_kind callee = member /\ has (s_children callee) h method /\ s_kind method = name.
Definition TEMPLATES (call member name args str : string) : pattern :=
  (mkpat
    [RNode (QN call
       [QS One "" [QN member [step name ["method_name"]] []; QN "identifier" [] ["method_name"]];
        one (QN args [QS Plus "" [QN str [] ["template_name"]]] [])] [])]
    [PAnyOf "method_name" ["render_jinja"; "get_template"]])%string.
Section Templates.
Variables call member name args str : string.
Definition fam_load (x : stree) (P : list qcap) (A : list node) (Q : list qcap) : Prop :=
  exists f callee g ar h method, s_kind x = call /\ in_order (s_children x) f callee g ar /\ calls member name callee h method /\
    s_kind ar = args /\ P = [("method_name"%string, s_node method)] /\ A = of_kind str (s_children ar) /\ Q = [].
Definition load_pat : qpat :=
  QN call [QS One "" [QN member [step name ["method_name"%string]] []; QN "identifier" [] ["method_name"%string]];
           one (QN args [QS Plus "" [QN str [] ["template_name"%string]]] [])] [].
Lemma in_call x m :
  In m (embed load_pat x) <->
  exists P A Q S d, fam_load x P A Q /\ S <> [] /\ subl S A /\ m = (P ++ map (pair "template_name"%string) S ++ Q, last_node d S).
Proof.
  unfold load_pat. rewrite in_embed. split.
  - intros (Hk & m' & Hm & ->). unfold with_caps. cbn [map app]. apply in_one in Hm.
    destruct Hm as (a & g & callee & b & p & m1 & m2 & Ech & _ & Hp & H1 & H2 & ->).
    apply in_final in H2. destruct H2 as (g2 & ar & p2 & Har & _ & [<-|[]] & H2). apply in_embed in H2. destruct H2 as (Ha & m3 & H2 & ->).
    apply in_some in H2. destruct H2 as (S & Hn & Hs & ->). unfold with_caps. cbn [map app fst snd].
    apply in_split in Har. destruct Har as (b1 & b2 & ->).
    assert (X : exists h method, calls member name callee h method /\ fst m1 = [("method_name"%string, s_node method)]).
    { destruct Hp as [<-|[<-|[]]].
      - apply in_embed in H1. destruct H1 as (Hc & m4 & H1 & ->). apply in_final in H1. destruct H1 as (h & method & p & Hh & _ & [<-|[]] & H1).
        apply in_leaf in H1. destruct H1 as (Hm & ->). exists h, method. split; [right; auto|reflexivity].
      - apply in_leaf in H1. destruct H1 as (Hc & ->). exists ""%string, callee. split; [left; auto|reflexivity]. }
    destruct X as (h & method & Hc & ->).
    exists [("method_name"%string, s_node method)], (of_kind str (s_children ar)), [], S, (s_node ar).
    split; [|split; [exact Hn|split; [exact Hs|rewrite app_nil_r; reflexivity]]].
    exists g, callee, g2, ar, h, method. split; [auto|]. split; [now exists a, b1, b2|]. repeat split; auto.
  - intros (P & A & Q & S & d & (f & callee & g & ar & h & method & Hk & (a & b & c & Ech) & Hc & Har & -> & -> & ->) & Hn & Hs & ->).
    split; [auto|]. exists (("method_name"%string, s_node method) :: map (pair "template_name"%string) S, last_node d S).
    split; [|unfold with_caps; cbn [map app fst snd]; now rewrite app_nil_r].
    assert (X : exists p, In p [QN member [step name ["method_name"%string]] []; QN "identifier" [] ["method_name"%string]] /\
      In ([("method_name"%string, s_node method)], s_node method) (embed p callee)).
    { destruct Hc as [(Hk1 & ->)|(Hk1 & Hh & Hn1)].
      - eexists. split; [right; now left|]. apply in_leaf. now split.
      - eexists. split; [now left|]. apply in_embed. split; [auto|]. exists ([("method_name"%string, s_node method)], s_node method). split; [|reflexivity].
        apply in_final. exists h, method, (QN name [] ["method_name"%string]). split; [exact Hh|]. split; [now left|]. split; [now left|]. apply in_leaf. now split. }
    destruct X as (p & Hp & Hm). apply in_one.
    exists a, f, callee, (b ++ (g, ar) :: c), p, ([("method_name"%string, s_node method)], s_node method), (map (pair "template_name"%string) S, last_node d S).
    split; [exact Ech|]. split; [now left|]. split; [exact Hp|]. split; [exact Hm|]. split; [|reflexivity].
    apply in_final. exists g, ar. eexists. split; [apply in_or_app; right; now left|]. split; [now left|]. split; [now left|].
    apply in_embed. split; [auto|]. exists (map (pair "template_name"%string) S, last_node d S). split; [|reflexivity].
    apply in_some. exists S. split; [exact Hn|]. split; [exact Hs|]. f_equal. destruct S; [contradiction|]. unfold last_node. clear. revert n. induction S as [|y S IH]; intros n; [reflexivity|]. cbn [List.last] in *. destruct S; [reflexivity|apply (IH y)].
Qed.
Lemma load_largest x m : told_apart x ->
  In m (largest (embed load_pat x)) <->
  exists P A Q d, fam_load x P A Q /\ A <> [] /\ m = (P ++ map (pair "template_name"%string) A ++ Q, last_node d A).
Proof.
  intros Ht. rewrite (family (embed load_pat x) "template_name" 1 (fam_load x) (fun S => S <> [])).
  - split.
    + intros (Hm & P & A & Q & HF & Hn & Em). apply in_call in Hm. destruct Hm as (P' & A' & Q' & S & d & HF' & Hn' & Hs & ->). cbn [fst] in Em.
      exists P, A, Q, d. split; [exact HF|]. split; [exact Hn|]. f_equal; [exact Em|]. 
      destruct HF as (? & ? & ? & ? & ? & ? & _ & _ & _ & _ & -> & -> & ->). destruct HF' as (? & ? & ? & ? & ? & ? & _ & _ & _ & _ & -> & -> & ->).
      rewrite !app_nil_r in Em. cbn [app] in Em. inversion Em as [[E1 E2]]. f_equal. revert E2. clear. generalize (of_kind str (s_children x3)). induction S as [|y S IH]; intros [|z l] E; try discriminate; [reflexivity|].
      inversion E. f_equal. auto.
    + intros (P & A & Q & d & HF & Hn & ->). split; [|exists P, A, Q; auto]. apply in_call. exists P, A, Q, A, d. split; [exact HF|]. split; [exact Hn|]. split; [apply subl_refl|reflexivity].
  - intros m0 Hm. apply in_call in Hm. destruct Hm as (P & A & Q & S & d & HF & Hn & Hs & ->). exists P, A, Q, S. auto.
  - intros P A Q HF Hn. exists (last_node (s_node x) A). apply in_call. exists P, A, Q, A, (s_node x). split; [exact HF|]. split; [exact Hn|]. split; [apply subl_refl|reflexivity].
  - intros S A Hn Hs ->. inversion Hs; subst. contradiction.
  - intros P A Q (? & ? & ? & ? & ? & ? & _ & _ & _ & _ & -> & -> & ->). split; [reflexivity|]. split; repeat constructor. discriminate.
  - intros P A Q P' A' Q' (f & callee & g & ar & h & method & _ & (a & b & c & Ech) & _ & Ha & _ & -> & _) (f' & callee' & g' & ar' & h' & method' & _ & (a' & b' & c' & Ech') & _ & Ha' & _ & -> & _) Hn _ Hin.
    f_equal. f_equal. destruct (of_kind str (s_children ar)) as [|n l] eqn:El; [contradiction|]. destruct (Hin n (or_introl eq_refl)) as (n' & Hn' & En).
    apply of_kind_in in Hn'. destruct Hn' as (i & u & Hu & _ & <-). assert (Hn0 : In n (of_kind str (s_children ar))) by (rewrite El; now left).
    apply of_kind_in in Hn0. destruct Hn0 as (j & v & Hv & _ & <-).
    eapply (same_parent x g ar g' ar'); eauto.
    + rewrite Ech. apply in_or_app. right. right. apply in_or_app. right. now left.
    + rewrite Ech'. apply in_or_app. right. right. apply in_or_app. right. now left.
Qed.
Definition loaders : list string := ["render_jinja"; "get_template"]%string.
Lemma load_pred src n l :
  forallb (pred_holds src (("method_name"%string, n) :: map (pair "template_name"%string) l)) (p_preds (TEMPLATES call member name args str)) =
  existsb (String.eqb (text_of src n)) loaders.
Proof.
  rewrite preds_swap. cbn [p_preds TEMPLATES forallb]. rewrite andb_comm.
  replace (forallb _ (map (pair "template_name"%string) l)) with true.
  - cbn [andb]. unfold pred1. cbn [fst snd]. rewrite String.eqb_refl, andb_true_r. reflexivity.
  - symmetry. induction l as [|x l IH]; [reflexivity|]. cbn [map forallb]. rewrite IH. reflexivity.
Qed.
(** The matches: calls with all their string arguments. *)
Lemma template_matches src t cs : told_apart t ->
  In cs (matches [TEMPLATES call member name args str] src t) <->
  exists x f callee g ar h method, In x (preorder t) /\ s_kind x = call /\ in_order (s_children x) f callee g ar /\
    calls member name callee h method /\ s_kind ar = args /\ In (said src method) loaders /\ of_kind str (s_children ar) <> [] /\
    cs = ("method_name"%string, s_node method) :: map (pair "template_name"%string) (of_kind str (s_children ar)).
Proof.
  intros Ht. rewrite in_matches. split.
  - intros (x & m & Hx & Hm & ->). apply in_query in Hm. destruct Hm as (p & [<-|[]] & Hm). apply in_pattern in Hm.
    destruct Hm as (a & [<-|[]] & Hm & Hp). cbn [embed_root] in Hm. apply load_largest in Hm; [|now apply apart_inside with t].
    destruct Hm as (P & A & Q & d & (f & callee & g & ar & h & method & Hk & Ho & Hc & Ha & -> & -> & ->) & Hn & ->).
    exists x, f, callee, g, ar, h, method. split; [exact Hx|]. split; [exact Hk|]. split; [exact Ho|]. split; [exact Hc|]. split; [exact Ha|].
    cbn [fst] in *. rewrite app_nil_r in *. split; [|now split]. cbn [app] in Hp. rewrite load_pred in Hp. now apply mem_in.
  - intros (x & f & callee & g & ar & h & method & Hx & Hk & Ho & Hc & Ha & Hl & Hn & ->).
    exists x, (("method_name"%string, s_node method) :: map (pair "template_name"%string) (of_kind str (s_children ar)), last_node (s_node x) (of_kind str (s_children ar))).
    split; [exact Hx|]. split; [|reflexivity]. apply in_query. eexists. split; [now left|]. apply in_pattern. eexists. split; [now left|]. split.
    + apply (load_largest x); [now apply apart_inside with t|]. exists [("method_name"%string, s_node method)], (of_kind str (s_children ar)), [], (s_node x).
      split; [|split; [exact Hn|rewrite app_nil_r; reflexivity]]. exists f, callee, g, ar, h, method. repeat split; auto.
    + cbn [fst]. rewrite load_pred. now apply mem_in.
Qed.
End Templates.

(** References are the first strings of such matches. *)
Lemma follows_snoc pre c : follows_loader (pre ++ [c]) = if is_loader c || is_string c then is_loader c else follows_loader pre.
Proof.
  unfold follows_loader. rewrite filter_app. cbn [filter]. destruct (is_loader c || is_string c); [|now rewrite app_nil_r].
  rewrite rev_app_distr. reflexivity.
Qed.
Lemma references_app pre a b : references pre (a ++ b) = references pre a ++ references (pre ++ a) b.
Proof.
  revert pre. induction a as [|c a IH]; intros pre; [cbn; now rewrite app_nil_r|]. cbn [app references]. rewrite IH, app_assoc. f_equal. now rewrite <- app_assoc.
Qed.
Lemma references_strings l : Forall (fun c => is_string c = true) l -> forall pre, follows_loader pre = false -> references pre l = [].
Proof.
  induction 1 as [|c l Hc _ IH]; intros pre Hp; [reflexivity|]. cbn [references]. rewrite Hp, andb_false_r. cbn [app]. apply IH. rewrite follows_snoc, Hc, orb_true_r.
  unfold is_string in Hc. unfold is_loader. destruct (bc_name c); congruence.
Qed.
Definition first_string (M : list bcap) : list identifier :=
  match M with _ :: c :: _ => [mention JinjaTemplate c (unquoted (bc_text c))] | _ => [] end.
Definition call_shape (M : list bcap) : Prop :=
  exists c l, M = c :: l /\ is_loader c = true /\ l <> [] /\ Forall (fun c => is_string c = true) l.
Lemma references_calls Ms : Forall call_shape Ms -> forall pre, references pre (concat Ms) = flat_map first_string Ms.
Proof.
  induction 1 as [|M Ms (c & l & -> & Hc & Hl & Hs) _ IH]; intros pre; [reflexivity|]. cbn [concat flat_map]. rewrite references_app. f_equal; [|apply IH].
  destruct l as [|d l]; [contradiction|]. inversion Hs as [|? ? Hd Hs']; subst. cbn [references first_string].
  assert (Ec : is_string c = false) by (unfold is_loader in Hc; unfold is_string; destruct (bc_name c); congruence).
  assert (Ed : is_loader d = false) by (unfold is_string in Hd; unfold is_loader; destruct (bc_name d); congruence).
  rewrite Ec. cbn [andb app]. rewrite follows_snoc, Hc, Hd. cbn [orb andb app]. f_equal. apply references_strings; [exact Hs'|].
  rewrite follows_snoc, Hd, Ed. reflexivity.
Qed.
Lemma template_refs call member name args str src t : told_apart t ->
  forall v, In v (references [] (map (with_text src) (concat (matches [TEMPLATES call member name args str] src t)))) <->
    exists n, loads call member name args str src t n /\ v = at_node JinjaTemplate n (unquoted (text_of src n)).
Proof.
  intros Ht v. rewrite concat_map. set (Ms := matches [TEMPLATES call member name args str] src t).
  assert (HM := fun cs => template_matches call member name args str src t cs Ht). fold Ms in HM.
  rewrite references_calls.
  - rewrite in_flat_map. split.
    + intros (M & HMi & Hv). apply in_map_iff in HMi. destruct HMi as (cs & <- & Hcs). apply HM in Hcs.
      destruct Hcs as (x & f & callee & g & ar & h & method & Hx & Hk & Ho & Hc & Ha & Hl & Hn & ->).
      destruct (of_kind str (s_children ar)) as [|n rest] eqn:El; [contradiction|]. cbn in Hv. destruct Hv as [<-|[]].
      exists n. split; [|reflexivity]. exists x, f, callee, g, ar, h, method, rest. auto 10.
    + intros (n & (x & f & callee & g & ar & h & method & rest & Hx & Hk & Ho & Hc & Hl & Ha & El) & ->).
      exists (map (with_text src) (("method_name"%string, s_node method) :: map (pair "template_name"%string) (n :: rest))). split; [|left; reflexivity].
      apply in_map. apply HM. exists x, f, callee, g, ar, h, method. repeat (split; [assumption|]). rewrite El. split; [discriminate|reflexivity].
  - apply Forall_map. apply Forall_forall. intros cs Hcs. apply HM in Hcs.
    destruct Hcs as (x & f & callee & g & ar & h & method & Hx & Hk & Ho & Hc & Ha & Hl & Hn & ->). cbn [map]. eexists _, _. split; [reflexivity|]. split; [|split].
    + unfold is_loader, with_text, cname_of. cbn [bc_name fst snd bc_text]. change (bc_name _) with CMethodName. cbn iota. cbn in Hl. unfold said in Hl.
      destruct Hl as [<-|[<-|[]]]; reflexivity.
    + destruct (of_kind str (s_children ar)); [contradiction|discriminate].
    + apply Forall_map. apply Forall_map. apply Forall_forall. intros y _. reflexivity.
Qed.

(** ** Rust variables *)
Definition key_pat : qpat := QN "token_tree" [step "identifier" ["key_id"%string]] [].
Lemma key_largest x m :
  In m (largest (embed key_pat x)) <->
  s_kind x = "token_tree"%string /\ exists f y, has (s_children x) f y /\ s_kind y = "identifier"%string /\ m = ([("key_id"%string, s_node y)], s_node y).
Proof.
  assert (H : forall m, In m (embed key_pat x) <->
    s_kind x = "token_tree"%string /\ exists f y, has (s_children x) f y /\ s_kind y = "identifier"%string /\ m = ([("key_id"%string, s_node y)], s_node y)).
  { intros m0. unfold key_pat. rewrite in_embed. split.
    - intros (Hk & m' & Hm & ->). apply in_final in Hm. destruct Hm as (f & y & p & Hy & _ & [<-|[]] & Hm). apply in_leaf in Hm. destruct Hm as (Hyk & ->).
      split; [auto|]. exists f, y. auto.
    - intros (Hk & f & y & Hy & Hyk & ->). split; [auto|]. exists ([("key_id"%string, s_node y)], s_node y). split; [|reflexivity].
      apply in_final. exists f, y. eexists. split; [exact Hy|]. split; [now left|]. split; [now left|]. apply in_leaf. now split. }
  rewrite (largest_flat 1); [apply H|]. intros m0 Hm. apply H in Hm. destruct Hm as (_ & f & y & _ & _ & ->). reflexivity.
Qed.
Definition add_steps : list qstep :=
  [one (QN "field_expression" [step "identifier" ["jinja"%string]; step "field_identifier" ["method"%string]] ["function"%string]);
   one (QN "arguments" [QS Plus "" [QN "string_literal" [] ["name"%string]]] [])].
Definition fam_add (x : stree) (P : list qcap) (A : list node) (Q : list qcap) : Prop :=
  exists f callee g ar f3 obj f4 method, in_order (s_children x) f callee g ar /\
    s_kind callee = "field_expression"%string /\ in_order (s_children callee) f3 obj f4 method /\
    s_kind obj = "identifier"%string /\ s_kind method = "field_identifier"%string /\ s_kind ar = "arguments"%string /\
    P = [("function"%string, s_node callee); ("jinja"%string, s_node obj); ("method"%string, s_node method)] /\
    A = of_kind "string_literal" (s_children ar) /\ Q = [].
Lemma last_any d d' (S : list node) : S <> [] -> last_node d S = last_node d' S.
Proof. destruct S; [contradiction|]. intros _. unfold last_node. revert n. induction S as [|y S IH]; intros n; [reflexivity|]. cbn [List.last] in *. destruct S; [reflexivity|apply (IH y)]. Qed.
Lemma in_add x last m :
  In m (embed_steps add_steps last (s_children x)) <->
  exists P A Q S, fam_add x P A Q /\ S <> [] /\ subl S A /\ m = (P ++ map (pair "name"%string) S ++ Q, last_node (s_node x) S).
Proof.
  unfold add_steps, one. rewrite in_one. split.
  - intros (a & f & callee & b & p & m1 & m2 & Ech & _ & [<-|[]] & H1 & H2 & ->).
    apply in_final in H2. destruct H2 as (g & ar & p2 & Har & _ & [<-|[]] & H2). apply in_embed in H2. destruct H2 as (Ha & m3 & H2 & ->).
    apply in_some in H2. destruct H2 as (S & Hn & Hs & ->). unfold with_caps at 1 2. cbn [map app fst snd].
    apply in_split in Har. destruct Har as (b1 & b2 & ->).
    apply in_embed in H1. destruct H1 as (Hc & m4 & H1 & ->). apply in_one in H1. destruct H1 as (a1 & f3 & obj & c1 & p & m5 & m6 & Eo & _ & [<-|[]] & H5 & H6 & ->).
    apply in_leaf in H5. destruct H5 as (Ho & ->). apply in_final in H6. destruct H6 as (f4 & method & p & Hm & _ & [<-|[]] & H6). apply in_leaf in H6. destruct H6 as (Hmk & ->).
    apply in_split in Hm. destruct Hm as (c2 & c3 & ->).
    eexists _, _, [], S. split; [|split; [exact Hn|split; [exact Hs|]]].
    + exists f, callee, g, ar, f3, obj, f4, method. split; [now exists a, b1, b2|]. split; [auto|]. split; [now exists a1, c2, c3|]. repeat split; auto.
    + unfold with_caps. cbn [map app fst snd]. rewrite app_nil_r. f_equal. now apply last_any.
  - intros (P & A & Q & S & (f & callee & g & ar & f3 & obj & f4 & method & (a & b & c & Ech) & Hc & (a1 & c1 & c2 & Eo) & Ho & Hm & Ha & -> & -> & ->) & Hn & Hs & ->).
    exists a, f, callee, (b ++ (g, ar) :: c). eexists.
    exists ([("function"%string, s_node callee); ("jinja"%string, s_node obj); ("method"%string, s_node method)], s_node method), (map (pair "name"%string) S, last_node (s_node x) S).
    split; [exact Ech|]. split; [now left|]. split; [now left|]. split; [|split].
    + apply in_embed. split; [auto|]. exists ([("jinja"%string, s_node obj); ("method"%string, s_node method)], s_node method). split; [|reflexivity].
      apply in_one. exists a1, f3, obj, (c1 ++ (f4, method) :: c2). eexists. exists ([("jinja"%string, s_node obj)], s_node obj), ([("method"%string, s_node method)], s_node method).
      split; [exact Eo|]. split; [now left|]. split; [now left|]. split; [apply in_leaf; now split|]. split; [|reflexivity].
      apply in_final. exists f4, method. eexists. split; [apply in_or_app; right; now left|]. split; [now left|]. split; [now left|]. apply in_leaf. now split.
    + apply in_final. exists g, ar. eexists. split; [apply in_or_app; right; now left|]. split; [now left|]. split; [now left|].
      apply in_embed. split; [auto|]. exists (map (pair "name"%string) S, last_node (s_node x) S). split; [|reflexivity].
      apply in_some. exists S. split; [exact Hn|]. split; [exact Hs|]. f_equal. now apply last_any.
    + cbn [fst snd app]. rewrite app_nil_r. reflexivity.
Qed.
Lemma add_largest x last m : told_apart x ->
  In m (largest (embed_steps add_steps last (s_children x))) <->
  exists P A Q, fam_add x P A Q /\ A <> [] /\ m = (P ++ map (pair "name"%string) A ++ Q, last_node (s_node x) A).
Proof.
  intros Ht. rewrite (family (embed_steps add_steps last (s_children x)) "name" 3 (fam_add x) (fun S => S <> [])).
  - split.
    + intros (Hm & P & A & Q & HF & Hn & Em). apply in_add in Hm. destruct Hm as (P' & A' & Q' & S & HF' & Hn' & Hs & ->). cbn [fst] in Em.
      exists P, A, Q. split; [exact HF|]. split; [exact Hn|]. f_equal; [exact Em|].
      destruct HF as (? & ? & ? & ar & ? & ? & ? & ? & _ & _ & _ & _ & _ & _ & -> & -> & ->). destruct HF' as (? & ? & ? & ? & ? & ? & ? & ? & _ & _ & _ & _ & _ & _ & -> & -> & ->).
      rewrite !app_nil_r in Em. cbn [app] in Em. inversion Em as [[E1 E2 E3 E4]]. f_equal. revert E4. clear. generalize (of_kind "string_literal" (s_children ar)). induction S as [|y S IH]; intros [|z l] E; try discriminate; [reflexivity|].
      inversion E. f_equal. auto.
    + intros (P & A & Q & HF & Hn & ->). split; [|exists P, A, Q; auto]. apply in_add. exists P, A, Q, A. split; [exact HF|]. split; [exact Hn|]. split; [apply subl_refl|reflexivity].
  - intros m0 Hm. apply in_add in Hm. destruct Hm as (P & A & Q & S & HF & Hn & Hs & ->). exists P, A, Q, S. auto.
  - intros P A Q HF Hn. exists (last_node (s_node x) A). apply in_add. exists P, A, Q, A. split; [exact HF|]. split; [exact Hn|]. split; [apply subl_refl|reflexivity].
  - intros S A Hn Hs ->. inversion Hs; subst. contradiction.
  - intros P A Q (? & ? & ? & ? & ? & ? & ? & ? & _ & _ & _ & _ & _ & _ & -> & -> & ->). split; [reflexivity|]. split; repeat constructor; discriminate.
  - intros P A Q P' A' Q' (f & callee & g & ar & ? & ? & ? & ? & (a & b & c & Ech) & _ & _ & _ & _ & _ & _ & -> & _) (f' & callee' & g' & ar' & ? & ? & ? & ? & (a' & b' & c' & Ech') & _ & _ & _ & _ & _ & _ & -> & _) Hn _ Hin.
    f_equal. f_equal. destruct (of_kind "string_literal" (s_children ar)) as [|n l] eqn:El; [contradiction|]. destruct (Hin n (or_introl eq_refl)) as (n' & Hn' & En).
    apply of_kind_in in Hn'. destruct Hn' as (i & u & Hu & _ & <-). assert (Hn0 : In n (of_kind "string_literal" (s_children ar))) by (rewrite El; now left).
    apply of_kind_in in Hn0. destruct Hn0 as (j & v & Hv & _ & <-).
    eapply (same_parent x g ar g' ar'); eauto.
    + rewrite Ech. apply in_or_app. right. right. apply in_or_app. right. now left.
    + rewrite Ech'. apply in_or_app. right. right. apply in_or_app. right. now left.
Qed.
Lemma has_word x ws : existsb (contains x) ws = true <-> exists a w z, In w ws /\ x = (a ++ w ++ z)%string.
Proof.
  rewrite existsb_exists. split.
  - intros (w & Hw & H). apply PNav3.contains_iff in H. destruct H as (a & z & ->). now exists a, w, z.
  - intros (a & w & z & Hw & ->). exists w. split; [exact Hw|]. apply PNav3.contains_iff. now exists a, z.
Qed.
Definition rust_pattern : pattern := (mkpat
  [RNode (QN "macro_invocation" [step "identifier" ["context"]] ["macro"]); RNode key_pat; RSiblings add_steps; leaf "ERROR" "error"]
  [PEq "context" "context"; PNotEq "key_id" "context"; PEq "jinja" "jinja";
   PMatch "method" (ReHas ["add_global"; "add_filter"; "add_function"])])%string.
Lemma rust_is : RUST_DEFINITIONS = [rust_pattern].
Proof. reflexivity. Qed.
Lemma in_rust src x m :
  In m (query_at RUST_DEFINITIONS src x) <->
  exists a, In a (p_alts rust_pattern) /\ In m (largest (embed_root a x)) /\ forallb (fun c => forallb (pred1 src c) (p_preds rust_pattern)) (fst m) = true.
Proof.
  rewrite rust_is, in_query. split.
  - intros (p & [<-|[]] & Hm). apply in_pattern in Hm. destruct Hm as (a & Ha & Hm & Hp). rewrite preds_swap in Hp. now exists a.
  - intros (a & Ha & Hm & Hp). eexists. split; [now left|]. apply in_pattern. exists a. rewrite preds_swap. auto.
Qed.
Lemma pred_add src n : forallb (pred1 src ("name"%string, n)) (p_preds rust_pattern) = true.
Proof. reflexivity. Qed.
Lemma pred_function src n : forallb (pred1 src ("function"%string, n)) (p_preds rust_pattern) = true.
Proof. reflexivity. Qed.
Lemma pred_jinja src n : forallb (pred1 src ("jinja"%string, n)) (p_preds rust_pattern) = true <-> text_of src n = "jinja"%string.
Proof. cbn -[String.eqb text_of]. lits. cbn -[String.eqb text_of]. rewrite andb_true_r, String.eqb_eq. split; auto. Qed.
Lemma pred_key src n : forallb (pred1 src ("key_id"%string, n)) (p_preds rust_pattern) = true <-> text_of src n <> "context"%string.
Proof. cbn -[String.eqb text_of]. lits. cbn -[String.eqb text_of]. rewrite andb_true_r, negb_true_iff, String.eqb_neq. split; auto. Qed.
Lemma pred_method src n : forallb (pred1 src ("method"%string, n)) (p_preds rust_pattern) = true <-> adds (text_of src n).
Proof.
  cbn -[String.eqb text_of contains existsb]. lits. cbn -[contains existsb text_of]. rewrite andb_true_r. apply has_word.
Qed.
(** What is captured under names that matter. *)
Definition rust_caught (src : string) (t : stree) (c : qcap) : Prop :=
  (exists x f y, In x (preorder t) /\ s_kind x = "token_tree"%string /\ has (s_children x) f y /\ s_kind y = "identifier"%string /\
     said src y <> "context"%string /\ c = ("key_id"%string, s_node y)) \/
  (exists p f1 callee f2 args f3 obj f4 method f5 x, In p (preorder t) /\ in_order (s_children p) f1 callee f2 args /\
     s_kind callee = "field_expression"%string /\ in_order (s_children callee) f3 obj f4 method /\
     s_kind obj = "identifier"%string /\ said src obj = "jinja"%string /\
     s_kind method = "field_identifier"%string /\ adds (said src method) /\
     s_kind args = "arguments"%string /\ has (s_children args) f5 x /\ s_kind x = "string_literal"%string /\
     c = ("name"%string, s_node x)).
Lemma rust_captures src t c : told_apart t -> no_error t ->
  In c (concat (matches RUST_DEFINITIONS src t)) ->
  rust_caught src t c \/ In (fst c) ["macro"; "context"; "function"; "jinja"; "method"]%string.
Proof.
  intros Ht He Hc. apply in_concat in Hc. destruct Hc as (cs & Hcs & Hc). apply in_matches in Hcs. destruct Hcs as (x & m & Hx & Hm & ->).
  apply in_rust in Hm. destruct Hm as (a & Ha & Hm & Hp). destruct Ha as [<-|[<-|[<-|[<-|[]]]]].
  - right. apply in_largest in Hm. cbn [embed_root] in Hm. apply in_embed in Hm. destruct Hm as (_ & m' & Hm & ->). apply in_final in Hm.
    destruct Hm as (f & y & p & _ & _ & [<-|[]] & Hm). apply in_leaf in Hm. destruct Hm as (_ & ->). cbn in Hc. destruct Hc as [<-|[<-|[]]]; cbn; auto.
  - left. left. cbn [embed_root] in Hm. apply key_largest in Hm. destruct Hm as (Hk & f & y & Hy & Hyk & ->). cbn [fst] in *. destruct Hc as [<-|[]].
    exists x, f, y. cbn [forallb] in Hp. rewrite andb_true_r in Hp. apply pred_key in Hp. auto 10.
  - cbn [embed_root] in Hm. apply add_largest in Hm; [|now apply apart_inside with t].
    destruct Hm as (P & A & Q & (f & callee & g & ar & f3 & obj & f4 & method & H1 & H2 & H3 & H4 & H5 & H6 & -> & -> & ->) & Hn & ->). cbn [fst] in *. rewrite app_nil_r in *.
    cbn [app forallb] in Hp. apply andb_true_iff in Hp. destruct Hp as (_ & Hp). apply andb_true_iff in Hp. destruct Hp as (Hj & Hp). apply andb_true_iff in Hp. destruct Hp as (Hmm & _).
    apply pred_jinja in Hj. apply pred_method in Hmm.
    cbn [app] in Hc. destruct Hc as [<-|[<-|[<-|Hc]]]; [right; cbn; auto 10|right; cbn; auto 10|right; cbn; auto 10|]. left. right.
    apply in_map_iff in Hc. destruct Hc as (n & <- & Hi). apply of_kind_in in Hi. destruct Hi as (f5 & y & Hy & Hyk & <-).
    exists x, f, callee, g, ar, f3, obj, f4, method, f5, y. auto 20.
  - exfalso. apply in_largest in Hm. rewrite embed_leaf in Hm. destruct (String.eqb_spec "ERROR" (s_kind x)) as [E|]; [|destruct Hm].
    unfold no_error in He. rewrite Forall_forall in He. now apply (He x Hx).
Qed.
Lemma rust_captures_all src t c : told_apart t -> rust_caught src t c -> In c (concat (matches RUST_DEFINITIONS src t)).
Proof.
  intros Ht Hc. apply in_concat. destruct Hc as [(x & f & y & Hx & Hk & Hy & Hyk & Hs & ->)|(x & f1 & callee & f2 & ar & f3 & obj & f4 & method & f5 & y & Hx & Ho & Hck & Hco & Hok & Hos & Hmk & Hms & Hak & Hay & Hyk & ->)].
  - exists [("key_id"%string, s_node y)]. split; [|now left]. apply in_matches. exists x, ([("key_id"%string, s_node y)], s_node y). split; [exact Hx|]. split; [|reflexivity].
    apply in_rust. exists (RNode key_pat). split; [cbn; auto|]. split.
    + cbn [embed_root]. apply key_largest. split; [exact Hk|]. exists f, y. auto.
    + cbn [fst forallb]. rewrite andb_true_r. now apply pred_key.
  - set (cs := [("function"%string, s_node callee); ("jinja"%string, s_node obj); ("method"%string, s_node method)] ++ map (pair "name"%string) (of_kind "string_literal" (s_children ar)) ++ []).
    assert (Hi : In (s_node y) (of_kind "string_literal" (s_children ar))) by (apply of_kind_in; exists f5, y; auto).
    exists cs. split.
    + apply in_matches. exists x, (cs, last_node (s_node x) (of_kind "string_literal" (s_children ar))). split; [exact Hx|]. split; [|reflexivity].
      apply in_rust. exists (RSiblings add_steps). split; [cbn; auto|]. split.
      * cbn [embed_root]. apply add_largest; [now apply apart_inside with t|]. eexists _, _, []. split; [|split; [|reflexivity]].
        -- exists f1, callee, f2, ar, f3, obj, f4, method. auto 20.
        -- intros X. rewrite X in Hi. destruct Hi.
      * cbn [fst]. unfold cs. rewrite app_nil_r. cbn [app forallb]. rewrite pred_function. rewrite (proj2 (pred_jinja src (s_node obj)) Hos), (proj2 (pred_method src (s_node method)) Hms). cbn [andb].
        apply forallb_forall. intros z Hz. apply in_map_iff in Hz. destruct Hz as (n & <- & _). apply pred_add.
    + unfold cs. rewrite app_nil_r. apply in_or_app. right. now apply in_map.
Qed.
Lemma before_error_all cs : Forall (fun c => bc_name c <> CError) cs -> before_error cs = cs.
Proof. induction 1 as [|c cs Hc _ IH]; [reflexivity|]. cbn [before_error]. rewrite IH. destruct (bc_name c); congruence. Qed.
Lemma rust_definitions src t v : told_apart t -> no_error t ->
  In v (definitions_in (map (with_text src) (concat (matches RUST_DEFINITIONS src t)))) <->
  exists n name, rust_variable src t n name /\ v = at_node BackendVariable n name.
Proof.
  intros Ht He. unfold definitions_in. rewrite before_error_all.
  - rewrite in_flat_map. split.
    + intros (b & Hb & Hv). apply in_map_iff in Hb. destruct Hb as (c & <- & Hc). apply rust_captures in Hc; auto. destruct Hc as [[(x & f & y & Hx & Hk & Hy & Hyk & Hs & ->)|(x & f1 & callee & f2 & ar & f3 & obj & f4 & method & f5 & y & Hx & Ho & Hck & Hco & Hok & Hos & Hmk & Hms & Hak & Hay & Hyk & ->)]|Hc].
      * cbn in Hv. destruct Hv as [<-|[]]. exists (s_node y), (said src y). split; [|reflexivity]. now apply RvToken with x f.
      * cbn in Hv. destruct Hv as [<-|[]]. exists (s_node y), (unquoted (said src y)). split; [|reflexivity]. now apply RvAdd with x f1 callee f2 ar f3 obj f4 method f5.
      * exfalso. destruct c as (nm & n). cbn in Hc. repeat destruct Hc as [<-|Hc]; try (destruct Hv; fail); destruct Hc.
    + intros (n & name & Hv & ->). destruct Hv as [x f y Hx Hk Hy Hyk Hs|x f1 callee f2 ar f3 obj f4 method f5 y Hx Ho Hck Hco Hok Hos Hmk Hms Hak Hay Hyk].
      * exists (with_text src ("key_id"%string, s_node y)). split; [|left; reflexivity]. apply in_map. apply rust_captures_all; [exact Ht|]. left. exists x, f, y. auto 10.
      * exists (with_text src ("name"%string, s_node y)). split; [|left; reflexivity]. apply in_map. apply rust_captures_all; [exact Ht|]. right.
        exists x, f1, callee, f2, ar, f3, obj, f4, method, f5, y. auto 20.
  - apply Forall_map. apply Forall_forall. intros c Hc. apply rust_captures in Hc; auto. unfold with_text. cbn [bc_name].
    destruct Hc as [[(x & f & y & _ & _ & _ & _ & _ & ->)|(x & f1 & callee & f2 & ar & f3 & obj & f4 & method & f5 & y & _ & _ & _ & _ & _ & _ & _ & _ & _ & _ & _ & ->)]|Hc]; [discriminate|discriminate|].
    destruct c as (nm & n). cbn in Hc |- *. repeat destruct Hc as [<-|Hc]; try discriminate. destruct Hc.
Qed.
