(** * PQueries3: what the queries find in the trees of backend files. *)
From Verif Require Import Base RString Utf8 Rope Types Captures MTemplates MLspFiles MQueries.
From Verif Require Import SpecBackend SpecQueries SpecQueries2 PText PBackend PQueries.
From Coq Require Import Arith.Wf_nat.

(** ** Choices *)
Lemma in_pick one k ch m :
  In m (pick one k ch) <->
  exists a c b m1 m2, ch = a ++ c :: b /\ In m1 (one c) /\ In m2 (k (snd m1) b) /\ m = (fst m1 ++ fst m2, snd m2).
Proof.
  revert m. induction ch as [|c r IH]; intros m; cbn [pick].
  - split; [intros []|]. intros (a & c & b & m1 & m2 & E & _). destruct a; discriminate.
  - rewrite in_app_iff, IH. split.
    + intros [H|(a & c' & b & m1 & m2 & -> & H)].
      * apply in_flat_map in H. destruct H as (m1 & H1 & H). unfold join_emb in H. apply in_map_iff in H. destruct H as (m2 & <- & H2).
        now exists [], c, r, m1, m2.
      * now exists (c :: a), c', b, m1, m2.
    + intros (a & c' & b & m1 & m2 & E & H1 & H2 & ->). destruct a as [|c0 a]; inversion E; subst.
      * left. apply in_flat_map. exists m1. split; [exact H1|]. unfold join_emb. apply in_map_iff. now exists m2.
      * right. now exists a, c', b, m1, m2.
Qed.
Lemma in_pick_some one k ch m :
  In m (pick_some one k ch) <->
  exists a c b m1 m2, ch = a ++ c :: b /\ In m1 (one c) /\ (In m2 (pick_some one k b) \/ In m2 (k (snd m1) b)) /\
    m = (fst m1 ++ fst m2, snd m2).
Proof.
  revert m. induction ch as [|c r IH]; intros m; cbn [pick_some].
  - split; [intros []|]. intros (a & c & b & m1 & m2 & E & _). destruct a; discriminate.
  - rewrite in_app_iff, IH. split.
    + intros [H|(a & c' & b & m1 & m2 & -> & H)].
      * apply in_flat_map in H. destruct H as (m1 & H1 & H). unfold join_emb in H. apply in_map_iff in H. destruct H as (m2 & <- & H2).
        apply in_app_or in H2. now exists [], c, r, m1, m2.
      * now exists (c :: a), c', b, m1, m2.
    + intros (a & c' & b & m1 & m2 & E & H1 & H2 & ->). destruct a as [|c0 a]; inversion E; subst.
      * left. apply in_flat_map. exists m1. split; [exact H1|]. unfold join_emb. apply in_map_iff. exists m2. split; [reflexivity|]. now apply in_or_app.
      * right. now exists a, c', b, m1, m2.
Qed.
Definition on_child (f : string) (alts : list qpat) (c : string * stree) : list emb :=
  if field_ok f (fst c) then flat_map (fun p' => embed p' (snd c)) alts else [].
Lemma steps_unfold q f alts r last ch :
  embed_steps (QS q f alts :: r) last ch =
  match q with
  | One => pick (on_child f alts) (embed_steps r) ch
  | Opt => pick (on_child f alts) (embed_steps r) ch ++ embed_steps r last ch
  | Plus => pick_some (on_child f alts) (embed_steps r) ch
  | Star => pick_some (on_child f alts) (embed_steps r) ch ++ embed_steps r last ch
  end.
Proof. reflexivity. Qed.
Lemma in_child f alts c m :
  In m (on_child f alts c) <-> (f = ""%string \/ f = fst c) /\ exists p, In p alts /\ In m (embed p (snd c)).
Proof.
  unfold on_child, field_ok. destruct (String.eqb_spec f "") as [->|Hf]; [|destruct (String.eqb_spec f (fst c)) as [->|Hf2]]; cbn [orb].
  - rewrite in_flat_map. firstorder.
  - rewrite in_flat_map. firstorder.
  - split; [intros []|]. intros ([?|?] & _); contradiction.
Qed.
Lemma in_embed k ss caps t m :
  In m (embed (QN k ss caps) t) <->
  k = s_kind t /\ exists m', In m' (embed_steps ss (s_node t) (s_children t)) /\ m = with_caps caps (s_node t) m'.
Proof.
  rewrite embed_node. destruct (String.eqb_spec k (s_kind t)).
  - rewrite in_map_iff. split; [intros (m' & <- & H); split; [assumption|now exists m']|]. intros (_ & m' & H & ->). now exists m'.
  - split; [intros []|]. intros (X & _). contradiction.
Qed.
Lemma in_leaf k caps t m : In m (embed (QN k [] caps) t) <-> k = s_kind t /\ m = (map (fun c => (c, s_node t)) caps, s_node t).
Proof.
  rewrite in_embed. split.
  - intros (-> & m' & [<-|[]] & ->). split; [reflexivity|]. unfold with_caps. cbn [fst snd]. now rewrite app_nil_r.
  - intros (-> & ->). split; [reflexivity|]. exists ([], s_node t). split; [now left|]. unfold with_caps. cbn [fst snd]. now rewrite app_nil_r.
Qed.
(** One child. *)
Lemma in_one f alts r last ch m :
  In m (embed_steps (QS One f alts :: r) last ch) <->
  exists a g x b p m1 m2, ch = a ++ (g, x) :: b /\ (f = ""%string \/ f = g) /\ In p alts /\ In m1 (embed p x) /\
    In m2 (embed_steps r (snd m1) b) /\ m = (fst m1 ++ fst m2, snd m2).
Proof.
  rewrite steps_unfold, in_pick. split.
  - intros (a & (g & x) & b & m1 & m2 & E & H1 & H2 & Em). apply in_child in H1. destruct H1 as (Hf & p & Hp & H1). now exists a, g, x, b, p, m1, m2.
  - intros (a & g & x & b & p & m1 & m2 & E & Hf & Hp & H1 & H2 & Em). exists a, (g, x), b, m1, m2. split; [exact E|]. split; [|now split].
    apply in_child. split; [exact Hf|]. now exists p.
Qed.
Lemma steps_nil last ch m : In m (embed_steps [] last ch) <-> m = ([], last).
Proof. cbn. split; [intros [<-|[]]; reflexivity|intros ->; now left]. Qed.
(** The last child. *)
Lemma in_final f alts last ch m :
  In m (embed_steps [QS One f alts] last ch) <->
  exists g x p, In (g, x) ch /\ (f = ""%string \/ f = g) /\ In p alts /\ In m (embed p x).
Proof.
  rewrite in_one. split.
  - intros (a & g & x & b & p & m1 & m2 & -> & Hf & Hp & H1 & H2 & ->). apply steps_nil in H2. subst m2. cbn [fst snd]. rewrite app_nil_r.
    exists g, x, p. split; [apply in_or_app; right; now left|]. destruct m1. auto.
  - intros (g & x & p & Hi & Hf & Hp & H1). apply in_split in Hi. destruct Hi as (a & b & ->). exists a, g, x, b, p, m, ([], snd m).
    repeat split; auto; [now left|]. cbn [fst snd]. rewrite app_nil_r. now destruct m.
Qed.

(** ** Where matches end *)
Section Ends.
Definition ends_inside (p : qpat) : Prop := forall t m, In m (embed p t) -> exists y, In y (preorder t) /\ snd m = s_node y.
Definition step_inside (s : qstep) : Prop := match s with QS _ _ alts => Forall ends_inside alts end.
Lemma child_inside f alts c m : Forall ends_inside alts -> In m (on_child f alts c) -> exists y, In y (preorder (snd c)) /\ snd m = s_node y.
Proof. intros H Hm. apply in_child in Hm. destruct Hm as (_ & p & Hp & Hm). rewrite Forall_forall in H. exact (H p Hp _ _ Hm). Qed.
Lemma steps_inside ss : Forall step_inside ss -> forall last ch m, In m (embed_steps ss last ch) ->
  snd m = last \/ exists y, In y (flat_map (fun c => preorder (snd c)) ch) /\ snd m = s_node y.
Proof.
  induction 1 as [|[q f alts] ss Hs _ IH]; intros last ch m Hm; [apply steps_nil in Hm; subst; now left|]. cbn [step_inside] in Hs.
  assert (P : forall ch m, In m (pick (on_child f alts) (embed_steps ss) ch) -> exists y, In y (flat_map (fun c => preorder (snd c)) ch) /\ snd m = s_node y).
  { clear Hm m ch last. intros ch m Hm. apply in_pick in Hm. destruct Hm as (a & c & b & m1 & m2 & -> & H1 & H2 & ->). cbn [snd].
    rewrite flat_map_app. cbn [flat_map]. apply IH in H2. destruct H2 as [->|(y & Hy & ->)].
    - destruct (child_inside _ _ _ _ Hs H1) as (y & Hy & ->). exists y. split; [|reflexivity]. apply in_or_app. right. apply in_or_app. now left.
    - exists y. split; [|reflexivity]. apply in_or_app. right. apply in_or_app. now right. }
  assert (S : forall ch m, In m (pick_some (on_child f alts) (embed_steps ss) ch) -> exists y, In y (flat_map (fun c => preorder (snd c)) ch) /\ snd m = s_node y).
  { clear Hm m ch last. intros ch. remember (length ch) as k eqn:Ek. revert ch Ek. induction k as [k IHk] using (well_founded_induction lt_wf). intros ch -> m Hm.
    apply in_pick_some in Hm. destruct Hm as (a & c & b & m1 & m2 & -> & H1 & H2 & ->). cbn [snd].
    rewrite flat_map_app. cbn [flat_map]. destruct H2 as [H2|H2].
    - destruct (IHk (length b)) with (ch := b) (m := m2) as (y & Hy & E); [rewrite app_length; cbn; lia|reflexivity|exact H2|].
      exists y. split; [|exact E]. apply in_or_app. right. apply in_or_app. now right.
    - apply IH in H2. destruct H2 as [->|(y & Hy & ->)].
      + destruct (child_inside _ _ _ _ Hs H1) as (y & Hy & ->). exists y. split; [|reflexivity]. apply in_or_app. right. apply in_or_app. now left.
      + exists y. split; [|reflexivity]. apply in_or_app. right. apply in_or_app. now right. }
  rewrite steps_unfold in Hm. destruct q.
  - right. auto.
  - apply in_app_or in Hm. destruct Hm as [Hm|Hm]; auto.
  - right. auto.
  - apply in_app_or in Hm. destruct Hm as [Hm|Hm]; auto.
Qed.
Lemma self_inside t : In t (preorder t).
Proof. destruct t. now left. Qed.
Lemma children_inside t y : In y (flat_map (fun c => preorder (snd c)) (s_children t)) -> In y (preorder t).
Proof. destruct t. intros H. now right. Qed.
Lemma node_inside k ss caps : Forall step_inside ss -> ends_inside (QN k ss caps).
Proof.
  intros H t m Hm. apply in_embed in Hm. destruct Hm as (_ & m' & Hm & ->). unfold with_caps. cbn [snd].
  destruct (steps_inside ss H _ _ _ Hm) as [->|(y & Hy & ->)]; [exists t|exists y]; split; auto using self_inside, children_inside.
Qed.
Fixpoint all_inside (p : qpat) : ends_inside p :=
  match p with
  | QN k ss caps =>
      node_inside k ss caps
        ((fix go ss : Forall step_inside ss :=
            match ss with
            | [] => Forall_nil _
            | QS q f alts :: r =>
                Forall_cons (QS q f alts)
                  ((fix goa alts : Forall ends_inside alts :=
                      match alts with [] => Forall_nil _ | a :: r => Forall_cons a (all_inside a) (goa r) end) alts) (go r)
            end) ss)
  end.
Lemma every_step_inside ss : Forall step_inside ss.
Proof. apply Forall_forall. intros [q f alts] _. cbn. apply Forall_forall. intros p _. apply all_inside. Qed.
Lemma root_inside r t m : In m (embed_root r t) -> exists y, In y (preorder t) /\ snd m = s_node y.
Proof.
  destruct r as [p|ss]; cbn [embed_root]; intros H; [exact (all_inside p _ _ H)|].
  destruct (steps_inside ss (every_step_inside ss) _ _ _ H) as [->|(y & Hy & ->)]; [exists t|exists y]; split; auto using self_inside, children_inside.
Qed.
End Ends.
Lemma preorder_trans x y t : In x (preorder t) -> In y (preorder x) -> In y (preorder t).
Proof.
  revert x y. assert (W : forall k t, (length (preorder t) < k)%nat -> forall x y, In x (preorder t) -> In y (preorder x) -> In y (preorder t)).
  { induction k as [|k IH]; intros t0 Hk x y Hx Hy; [lia|]. destruct t0 as [kd n ch]. cbn [preorder] in Hx. destruct Hx as [<-|Hx]; [exact Hy|].
    apply in_flat_map in Hx. destruct Hx as (c & Hc & Hx). cbn [preorder]. right. apply in_flat_map. exists c. split; [exact Hc|].
    apply (IH (snd c)) with x; auto. cbn [preorder length] in Hk. clear - Hk Hc.
    assert (length (preorder (snd c)) <= length (flat_map (fun c => preorder (snd c)) ch))%nat; [|lia].
    clear Hk. induction ch as [|d ch IH]; [destruct Hc|]. cbn [flat_map]. rewrite app_length. destruct Hc as [->|Hc]; [lia|]. specialize (IH Hc). lia. }
  intros x y. apply (W (S (length (preorder t)))). lia.
Qed.
Lemma in_pattern src t p m :
  In m (pattern_at src t p) <-> exists a, In a (p_alts p) /\ In m (largest (embed_root a t)) /\ forallb (pred_holds src (fst m)) (p_preds p) = true.
Proof.
  unfold pattern_at. rewrite filter_In, in_flat_map. split.
  - intros ((a & Ha & Hm) & Hp). exists a. rewrite <- in_rev in Ha. auto.
  - intros (a & Ha & Hm & Hp). split; [|exact Hp]. exists a. rewrite <- in_rev. auto.
Qed.
Lemma in_largest m E : In m (largest E) -> In m E.
Proof. unfold largest. intros H. now apply filter_In in H. Qed.
Lemma in_query q src t m : In m (query_at q src t) <-> exists p, In p q /\ In m (pattern_at src t p).
Proof. unfold query_at. apply in_flat_map. Qed.
Lemma in_matches q src t cs :
  In cs (matches q src t) <-> exists x m, In x (preorder t) /\ In m (query_at q src x) /\ cs = fst m.
Proof.
  unfold matches. rewrite in_map_iff. split.
  - intros (m & <- & H). apply in_flat_map in H. destruct H as (y & _ & H). apply filter_In in H. destruct H as (H & _).
    apply in_flat_map in H. destruct H as (x & Hx & H). now exists x, m.
  - intros (x & m & Hx & Hm & ->). exists m. split; [reflexivity|].
    assert (Hm' := Hm). apply in_query in Hm'. destruct Hm' as (p & _ & Hm'). apply in_pattern in Hm'. destruct Hm' as (a & _ & Hm' & _).
    apply in_largest in Hm'. destruct (root_inside _ _ _ Hm') as (y & Hy & E). apply in_flat_map. exists y. split; [now apply preorder_trans with x|].
    apply filter_In. split; [apply in_flat_map; now exists x|]. unfold ends_at. rewrite E. apply N.eqb_refl.
Qed.

(** ** Repetitions *)
Inductive subl {A} : list A -> list A -> Prop :=
| SuNil l : subl [] l
| SuTake x a b : subl a b -> subl (x :: a) (x :: b)
| SuSkip x a b : subl a b -> subl a (x :: b).
Lemma subl_refl {A} (l : list A) : subl l l.
Proof. induction l; constructor; auto. Qed.
Lemma subl_length {A} (a b : list A) : subl a b -> (length a <= length b)%nat.
Proof. induction 1; cbn; lia. Qed.
Lemma subl_full {A} (a b : list A) : subl a b -> length a = length b -> a = b.
Proof.
  induction 1 as [l|x a b H IH|x a b H IH]; cbn; intros E.
  - destruct l; [reflexivity|discriminate].
  - f_equal. apply IH. lia.
  - apply subl_length in H. lia.
Qed.
Lemma subl_in {A} (a b : list A) x : subl a b -> In x a -> In x b.
Proof. induction 1; cbn; intuition. Qed.
Lemma subl_tail {A} (x : A) a b : subl (x :: a) b -> subl a b.
Proof.
  remember (x :: a) as l eqn:E. intros H. revert x a E. induction H; intros y l' E; [discriminate| |].
  - inversion E; subst. now apply SuSkip.
  - apply SuSkip. eauto.
Qed.
Lemma subl_app {A} (p a b : list A) : subl a b -> subl (p ++ a) (p ++ b).
Proof. induction p; cbn; auto. intros H. apply SuTake. auto. Qed.
Lemma subl_app2 {A} (a b q : list A) : subl a b -> subl (a ++ q) (b ++ q).
Proof. induction 1; cbn; try (constructor; assumption). induction l; cbn; [apply subl_refl|now apply SuSkip]. Qed.
Lemma subl_map {A B} (f : A -> B) a b : subl a b -> subl (map f a) (map f b).
Proof. induction 1; constructor; auto. Qed.
Lemma subl_greedy a b : subl a b -> sub_captures a b = true.
Proof.
  intros H. revert a H. induction b as [|y b IH]; intros a H.
  - destruct a; [reflexivity|inversion H].
  - destruct a as [|x a]; [reflexivity|]. cbn [sub_captures]. destruct (qcap_eqb x y) eqn:E.
    + apply IH. inversion H; subst; [assumption|]. now apply subl_tail with x.
    + inversion H; subst; [|now apply IH]. unfold qcap_eqb in E. rewrite String.eqb_refl, N.eqb_refl in E. discriminate.
Qed.
Definition like (a b : qcap) : Prop := fst a = fst b /\ n_id (snd a) = n_id (snd b).
Lemma greedy_like a b : sub_captures a b = true -> exists b', subl b' b /\ Forall2 like a b'.
Proof.
  revert a. induction b as [|y b IH]; intros a H.
  - destruct a; [|discriminate]. exists []. split; constructor.
  - destruct a as [|x a]; [exists []; split; constructor|]. cbn [sub_captures] in H. destruct (qcap_eqb x y) eqn:E.
    + destruct (IH a H) as (b' & H1 & H2). exists (y :: b'). split; [now apply SuTake|]. constructor; [|assumption].
      unfold qcap_eqb in E. apply andb_true_iff in E. destruct E as (E1 & E2). apply String.eqb_eq in E1. apply N.eqb_eq in E2. now split.
    + destruct (IH _ H) as (b' & H1 & H2). exists b'. split; [now apply SuSkip|assumption].
Qed.
Lemma like_in a b x : Forall2 like a b -> In x a -> exists y, In y b /\ like x y.
Proof. induction 1 as [|u v a b Huv _ IH]; intros Hx; [destruct Hx|]. destruct Hx as [->|Hx]; [exists v; split; [now left|assumption]|]. destruct (IH Hx) as (y & Hy & L). exists y. split; [now right|assumption]. Qed.

(** Nonempty selections among the children of a kind. *)
Definition last_node (d : node) (l : list node) : node := last l d.
Lemma of_kind_cons' kind c r : of_kind kind (c :: r) = (if String.eqb (s_kind (snd c)) kind then [s_node (snd c)] else []) ++ of_kind kind r.
Proof. reflexivity. Qed.
Lemma subl_pre {A} (a b c : list A) : subl a c -> subl a (b ++ c).
Proof. induction b; cbn; auto. intros H. apply SuSkip. auto. Qed.
Lemma in_some kind cap last ch m :
  In m (embed_steps [QS Plus "" [QN kind [] [cap]]] last ch) <->
  exists S, S <> [] /\ subl S (of_kind kind ch) /\ m = (map (pair cap) S, last_node last S).
Proof.
  rewrite steps_unfold.
  assert (C : forall c m1, In m1 (on_child "" [QN kind [] [cap]] c) <-> s_kind (snd c) = kind /\ m1 = ([(cap, s_node (snd c))], s_node (snd c))).
  { intros c m1. rewrite in_child. split.
    - intros (_ & p & [<-|[]] & H). apply in_leaf in H. destruct H as (-> & ->). now split.
    - intros (E & ->). split; [now left|]. exists (QN kind [] [cap]). split; [now left|]. apply in_leaf. now split. }
  revert last m. remember (length ch) as k eqn:Ek. revert ch Ek. induction k as [k IHk] using (well_founded_induction lt_wf). intros ch -> last m.
  rewrite in_pick_some. split.
  - intros (a & c & b & m1 & m2 & -> & H1 & H2 & ->). apply C in H1. destruct H1 as (Hk & ->). cbn [fst snd] in *.
    assert (Ek : of_kind kind (a ++ c :: b) = of_kind kind a ++ s_node (snd c) :: of_kind kind b).
    { rewrite of_kind_app, of_kind_cons', Hk, String.eqb_refl. reflexivity. }
    rewrite Ek. destruct H2 as [H2|H2].
    + apply (IHk (length b)) with (last := s_node (snd c)) in H2; [|rewrite app_length; cbn; lia|reflexivity]. destruct H2 as (S & Hn & Hs & ->). exists (s_node (snd c) :: S).
      split; [discriminate|]. split; [apply subl_pre; now apply SuTake|]. cbn [fst snd map app]. f_equal. destruct S; [contradiction|]. unfold last_node. cbn [List.last].
      clear. generalize (s_node (snd c)). revert n. induction S as [|x S IH]; intros n d; [reflexivity|]. cbn [List.last] in *. destruct S; [reflexivity|]. exact (IH x d).
    + apply steps_nil in H2. subst m2. exists [s_node (snd c)]. split; [discriminate|]. split; [apply subl_pre; apply SuTake; constructor|]. reflexivity.
  - intros (S & Hn & Hs & ->). destruct S as [|x S]; [contradiction|].
    assert (X : exists a c b, ch = a ++ c :: b /\ s_kind (snd c) = kind /\ s_node (snd c) = x /\ subl S (of_kind kind b)).
    { clear - Hs. induction ch as [|c r IH]; [inversion Hs|]. rewrite of_kind_cons' in Hs. destruct (String.eqb_spec (s_kind (snd c)) kind) as [E|E]; cbn [app] in Hs.
      - inversion Hs; subst; [now exists [], c, r|]. destruct (IH H1) as (a & d & b & -> & H). now exists (c :: a), d, b.
      - destruct (IH Hs) as (a & d & b & -> & H). now exists (c :: a), d, b. }
    destruct X as (a & c & b & -> & Hk & Ex & Hs'). exists a, c, b, ([(cap, x)], x).
    destruct S as [|y S].
    + exists ([], x). split; [reflexivity|]. split; [apply C; subst; now split|]. split; [right; now left|]. reflexivity.
    + exists (map (pair cap) (y :: S), last_node x (y :: S)). split; [reflexivity|]. split; [apply C; subst; now split|]. split.
      * left. apply (IHk (length b)) with (last := x); [rewrite app_length; cbn; lia|reflexivity|]. exists (y :: S). split; [discriminate|]. now split.
      * cbn [fst snd map app]. f_equal. unfold last_node. cbn [List.last]. clear. revert y. generalize last x. induction S as [|z S IH]; intros l0 x0 y; [reflexivity|].
        cbn [List.last] in *. destruct S; [reflexivity|]. exact (IH l0 x0 z).
Qed.

(** Only complete selections are the largest ones: behind a prefix, *)
Definition named (cap : string) (c : qcap) : bool := String.eqb (fst c) cap.
Lemma subl_filter {A} (f : A -> bool) a b : subl a b -> subl (filter f a) (filter f b).
Proof. induction 1; cbn [filter]; [constructor| |]; destruct (f x); try constructor; auto. Qed.
Lemma like_filter cap a b : Forall2 like a b -> Forall2 like (filter (named cap) a) (filter (named cap) b).
Proof.
  induction 1 as [|x y a b (E1 & E2) _ IH]; [constructor|]. cbn [filter]. assert (EN : named cap x = named cap y) by (unfold named; now rewrite E1). rewrite EN.
  destruct (named cap y); [constructor; [now split|exact IH]|exact IH].
Qed.
Lemma like_filter_not cap a b : Forall2 like a b -> Forall2 like (filter (fun c => negb (named cap c)) a) (filter (fun c => negb (named cap c)) b).
Proof.
  induction 1 as [|x y a b (E1 & E2) _ IH]; [constructor|]. cbn [filter]. assert (EN : named cap x = named cap y) by (unfold named; now rewrite E1). rewrite EN.
  destruct (named cap y); cbn [negb]; [exact IH|constructor; [now split|exact IH]].
Qed.
Lemma named_all cap (l : list node) : filter (named cap) (map (pair cap) l) = map (pair cap) l.
Proof. induction l; [reflexivity|]. cbn [map filter]. unfold named at 1. cbn [fst]. rewrite String.eqb_refl. now f_equal. Qed.
Lemma named_not cap (l : list node) : filter (fun c => negb (named cap c)) (map (pair cap) l) = [].
Proof. induction l; [reflexivity|]. cbn [map filter]. unfold named at 1. cbn [fst]. rewrite String.eqb_refl. exact IHl. Qed.
Lemma named_none cap P : Forall (fun c => fst c <> cap) P -> filter (named cap) P = [] /\ filter (fun c => negb (named cap c)) P = P.
Proof.
  induction 1 as [|c P Hc _ (I1 & I2)]; [split; reflexivity|]. cbn [filter].
  assert (EN : named cap c = false) by (unfold named; now apply String.eqb_neq). rewrite EN. cbn [negb].
  rewrite I1, I2. now split.
Qed.
Lemma like_length a b : Forall2 like a b -> length a = length b.
Proof. induction 1; cbn; congruence. Qed.
Section Families.
Variables (E : list emb) (cap : string) (k : nat).
(** [P ++ map (pair cap) S ++ Q] for the selections [S] of [A]. *)
Variable Fam : list qcap -> list node -> list qcap -> Prop.
Variable ok : list node -> Prop.
Hypothesis HE : forall m, In m E -> exists P A Q S, Fam P A Q /\ ok S /\ subl S A /\ fst m = P ++ map (pair cap) S ++ Q.
Hypothesis HE2 : forall P A Q, Fam P A Q -> ok A -> exists l, In (P ++ map (pair cap) A ++ Q, l) E.
Hypothesis Hok : forall S A, ok S -> subl S A -> ok A.
Hypothesis Hlen : forall P A Q, Fam P A Q -> length (P ++ Q) = k /\ Forall (fun c => fst c <> cap) P /\ Forall (fun c => fst c <> cap) Q.
Hypothesis Hsame : forall P A Q P' A' Q', Fam P A Q -> Fam P' A' Q' -> ok A -> Forall2 like (P ++ Q) (P' ++ Q') ->
  (forall n, In n A -> exists n', In n' A' /\ n_id n' = n_id n) -> A = A'.
Lemma parts P A Q : Fam P A Q -> forall S,
  filter (named cap) (P ++ map (pair cap) S ++ Q) = map (pair cap) S /\
  filter (fun c => negb (named cap c)) (P ++ map (pair cap) S ++ Q) = P ++ Q.
Proof.
  intros H S. destruct (Hlen _ _ _ H) as (_ & HP & HQ). apply named_none in HP, HQ. rewrite !filter_app.
  destruct HP as (P1 & P2), HQ as (Q1 & Q2). rewrite named_all, named_not. split.
  - etransitivity; [apply f_equal2; [exact P1|apply f_equal; exact Q1]|]. cbn [app]. apply app_nil_r.
  - cbn [app]. apply f_equal2; assumption.
Qed.
Lemma family m : In m (largest E) <-> In m E /\ exists P A Q, Fam P A Q /\ ok A /\ fst m = P ++ map (pair cap) A ++ Q.
Proof.
  unfold largest. rewrite filter_In. split.
  - intros (Hm & H). split; [exact Hm|]. destruct (HE m Hm) as (P & A & Q & S & HF & HokS & Hs & Em).
    exists P, A, Q. split; [exact HF|]. split; [eauto|]. destruct (Nat.eq_dec (length S) (length A)) as [El|El]; [now rewrite <- (subl_full _ _ Hs El)|].
    exfalso. destruct (HE2 _ _ _ HF (Hok _ _ HokS Hs)) as (l & Hl). apply negb_true_iff in H. rewrite <- not_true_iff_false in H. apply H.
    apply existsb_exists. eexists. split; [exact Hl|]. unfold smaller. cbn [fst]. rewrite Em. apply andb_true_iff. split.
    + apply Nat.ltb_lt. rewrite !app_length, !map_length. pose proof (subl_length _ _ Hs). lia.
    + apply subl_greedy. apply subl_app. apply subl_app2. now apply subl_map.
  - intros (Hm & P & A & Q & HF & HokA & Em). split; [exact Hm|]. apply negb_true_iff. rewrite <- not_true_iff_false. intros X.
    apply existsb_exists in X. destruct X as (x & Hx & X). unfold smaller in X. apply andb_true_iff in X. destruct X as (X1 & X2). apply Nat.ltb_lt in X1.
    destruct (HE x Hx) as (P' & A' & Q' & S' & HF' & _ & Hs' & Ex). rewrite Em, Ex in *.
    apply greedy_like in X2. destruct X2 as (b' & B1 & B2).
    pose proof (parts _ _ _ HF A) as (F1 & F2). pose proof (parts _ _ _ HF' S') as (G1 & G2).
    assert (L1 := like_filter cap _ _ B2). assert (L2 := like_filter_not cap _ _ B2). rewrite F1 in L1. rewrite F2 in L2.
    assert (B3 := subl_filter (named cap) _ _ B1). assert (B4 := subl_filter (fun c => negb (named cap c)) _ _ B1). rewrite G1 in B3. rewrite G2 in B4.
    assert (EQ : filter (fun c => negb (named cap c)) b' = P' ++ Q').
    { apply (subl_full _ _ B4). rewrite <- (like_length _ _ L2). destruct (Hlen _ _ _ HF) as (-> & _). destruct (Hlen _ _ _ HF') as (-> & _). reflexivity. }
    rewrite EQ in L2. assert (EA : A = A').
    { apply (Hsame _ _ _ _ _ _ HF HF' HokA L2). intros n Hn. destruct (like_in _ _ (cap, n) L1) as (y & Hy & Ly); [now apply in_map|].
      apply (subl_in _ _ _ B3) in Hy. apply in_map_iff in Hy. destruct Hy as (n' & <- & Hn'). exists n'. split; [now apply (subl_in _ _ _ Hs')|]. destruct Ly as (_ & Ly). now symmetry. }
    subst A'. apply subl_length in Hs'. destruct (Hlen _ _ _ HF) as (K1 & _). destruct (Hlen _ _ _ HF') as (K2 & _).
    unfold emb, qcap in *. rewrite !app_length, !map_length in *. lia.
Qed.
End Families.
Lemma largest_flat k E : (forall m : emb, In m E -> length (fst m) = k) -> largest E = E.
Proof.
  intros H. apply filter_all. apply Forall_forall. intros m Hm. apply negb_true_iff. rewrite <- not_true_iff_false. intros X.
  apply existsb_exists in X. destruct X as (x & Hx & X). unfold smaller in X. apply andb_true_iff in X. destruct X as (X & _). apply Nat.ltb_lt in X.
  rewrite (H m Hm), (H x Hx) in X. lia.
Qed.

(** ** Nodes *)
Lemma apart_inside t x : told_apart t -> In x (preorder t) -> told_apart x.
Proof.
  unfold told_apart. revert x. assert (W : forall k t, (length (preorder t) < k)%nat -> forall x, NoDup (map (fun x => n_id (s_node x)) (preorder t)) -> In x (preorder t) -> NoDup (map (fun x => n_id (s_node x)) (preorder x))).
  { induction k as [|k IH]; intros t0 Hk x Hn Hx; [lia|]. destruct t0 as [kd n ch]. cbn [preorder] in Hx. destruct Hx as [<-|Hx]; [exact Hn|].
    apply in_flat_map in Hx. destruct Hx as (c & Hc & Hx). cbn [preorder map] in Hn. apply NoDup_cons_iff in Hn. destruct Hn as (_ & Hn).
    apply in_split in Hc. destruct Hc as (a & b & ->). rewrite flat_map_app, map_app in Hn. apply NoDup_app_parts in Hn. destruct Hn as (_ & Hn & _).
    cbn [flat_map] in Hn. rewrite map_app in Hn. apply NoDup_app_parts in Hn. destruct Hn as (Hn & _).
    apply (IH (snd c)); auto. cbn [preorder length] in Hk. rewrite flat_map_app in Hk. cbn [flat_map] in Hk. rewrite !app_length in Hk. lia. }
  intros x. apply (W (S (length (preorder t)))). lia.
Qed.
Lemma same_node t x y : told_apart t -> In x (preorder t) -> In y (preorder t) -> n_id (s_node x) = n_id (s_node y) -> x = y.
Proof.
  unfold told_apart. induction (preorder t) as [|z l IH]; intros Hn Hx Hy E; [destruct Hx|]. cbn [map] in Hn. apply NoDup_cons_iff in Hn. destruct Hn as (Hz & Hn).
  destruct Hx as [->|Hx], Hy as [->|Hy]; auto.
  - elim Hz. rewrite E. now apply (in_map (fun x => n_id (s_node x))).
  - elim Hz. rewrite <- E. now apply (in_map (fun x => n_id (s_node x))).
Qed.
Lemma child_in t f x : In (f, x) (s_children t) -> In x (preorder t).
Proof. intros H. apply children_inside. apply in_flat_map. exists (f, x). split; [exact H|]. apply self_inside. Qed.
Lemma of_kind_in kind l n : In n (of_kind kind l) <-> exists f x, In (f, x) l /\ s_kind x = kind /\ s_node x = n.
Proof.
  unfold of_kind. rewrite in_flat_map. split.
  - intros ((f & x) & Hx & H). cbn [snd] in H. destruct (String.eqb_spec (s_kind x) kind); [|destruct H]. destruct H as [<-|[]]. now exists f, x.
  - intros (f & x & Hx & E & En). exists (f, x). split; [exact Hx|]. cbn [snd]. rewrite E, String.eqb_refl. now left.
Qed.
(** Two children of a node do not share a child. *)
Lemma same_parent t f x g y h u i v : told_apart t -> In (f, x) (s_children t) -> In (g, y) (s_children t) ->
  In (h, u) (s_children x) -> In (i, v) (s_children y) -> n_id (s_node u) = n_id (s_node v) -> x = y.
Proof.
  intros Hn Hx Hy Hu Hv E. destruct t as [k n ch]. cbn [s_children] in *. unfold told_apart in Hn. cbn [preorder map] in Hn. apply NoDup_cons_iff in Hn. destruct Hn as (_ & Hn).
  revert Hn Hx Hy. assert (IU : In (n_id (s_node u)) (ids (preorder x))) by (apply (in_map (fun x => n_id (s_node x))); eapply child_in; exact Hu).
  assert (IV : In (n_id (s_node u)) (ids (preorder y))) by (rewrite E; apply (in_map (fun x => n_id (s_node x))); eapply child_in; exact Hv).
  clear Hu Hv E. induction ch as [|c ch IH]; intros Hn Hx Hy; [destruct Hx|]. cbn [flat_map] in Hn. rewrite map_app in Hn. apply NoDup_app_parts in Hn. destruct Hn as (_ & Hn & D).
  assert (G : forall z j, In (j, z) ch -> In (n_id (s_node u)) (ids (preorder z)) -> In (n_id (s_node u)) (map (fun x => n_id (s_node x)) (flat_map (fun c => preorder (snd c)) ch))).
  { intros z j Hz Hi. clear - Hz Hi. unfold ids in Hi. apply in_map_iff in Hi. destruct Hi as (w & Ew & Hw). apply in_map_iff. exists w. split; [exact Ew|]. apply in_flat_map. now exists (j, z). }
  destruct Hx as [->|Hx], Hy as [Hy|Hy]; auto.
  - now inversion Hy.
  - elim (D (n_id (s_node u))); [exact IU|eauto].
  - subst c. elim (D (n_id (s_node u))); [exact IV|eauto].
Qed.
