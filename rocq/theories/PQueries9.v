(** * PQueries9: navigation in templates, from their syntax trees. *)
From Verif Require Import Base RString Utf8 Rope Types Captures MTemplates MDefinition MObjects MLspFiles MSearchErrors MQueries.
From Verif Require Import SpecFiles SpecScope SpecScope2 SpecObjects SpecObjects2 SpecLint SpecNav SpecQueries SpecQueries4.
From Verif Require Import PText PFiles PLint PLint2 PNode PNav PNav2 PNav3 PQueries PQueries2 PQueries3 PQueries6.

Lemma pt_le_trans' a b c : pt_le a b -> pt_le b c -> pt_le a c.
Proof. unfold pt_le. lia. Qed.

(** ** Layout *)
Lemma laid_child k n ch f x : laid_out (SN k n ch) -> In (f, x) ch -> laid_out x.
Proof.
  unfold laid_out. rewrite !Forall_forall. intros H Hc y Hy. apply H. cbn [preorder]. right. apply in_flat_map. exists (f, x). auto.
Qed.
Lemma laid_inside : forall t y, laid_out t -> In y (preorder t) ->
  pt_le (n_start (s_node t)) (n_start (s_node y)) /\ pt_le (n_end (s_node y)) (n_end (s_node t)).
Proof.
  assert (W : forall k t, (length (preorder t) < k)%nat -> forall y, laid_out t -> In y (preorder t) ->
    pt_le (n_start (s_node t)) (n_start (s_node y)) /\ pt_le (n_end (s_node y)) (n_end (s_node t))).
  { induction k as [|k IH]; intros t Hk y Hl Hy; [lia|]. destruct t as [kd n ch]. cbn [preorder] in Hy.
    destruct Hy as [<-|Hy]; [split; right; split; lia|]. apply in_flat_map in Hy. destruct Hy as ((f & x) & Hc & Hy). cbn [snd] in Hy.
    assert (Hlen : (length (preorder x) < k)%nat).
    { cbn [preorder length] in Hk. assert (length (preorder x) <= length (flat_map (fun c => preorder (snd c)) ch))%nat; [|lia].
      clear - Hc. induction ch as [|d ch IH]; [destruct Hc|]. cbn [flat_map]. rewrite app_length. destruct Hc as [->|Hc]; [cbn; lia|]. specialize (IH Hc). lia. }
    destruct (IH x Hlen y (laid_child _ _ _ _ _ Hl Hc) Hy) as (A & B).
    unfold laid_out in Hl. rewrite Forall_forall in Hl. destruct (Hl (SN kd n ch) (or_introl eq_refl)) as (_ & _ & Hin).
    rewrite Forall_forall in Hin. destruct (Hin _ Hc) as (C & D). cbn [snd s_node] in *. split; eapply pt_le_trans'; eauto. }
  intros t y. apply (W (S (length (preorder t)))). lia.
Qed.
Lemma app_cons_split {A} (l1 : list A) : forall l2 a x z, l1 ++ l2 = a ++ x :: z ->
  (exists z1, l1 = a ++ x :: z1 /\ z = z1 ++ l2) \/ (exists a2, a = l1 ++ a2 /\ l2 = a2 ++ x :: z).
Proof.
  induction l1 as [|y l1 IH]; intros l2 a x z E; [right; exists a; auto|]. destruct a as [|w a]; cbn in E; inversion E; subst.
  - left. exists l1. auto.
  - destruct (IH _ _ _ _ H1) as [(z1 & -> & ->)|(a2 & -> & ->)]; [left; exists z1; auto|right; exists a2; auto].
Qed.
(** What comes behind a leaf in the tree starts behind it. *)
Lemma laid_after : forall t a x z, laid_out t -> preorder t = a ++ x :: z -> s_children x = [] ->
  Forall (fun y => pt_le (n_end (s_node x)) (n_start (s_node y))) z.
Proof.
  assert (W : forall k t, (length (preorder t) < k)%nat -> forall a x z, laid_out t -> preorder t = a ++ x :: z -> s_children x = [] ->
    Forall (fun y => pt_le (n_end (s_node x)) (n_start (s_node y))) z).
  { induction k as [|k IH]; intros t Hk a x z Hl E Hx; [lia|]. destruct t as [kd n ch]. cbn [preorder] in E.
    destruct a as [|w a]; cbn [app] in E; inversion E; subst.
    { cbn [s_children] in Hx. subst ch. constructor. }
    clear E. assert (Hch : forall c, In c ch -> laid_out (snd c)) by (intros (f & c) Hc; exact (laid_child _ _ _ _ _ Hl Hc)).
    assert (Hp : ForallOrdPairs (fun a b => pt_le (n_end (s_node (snd a))) (n_start (s_node (snd b)))) ch).
    { unfold laid_out in Hl. rewrite Forall_forall in Hl. exact (proj1 (proj2 (Hl (SN kd n ch) (or_introl eq_refl)))). }
    cbn [preorder length] in Hk. apply Nat.succ_lt_mono in Hk. clear Hl. revert a H1 Hk. induction ch as [|c ch IHc]; intros a E Hk; [destruct a; discriminate|].
    cbn [flat_map] in E, Hk. rewrite app_length in Hk. inversion Hp as [|c0 ch0 Hf Hr]; subst.
    destruct (app_cons_split _ _ _ _ _ E) as [(z1 & E1 & ->)|(a2 & -> & E2)].
    - apply Forall_app. split; [apply (IH (snd c)) with a; auto; [lia|apply Hch; now left]|].
      apply Forall_forall. intros y Hy. apply in_flat_map in Hy. destruct Hy as (d & Hd & Hy). rewrite Forall_forall in Hf. specialize (Hf _ Hd).
      assert (Hin : In x (preorder (snd c))) by (rewrite E1; apply in_or_app; right; now left).
      destruct (laid_inside _ _ (Hch c (or_introl eq_refl)) Hin) as (_ & A). destruct (laid_inside _ _ (Hch d (or_intror Hd)) Hy) as (B & _).
      eapply pt_le_trans'; [exact A|]. eapply pt_le_trans'; [exact Hf|exact B].
    - apply (IHc (fun d Hd => Hch d (or_intror Hd)) Hr a2 E2). lia. }
  intros t a x z. apply (W (S (length (preorder t)))). lia.
Qed.
(** Two leaves: the same, or one behind the other. *)
Lemma two_leaves t x y : laid_out t -> In x (preorder t) -> In y (preorder t) -> s_children x = [] -> s_children y = [] ->
  x = y \/ pt_le (n_end (s_node x)) (n_start (s_node y)) \/ pt_le (n_end (s_node y)) (n_start (s_node x)).
Proof.
  intros Hl Hx Hy Cx Cy. destruct (in_split _ _ Hx) as (a & z & E). rewrite E in Hy. apply in_app_or in Hy. destruct Hy as [Hy|[Hy|Hy]]; [|now left|].
  - right; right. destruct (in_split _ _ Hy) as (a1 & z1 & ->). rewrite <- app_assoc in E. cbn in E.
    pose proof (laid_after _ _ _ _ Hl E Cy) as H. rewrite Forall_forall in H. apply H. apply in_or_app. right. now left.
  - right; left. pose proof (laid_after _ _ _ _ Hl E Cx) as H. rewrite Forall_forall in H. now apply H.
Qed.

(** ** Pieces and nodes *)
Lemma spoken_split src l ns : spoken src l ns -> forall A n Z, ns = A ++ n :: Z ->
  exists a t z, l = a ++ t :: z /\ n = (s_kind t, s_node t) /\ spoken src z Z.
Proof.
  induction 1 as [|t r ns Hs Hr IH|t r ns Hn Hr IH]; intros A n Z E; [destruct A; discriminate| |].
  - destruct A as [|m A]; cbn in E; inversion E; subst; [exists [], t, r; auto|]. destruct (IH _ _ _ eq_refl) as (a & t' & z & -> & En & Hz). exists (t :: a), t', z. auto.
  - destruct (IH _ _ _ E) as (a & t' & z & -> & En & Hz). exists (t :: a), t', z. auto.
Qed.
Lemma spoken_in src l ns : spoken src l ns -> forall k n, In (k, n) ns -> exists t, In t l /\ s_kind t = k /\ s_node t = n.
Proof.
  induction 1 as [|t r ns Hs Hr IH|t r ns Hn Hr IH]; intros k n Hin; [destruct Hin| |].
  - destruct Hin as [E|Hin]; [inversion E; subst; exists t; split; [now left|auto]|]. destruct (IH _ _ Hin) as (t' & H1 & H2). exists t'. split; [now right|exact H2].
  - destruct (IH _ _ Hin) as (t' & H1 & H2). exists t'. split; [now right|exact H2].
Qed.
Lemma piece_cap p c : In c (cap_piece p) -> exists k, In (k, c_node c) (piece_nodes p) /\
  (c_name c = CJustId -> k = "identifier"%string) /\ (c_name c = CExpr -> k = "expression"%string).
Proof.
  destruct p as [n|h fs|p name|kw nots name|t|t]; cbn [cap_piece piece_nodes]; intros H.
  - destruct H as [<-|[]]. eexists. split; [now left|]. split; [discriminate|reflexivity].
  - destruct H as [<-|H]; [eexists; split; [now left|]; split; [reflexivity|discriminate]|].
    apply in_flat_map in H. destruct H as (a & Ha & H). unfold cap_access in H. apply in_app_or in H. destruct H as [H|[<-|[]]].
    + assert (In c [cap CDot (a_dot a); cap CPipe (a_dot a)]) as H' by (destruct (a_dot_first a); cbn in H |- *; tauto).
      exists "operator"%string. split; [right; apply in_flat_map; exists a; split; [exact Ha|]; left; destruct H' as [<-|[<-|[]]]; reflexivity|].
      destruct H' as [<-|[<-|[]]]; split; discriminate.
    + exists "identifier"%string. split; [right; apply in_flat_map; exists a; split; [exact Ha|]; right; now left|]. split; [reflexivity|discriminate].
  - destruct H as [<-|[<-|[]]]; eexists; (split; [|split]); [left; reflexivity|discriminate|discriminate|right; left; reflexivity|reflexivity|discriminate].
  - destruct H as [<-|H]; [eexists; split; [now left|]; split; discriminate|]. apply in_app_or in H. exists "identifier"%string.
    destruct H as [H|[<-|[]]]; [|split; [right; apply in_or_app; right; now left|split; [reflexivity|discriminate]]].
    apply in_map_iff in H. destruct H as (t & <- & Ht). split; [right; apply in_or_app; left; apply in_map_iff; exists t; auto|]. split; [reflexivity|discriminate].
  - destruct H as [<-|[]]. eexists. split; [now left|]. split; [reflexivity|discriminate].
  - destruct H as [<-|[]]. eexists. split; [now left|]. split; discriminate.
Qed.
Lemma pt_le_lt_eq a b : pt_le a b -> pt_lt a b \/ a = b.
Proof. destruct a, b. unfold pt_le, pt_lt. cbn. intros [H|[-> H]]; [left; lia|]. destruct (N.eq_dec col col0) as [->|Hn]; [right; reflexivity|left; right; lia]. Qed.

Lemma root_items tr x : In x (flat_map preorder (map snd (s_children tr))) -> In x (preorder tr).
Proof. destruct tr as [k n ch]. cbn [s_children]. intros H. rewrite items_of. apply in_or_app. now right. Qed.
Lemma in_chain ps h fs : In (h, fs) (chains ps) -> exists pre post, ps = pre ++ PChain h fs :: post.
Proof.
  unfold chains. intros H. apply in_flat_map in H. destruct H as (p & Hp & H). destruct p as [|h' fs'|? ?|? ? ?|?|?]; try (destruct H; fail).
  destruct H as [E|[]]. inversion E; subst. destruct (in_split _ _ Hp) as (a & z & ->). exists a, z. reflexivity.
Qed.
Section Depicted.
Variables (src : string) (tr : stree) (tp : tpl) (ps : list piece) (sts : list istmt).
Hypothesis Hd : depicts src tr tp ps sts.
Hypothesis Hpl : well_placed tr.

Lemma behind_cursor pre q post n cur A Z :
  ps = pre ++ q :: post -> piece_nodes q = A ++ ("identifier"%string, n) :: Z -> cursor_on tr cur n -> Forall (behind cur) (cap_pieces post).
Proof.
  intros -> Eq ((_ & Hon) & Hap). destruct Hpl as (Hl & Htk & _).
  pose proof (dp_spoken _ _ _ _ _ Hd) as Hsp. rewrite flat_map_app in Hsp. cbn [flat_map] in Hsp. rewrite Eq, <- app_assoc in Hsp. cbn [app] in Hsp. rewrite app_assoc in Hsp.
  destruct (spoken_split _ _ _ Hsp _ _ _ eq_refl) as (a & x & z & E & En & Hz). inversion En as [[Ek Em]]. subst n.
  assert (Hx : In x (preorder tr)) by (rewrite E; apply in_or_app; right; now left).
  unfold tokens_whole in Htk. rewrite Forall_forall in Htk. destruct (Htk _ Hx) as (Cx & _); [rewrite <- Ek; now left|].
  pose proof (laid_after _ _ _ _ Hl E Cx) as Hafter. rewrite Forall_forall in Hafter, Hap. apply Forall_forall. intros c Hc.
  unfold cap_pieces in Hc. apply in_flat_map in Hc. destruct Hc as (p & Hp & Hc). destruct (piece_cap _ _ Hc) as (k & Hk & K1 & K2).
  assert (Hin : In (k, c_node c) (Z ++ flat_map piece_nodes post)) by (apply in_or_app; right; apply in_flat_map; exists p; auto).
  destruct (spoken_in _ _ _ Hz _ _ Hin) as (y & Hy & Yk & Yn).
  assert (S : In k ["identifier"; "expression"; "statement_begin"]%string -> pt_lt cur (n_start (c_node c))).
  { intros HK. assert (Hne : n_start (s_node y) <> n_end (s_node x)).
    { apply Hap; [rewrite E; apply in_or_app; right; now right|now rewrite Yk]. }
    rewrite <- Yn. destruct (pt_le_lt_eq _ _ (Hafter _ Hy)) as [L|L]; [|now symmetry in L]. clear - L Hon. unfold pt_le, pt_lt in *. lia. }
  unfold behind. destruct (c_name c) eqn:Ec; try exact I; apply S; [rewrite (K1 eq_refl)|rewrite (K2 eq_refl)]; cbn; auto.
Qed.
Lemma spoken_node k n : In (k, n) (flat_map piece_nodes ps) -> exists x, In x (preorder tr) /\ s_kind x = k /\ s_node x = n.
Proof. intros H. exact (spoken_in _ _ _ (dp_spoken _ _ _ _ _ Hd) _ _ H). Qed.
Lemma head_node h fs : In (h, fs) (chains ps) -> exists x, In x (preorder tr) /\ s_kind x = "identifier"%string /\ s_node x = fst h.
Proof.
  intros H. destruct (in_chain _ _ _ H) as (pre & post & E). apply spoken_node. rewrite E. apply in_flat_map. exists (PChain h fs).
  split; [apply in_or_app; right; now left|now left].
Qed.
Lemma pieces_small : all_small (cap_pieces ps).
Proof.
  unfold all_small. apply Forall_forall. intros c Hc. unfold cap_pieces in Hc. apply in_flat_map in Hc. destruct Hc as (p & Hp & Hc).
  destruct (piece_cap _ _ Hc) as (k & Hk & _). destruct (spoken_node k (c_node c)) as (x & Hx & _ & <-); [apply in_flat_map; exists p; auto|].
  destruct Hpl as (_ & _ & Hs). unfold small_tree in Hs. rewrite Forall_forall in Hs. now apply Hs.
Qed.

(** ** Definitions and nodes *)
Lemma heard_id l ms : heard src l ms -> forall n, In (SgWord DkId n) ms -> exists x, In x l /\ s_kind x = "identifier"%string /\ s_node x = n.
Proof.
  induction 1 as [|t k r ss Hs Hr IH|t r ss Hn Hr IH]; intros n Hin; [destruct Hin| |].
  - destruct Hin as [E|Hin]; [inversion E; subst; exists t; split; [now left|]; inversion Hs; auto|].
    destruct (IH _ Hin) as (x & H1 & H2). exists x. split; [now right|exact H2].
  - destruct (IH _ Hin) as (x & H1 & H2). exists x. split; [now right|exact H2].
Qed.
Lemma heard_tail l ms : heard src l ms -> forall b e, ~ In (SgTail b e) ms.
Proof.
  induction 1 as [|t k r ss Hs Hr IH|t r ss Hn Hr IH]; intros b e Hin; [destruct Hin| |now apply (IH b e)].
  destruct Hin as [E|Hin]; [discriminate|now apply (IH b e)].
Qed.
Lemma told_id l ss : told src l ss -> forall n, In (SgWord DkId n) ss -> exists x, In x (flat_map preorder l) /\ s_kind x = "identifier"%string /\ s_node x = n.
Proof.
  induction 1 as [|n b mid e f1 f2 r ms ss Hi Hh Hr IH|t r ms ss Hi Hh Hr IH]; intros m Hin; [destruct Hin| |].
  - apply in_app_or in Hin. destruct Hin as [Hin|[Hin|Hin]]; [|discriminate|].
    + destruct (heard_id _ _ Hh _ Hin) as (x & H1 & H2). exists x. split; [|exact H2]. cbn [flat_map preorder]. right. apply in_or_app. left.
      cbn [flat_map snd preorder app]. right. rewrite flat_map_app. apply in_or_app. now left.
    + destruct (IH _ Hin) as (x & H1 & H2). exists x. split; [|exact H2]. cbn [flat_map]. apply in_or_app. now right.
  - apply in_app_or in Hin. destruct Hin as [Hin|Hin].
    + destruct (heard_id _ _ Hh _ Hin) as (x & H1 & H2). exists x. split; [|exact H2]. cbn [flat_map]. apply in_or_app. now left.
    + destruct (IH _ Hin) as (x & H1 & H2). exists x. split; [|exact H2]. cbn [flat_map]. apply in_or_app. now right.
Qed.
Lemma told_tail l ss : told src l ss -> forall b e, In (SgTail b e) ss -> exists x, In x (flat_map preorder l) /\ s_kind x = "statement_begin"%string /\ s_node x = b.
Proof.
  induction 1 as [|n b mid e f1 f2 r ms ss Hi Hh Hr IH|t r ms ss Hi Hh Hr IH]; intros b' e' Hin; [destruct Hin| |].
  - apply in_app_or in Hin. destruct Hin as [Hin|[Hin|Hin]].
    + destruct (heard_tail _ _ Hh _ _ Hin).
    + inversion Hin; subst. exists (SN "statement_begin" b' []). split; [|auto]. cbn [flat_map preorder]. right. apply in_or_app. left. cbn [flat_map snd preorder app]. now left.
    + destruct (IH _ _ Hin) as (x & H1 & H2). exists x. split; [|exact H2]. cbn [flat_map]. apply in_or_app. now right.
  - apply in_app_or in Hin. destruct Hin as [Hin|Hin]; [destruct (heard_tail _ _ Hh _ _ Hin)|].
    destruct (IH _ _ Hin) as (x & H1 & H2). exists x. split; [|exact H2]. cbn [flat_map]. apply in_or_app. now right.
Qed.
End Depicted.

(** A definition among the words of a template: its name, behind it the end of
    the statement it is in, and behind that the statement that ends its scope. *)
Definition signed (until : point) (ss : list sign) (d : decl) : Prop :=
  exists A n B b1 e1 C, ss = A ++ SgWord DkId n :: B ++ SgTail b1 e1 :: C /\ dc_start d = n_start n /\ dc_end d = n_end n /\
    (dc_until d = until \/ exists b e, In (SgTail b e) C /\ dc_until d = n_start b).
Lemma end_signs_tail et Q : In (SgTail (et_b et) (et_e et)) (end_signs et ++ Q).
Proof. apply in_or_app. left. unfold end_signs. right. apply in_or_app. right. now left. Qed.
(** Names and ends of blocks among the words. *)
Definition closed_in (ms : list SpecScope2.mark) (ss : list sign) : Prop :=
  forall p, In (MClose p) ms -> exists b e, In (SgTail b e) ss /\ p = n_start b.
Definition bears (ms : list SpecScope2.mark) (ss : list sign) : Prop :=
  forall A k t r, ms = A ++ MName k t :: r ->
    exists P B b e C, ss = P ++ SgWord DkId (fst t) :: B ++ SgTail b e :: C /\ closed_in r C.
Lemma closed_app m1 m2 s1 s2 : closed_in m1 s1 -> closed_in m2 s2 -> closed_in (m1 ++ m2) (s1 ++ s2).
Proof.
  intros H1 H2 p Hp. apply in_app_or in Hp. destruct Hp as [Hp|Hp]; [destruct (H1 p Hp) as (b & e & Hb & E)|destruct (H2 p Hp) as (b & e & Hb & E)];
    exists b, e; (split; [apply in_or_app; auto|exact E]).
Qed.
Lemma app_split {A} (m1 : list A) : forall m2 a x r, m1 ++ m2 = a ++ x :: r ->
  (exists r1, m1 = a ++ x :: r1 /\ r = r1 ++ m2) \/ exists a2, m2 = a2 ++ x :: r.
Proof.
  induction m1 as [|y m1 IH]; intros m2 a x r E; [right; now exists a|]. destruct a as [|z a]; cbn [app] in E; inversion E; subst.
  - left. exists m1. auto.
  - match goal with X : m1 ++ m2 = _ |- _ => destruct (IH _ _ _ _ X) as [(r1 & -> & ->)|H] end; [left; exists r1; auto|now right].
Qed.
Lemma bears_app m1 m2 s1 s2 : bears m1 s1 -> bears m2 s2 -> closed_in m2 s2 -> bears (m1 ++ m2) (s1 ++ s2).
Proof.
  intros H1 H2 Hc A k t r E. destruct (app_split _ _ _ _ _ E) as [(r1 & E1 & ->)|(a2 & E2)].
  - destruct (H1 _ _ _ _ E1) as (P & B & b & e & C & -> & HC). exists P, B, b, e, (C ++ s2). split; [repeat (cbn [app]; rewrite <- ?app_assoc); reflexivity|]. now apply closed_app.
  - destruct (H2 _ _ _ _ E2) as (P & B & b & e & C & -> & HC). exists (s1 ++ P), B, b, e, C. split; [now rewrite <- app_assoc|exact HC].
Qed.
Lemma bears_stmt ms w b e : (forall p, ~ In (MClose p) ms) -> (forall k t, In (MName k t) ms -> In (SgWord DkId (fst t)) w) -> bears ms (w ++ [SgTail b e]).
Proof.
  intros Hc Hn A k t r ->. destruct (in_split _ _ (Hn k t ltac:(apply in_or_app; right; now left))) as (P & B & ->). exists P, B, b, e, [].
  split; [now rewrite <- app_assoc|]. intros p Hp. exfalso. apply (Hc p). apply in_or_app. right. now right.
Qed.
Lemma bears_none ms ss : (forall k t, ~ In (MName k t) ms) -> bears ms ss.
Proof. intros H A k t r ->. exfalso. apply (H k t). apply in_or_app. right. now left. Qed.
Lemma closed_none ms ss : (forall p, ~ In (MClose p) ms) -> closed_in ms ss.
Proof. intros H p Hp. now destruct (H p). Qed.
Lemma opens_only es m : In m (opens es) -> m = MOpen.
Proof. unfold opens. intros H. apply in_flat_map in H. destruct H as ([t|n|n] & _ & H); cbn in H; [destruct H|destruct H|destruct H as [<-|[]]; reflexivity]. Qed.
Lemma listed_marks k es : forall live m, In m (listed k live es) -> m = MOpen \/ exists t, m = MName k t /\ In (NId t) es.
Proof.
  induction es as [|[t|n|n] es IH]; intros live m H; cbn [listed] in H; [destruct H| | |].
  - apply in_app_or in H. destruct H as [H|H]; [destruct live; [|destruct H]; destruct H as [<-|[]]; right; exists t; split; [reflexivity|now left]|].
    destruct (IH _ _ H) as [->|(x & -> & Hx)]; [now left|right; exists x; split; [reflexivity|now right]].
  - destruct (IH _ _ H) as [->|(x & -> & Hx)]; [now left|right; exists x; split; [reflexivity|now right]].
  - destruct H as [<-|H]; [now left|]. destruct (IH _ _ H) as [->|(x & -> & Hx)]; [now left|right; exists x; split; [reflexivity|now right]].
Qed.
Lemma binds_signs bs t : In (NId t) (flat_binds bs) -> In (SgWord DkId (fst t)) (flat_map bind_signs bs).
Proof.
  unfold flat_binds. intros H. apply in_flat_map in H. destruct H as (b & Hb & H). apply in_flat_map. exists b. split; [exact Hb|]. unfold bind_signs.
  destruct H as [H|H]; [inversion H; subst; now left|right]. apply in_map_iff. exists (NId t). auto.
Qed.
Lemma header_bears h m : In m (header_marks h) -> m = MOpen \/ exists k t, m = MName k t /\ In (SgWord DkId (fst t)) (header_signs h).
Proof.
  destruct h as [kw key others es|kw bs|kw name pl|kw name es|kw es]; cbn [header_marks header_signs]; intros H.
  - destruct H as [<-|[<-|H]]; [now left| |left; now apply opens_only in H]. right. exists ForLoopKey, key. split; [reflexivity|]. right. now left.
  - destruct H as [<-|H]; [now left|]. destruct (listed_marks _ _ _ _ H) as [->|(t & -> & Ht)]; [now left|right]. exists WithVariable, t. split; [reflexivity|]. right. now apply binds_signs.
  - destruct H as [<-|[<-|H]]; [|now left|].
    + right. exists MacroName, name. split; [reflexivity|]. right. now left.
    + destruct (listed_marks _ _ _ _ H) as [->|(t & -> & Ht)]; [now left|right]. exists MacroParameter, t. split; [reflexivity|]. right. right. now apply binds_signs.
  - destruct H as [<-|[<-|H]]; [now left| |left; now apply opens_only in H]. right. exists TemplateBlock, name. split; [reflexivity|]. right. now left.
  - destruct H as [<-|H]; [now left|left; now apply opens_only in H].
Qed.
Lemma block_bears et m s : bears m s -> closed_in m s -> bears (MClose (et_at et) :: m) (end_signs et ++ s) /\ closed_in (MClose (et_at et) :: m) (end_signs et ++ s).
Proof.
  intros Hb Hc. split.
  - apply (bears_app [MClose (et_at et)]); [|exact Hb|exact Hc]. apply bears_none. intros k t [H|[]]. discriminate H.
  - intros p [E|Hp]; [injection E as <-; exists (et_b et), (et_e et); split; [apply end_signs_tail|reflexivity]|].
    destruct (Hc p Hp) as (b & e & H1 & H2). exists b, e. split; [apply in_or_app; now right|exact H2].
Qed.
Lemma marks_signs tp : bears (SpecScope2.marks tp) (signs tp) /\ closed_in (SpecScope2.marks tp) (signs tp).
Proof.
  induction tp as [|es r (IH1 & IH2)|es b e r (IH1 & IH2)|kw x es b e r (IH1 & IH2)|kw es b e r (IH1 & IH2)|h b e body (IHb1 & IHb2) et r (IH1 & IH2)|kw x b e body (IHb1 & IHb2) et r (IH1 & IH2)];
    cbn [SpecScope2.marks signs].
  - split; [now apply bears_none|now apply closed_none].
  - assert (O1 : forall k t, ~ In (MName k t) (opens es)) by (intros k t H; now apply opens_only in H). assert (O2 : forall p, ~ In (MClose p) (opens es)) by (intros p H; now apply opens_only in H).
    split; [apply bears_app; [now apply bears_none|exact IH1|exact IH2]|apply closed_app; [now apply closed_none|exact IH2]].
  - assert (O1 : forall k t, ~ In (MName k t) (opens es)) by (intros k t H; now apply opens_only in H). assert (O2 : forall p, ~ In (MClose p) (opens es)) by (intros p H; now apply opens_only in H).
    replace (map noise_sign es ++ SgTail b e :: signs r) with ((map noise_sign es ++ [SgTail b e]) ++ signs r) by now rewrite <- app_assoc.
    split; [apply bears_app; [now apply bears_none|exact IH1|exact IH2]|apply closed_app; [now apply closed_none|exact IH2]].
  - assert (O2 : forall p, ~ In (MClose p) (MName SetVariable x :: opens es)) by (intros p [H|H]; [discriminate H|now apply opens_only in H]).
    assert (O1 : forall k t, In (MName k t) (MName SetVariable x :: opens es) -> In (SgWord DkId (fst t)) (SgWord DkDef kw :: SgWord DkId (fst x) :: map noise_sign es)).
    { intros k t [H|H]; [inversion H; subst; right; now left|now apply opens_only in H]. }
    replace (SgWord DkDef kw :: SgWord DkId (fst x) :: map noise_sign es ++ SgTail b e :: signs r) with (((SgWord DkDef kw :: SgWord DkId (fst x) :: map noise_sign es) ++ [SgTail b e]) ++ signs r)
      by now rewrite <- app_assoc.
    change (MName SetVariable x :: opens es ++ SpecScope2.marks r) with ((MName SetVariable x :: opens es) ++ SpecScope2.marks r).
    split; [apply bears_app; [now apply bears_stmt|exact IH1|exact IH2]|apply closed_app; [now apply closed_none|exact IH2]].
  - assert (O1 : forall k t, ~ In (MName k t) (MOpen :: opens es)) by (intros k t [H|H]; [discriminate H|now apply opens_only in H]).
    assert (O2 : forall p, ~ In (MClose p) (MOpen :: opens es)) by (intros p [H|H]; [discriminate H|now apply opens_only in H]).
    replace (SgWord DkScope (fst kw) :: map noise_sign es ++ SgTail b e :: signs r) with (((SgWord DkScope (fst kw) :: map noise_sign es) ++ [SgTail b e]) ++ signs r)
      by now rewrite <- app_assoc.
    change (MOpen :: opens es ++ SpecScope2.marks r) with ((MOpen :: opens es) ++ SpecScope2.marks r).
    split; [apply bears_app; [now apply bears_none|exact IH1|exact IH2]|apply closed_app; [now apply closed_none|exact IH2]].
  - assert (O2 : forall p, ~ In (MClose p) (header_marks h)) by (intros p H; apply header_bears in H; destruct H as [H|(k & t & H & _)]; discriminate H).
    assert (O1 : forall k t, In (MName k t) (header_marks h) -> In (SgWord DkId (fst t)) (header_signs h)).
    { intros k t H. apply header_bears in H. destruct H as [H|(k' & t' & H & Hi)]; [discriminate H|]. now inversion H; subst. }
    replace (header_signs h ++ SgTail b e :: signs body ++ end_signs et ++ signs r) with ((header_signs h ++ [SgTail b e]) ++ signs body ++ end_signs et ++ signs r) by now rewrite <- app_assoc.
    destruct (block_bears et _ _ IH1 IH2) as (E1 & E2). pose proof (bears_app _ _ _ _ IHb1 E1 E2) as B1. pose proof (closed_app _ _ _ _ IHb2 E2) as B2.
    split; [apply bears_app; [now apply bears_stmt|exact B1|exact B2]|apply closed_app; [now apply closed_none|exact B2]].
  - assert (O2 : forall p, ~ In (MClose p) [MName SetVariable x]) by (intros p [H|[]]; discriminate H).
    assert (O1 : forall k t, In (MName k t) [MName SetVariable x] -> In (SgWord DkId (fst t)) [SgWord DkDef kw; SgWord DkId (fst x)]).
    { intros k t [H|[]]. inversion H; subst. right. now left. }
    destruct (block_bears et _ _ IH1 IH2) as (E1 & E2). pose proof (bears_app _ _ _ _ IHb1 E1 E2) as B1. pose proof (closed_app _ _ _ _ IHb2 E2) as B2.
    pose proof (bears_stmt _ _ b e O2 O1) as S1. split; [exact (bears_app _ _ _ _ S1 B1 B2)|].
    exact (closed_app [MName SetVariable x] _ [SgWord DkDef kw; SgWord DkId (fst x); SgTail b e] _ (closed_none _ _ O2) B2).
Qed.
Lemma closing_in ms : forall d p, closing d ms = Some p -> In (MClose p) ms.
Proof.
  induction ms as [|[|q|k t] ms IH]; intros d p H; cbn [closing] in H; [discriminate|right; eauto| |right; eauto].
  destruct d; [inversion H; subst; now left|right; eauto].
Qed.
Lemma extents_in u ms : forall o d, In d (extents u o ms) ->
  exists A k t r, ms = A ++ MName k t :: r /\ dc_start d = n_start (fst t) /\ dc_end d = n_end (fst t) /\ (dc_until d = u \/ In (MClose (dc_until d)) r).
Proof.
  induction ms as [|[|q|k t] ms IH]; intros o d H; cbn [extents] in H; [destruct H| | |].
  - destruct (IH _ _ H) as (A & k & t & r & -> & R). exists (MOpen :: A), k, t, r. auto.
  - destruct (IH _ _ H) as (A & k & t & r & -> & R). exists (MClose q :: A), k, t, r. auto.
  - destruct H as [<-|H].
    + exists [], k, t, ms. split; [reflexivity|]. split; [reflexivity|]. split; [reflexivity|]. cbn [decl_of dc_until]. unfold reach_of. destruct o; [now left|].
      destruct (closing 0 ms) eqn:E; [right; now apply closing_in in E|now left].
    + destruct (IH _ _ H) as (A & k' & t' & r & -> & R). exists (MName k t :: A), k', t', r. auto.
Qed.
Lemma tallied_signed tp u d : In d (tallied u tp) -> signed u (signs tp) d.
Proof.
  intros H. destruct (extents_in _ _ _ _ H) as (A & k & t & r & E & H1 & H2 & H3). destruct (marks_signs tp) as (Hb & _).
  destruct (Hb _ _ _ _ E) as (P & B & b & e & C & Es & Hc). exists P, (fst t), B, b, e, C. split; [exact Es|]. split; [exact H1|]. split; [exact H2|].
  destruct H3 as [H3|H3]; [now left|right]. destruct (Hc _ H3) as (b' & e' & Hi & E'). exists b', e'. auto.
Qed.
(** The order of words is the order of nodes. *)
Lemma told_order src l ss : told src l ss -> forall A n B b1 e1 C b e, ss = A ++ SgWord DkId n :: B ++ SgTail b1 e1 :: C -> In (SgTail b e) C ->
  exists p x q y r, flat_map preorder l = p ++ x :: q ++ y :: r /\ s_kind x = "identifier"%string /\ s_node x = n /\ s_kind y = "statement_begin"%string /\ s_node y = b.
Proof.
  induction 1 as [|m b0 mid e0 f1 f2 r ms ss Hi Hh Hr IH|t r ms ss Hi Hh Hr IH]; intros A n B b1 e1 C b e E HC; [destruct A; discriminate| |]; cbn [flat_map].
  - destruct (app_cons_split _ _ _ _ _ E) as [(z1 & E1 & E2)|(a2 & -> & E2)].
    + destruct (heard_id _ _ _ Hh n) as (x & Hx & Hk & Hn); [rewrite E1; apply in_or_app; right; now left|].
      assert (HC' : In (SgTail b e) ss).
      { symmetry in E2. destruct (app_cons_split _ _ _ _ _ E2) as [(z2 & E3 & E4)|(a3 & _ & E4)].
        - exfalso. apply (heard_tail _ _ _ Hh b1 e1). rewrite E1. apply in_or_app. right. right. rewrite E3. apply in_or_app. right. now left.
        - destruct a3 as [|s0 a3]; cbn [app] in E4; inversion E4; subst; [exact HC|]. apply in_or_app. right. now right. }
      destruct (told_tail _ _ _ Hr _ _ HC') as (y & Hy & Ky & Ny). destruct (in_split _ _ Hy) as (p2 & r2 & ->).
      set (st := SN "statement" m ((f1, SN "statement_begin" b0 []) :: mid ++ [(f2, SN "statement_end" e0 [])])).
      assert (Hst : In x (preorder st)).
      { cbn [st preorder flat_map snd app]. right. right. rewrite flat_map_app. apply in_or_app. now left. }
      destruct (in_split _ _ Hst) as (p1 & r1 & ->). exists p1, x, (r1 ++ p2), y, r2. split; [now rewrite <- !app_assoc|auto].
    + destruct a2 as [|s0 a2]; cbn [app] in E2; inversion E2; subst.
      destruct (IH _ _ _ _ _ _ _ _ eq_refl HC) as (p & x & q & y & r0 & E3 & H). rewrite E3.
      exists (preorder (SN "statement" m ((f1, SN "statement_begin" b0 []) :: mid ++ [(f2, SN "statement_end" e0 [])])) ++ p), x, q, y, r0. split; [now rewrite <- app_assoc|exact H].
  - destruct (app_cons_split _ _ _ _ _ E) as [(z1 & E1 & E2)|(a2 & -> & E2)].
    + destruct (heard_id _ _ _ Hh n) as (x & Hx & Hk & Hn); [rewrite E1; apply in_or_app; right; now left|].
      assert (HC' : In (SgTail b e) ss).
      { symmetry in E2. destruct (app_cons_split _ _ _ _ _ E2) as [(z2 & E3 & E4)|(a3 & _ & E4)].
        - exfalso. apply (heard_tail _ _ _ Hh b1 e1). rewrite E1. apply in_or_app. right. right. rewrite E3. apply in_or_app. right. now left.
        - rewrite E4. apply in_or_app. right. now right. }
      destruct (told_tail _ _ _ Hr _ _ HC') as (y & Hy & Ky & Ny). destruct (in_split _ _ Hy) as (p2 & r2 & ->).
      destruct (in_split _ _ Hx) as (p1 & r1 & ->). exists p1, x, (r1 ++ p2), y, r2. split; [now rewrite <- !app_assoc|auto].
    + destruct (IH _ _ _ _ _ _ _ _ E2 HC) as (p & x & q & y & r0 & E3 & H). rewrite E3.
      exists (preorder t ++ p), x, q, y, r0. split; [now rewrite <- app_assoc|exact H].
Qed.
