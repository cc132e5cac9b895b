(** * PQueries12: cursors in the template references of a syntax tree. *)
From Verif Require Import Base RString Utf8 Rope Types Captures MTemplates MDefinition MObjects MLspFiles MSearchErrors MLspTask MChannels MQueries.
From Verif Require Import SpecFiles SpecScope SpecScope2 SpecObjects SpecObjects2 SpecLint SpecNav SpecQueries SpecQueries2 SpecQueries4 SpecChannels SpecServer SpecClient SpecQueries5 SpecQueries6.
From Verif Require Import PUtf8 PText PFiles PLint PLint2 PLint3 PNode PObjects PNav PNav2 PNav3 PQueries PQueries2 PQueries3 PQueries4 PQueries6 PQueries7 PQueries9 PQueries10 PChannels PChannels2 PChannels3 PServer PClient PClient2 PQueries11.

Notation beneath l := (flat_map (fun c : string * stree => preorder (snd c)) l).

Lemma pairs_app {A} (R : A -> A -> Prop) l1 l2 : ForallOrdPairs R (l1 ++ l2) ->
  ForallOrdPairs R l1 /\ ForallOrdPairs R l2 /\ forall x y, In x l1 -> In y l2 -> R x y.
Proof.
  induction l1 as [|a l1 IH]; cbn [app]; intros H; [split; [constructor|]; split; [exact H|intros x y []]|].
  inversion H as [|? ? Ha Hr]; subst. destruct (IH Hr) as (H1 & H2 & H3). apply Forall_app in Ha. destruct Ha as (Ha1 & Ha2).
  split; [now constructor|]. split; [exact H2|]. intros x y [<-|Hx] Hy; [|now apply H3]. rewrite Forall_forall in Ha2. now apply Ha2.
Qed.
Lemma linked_split src l sts : linked src l sts -> forall i, In i sts ->
  exists l1 n b mid e f1 f2 l2 pre post,
    l = l1 ++ SN "statement" n ((f1, SN "statement_begin" b []) :: mid ++ [(f2, SN "statement_end" e [])]) :: l2 /\
    links src n mid (Some i) /\ sts = pre ++ i :: post /\ linked src l1 pre /\ linked src l2 post.
Proof.
  induction 1 as [|n b mid e f1 f2 r o sts Hi Hl Hr IH|t r sts Hi Hr IH]; intros i Hin; [destruct Hin| |].
  - destruct o as [st|].
    + destruct Hin as [<-|Hin].
      * exists [], n, b, mid, e, f1, f2, r, [], sts. repeat split; auto. constructor.
      * destruct (IH _ Hin) as (l1 & n' & b' & mid' & e' & f1' & f2' & l2 & pre & post & -> & Hk & -> & H1 & H2).
        eexists (_ :: l1), n', b', mid', e', f1', f2', l2, (st :: pre), post. split; [reflexivity|]. split; [exact Hk|]. split; [reflexivity|]. split; [|exact H2].
        exact (LdStmt _ _ _ _ _ _ _ _ _ _ Hi Hl H1).
    + destruct (IH _ Hin) as (l1 & n' & b' & mid' & e' & f1' & f2' & l2 & pre & post & -> & Hk & -> & H1 & H2).
      eexists (_ :: l1), n', b', mid', e', f1', f2', l2, pre, post. split; [reflexivity|]. split; [exact Hk|]. split; [reflexivity|]. split; [|exact H2].
      exact (LdStmt _ _ _ _ _ _ _ _ _ _ Hi Hl H1).
  - destruct (IH _ Hin) as (l1 & n' & b' & mid' & e' & f1' & f2' & l2 & pre & post & -> & Hk & -> & H1 & H2).
    eexists (_ :: l1), n', b', mid', e', f1', f2', l2, pre, post. split; [reflexivity|]. split; [exact Hk|]. split; [reflexivity|]. split; [|exact H2].
    now constructor.
Qed.
(** Captures of a statement are nodes of its tree. *)
Lemma kid_of f x (l : kids) : In (f, x) l -> In x (beneath l).
Proof. intros H. apply in_flat_map. exists (f, x). split; [exact H|apply self_inside]. Qed.
Lemma links_nodes src n l o : links src n l o -> forall st, o = Some st -> forall c, In c (concat (cap_stmt st)) ->
  c_node c = n \/ exists x, In x (beneath l) /\ s_node x = c_node c.
Proof.
  assert (K : forall f k m g l m', m = m' -> In (f, SN k m g) l -> exists x, In x (beneath l) /\ s_node x = m').
  { intros f k m g l' m' <- H. exists (SN k m g). split; [exact (kid_of _ _ _ H)|reflexivity]. }
  assert (O : forall kind m z l, In m (of_kind kind z) -> (forall y, In y z -> In y l) -> exists x, In x (beneath l) /\ s_node x = m).
  { intros kind m z l' H Hs. apply of_kind_in in H. destruct H as (f & x & Hx & _ & Hn). exists x. split; [exact (kid_of f _ _ (Hs _ Hx))|exact Hn]. }
  intros H st -> c Hc. inversion H; subst; cbn [cap_stmt] in Hc.
  - cbn in Hc. destruct Hc as [<-|[<-|[<-|[]]]]; [now left|right|right].
    + eapply K; [reflexivity|]. apply in_or_app. right. now left.
    + eapply (O "string"%string); [match goal with E : of_kind "string" _ = _ |- _ => rewrite E end; now left|]. intros y Hy. apply in_or_app. right. now right.
  - apply in_concat in Hc. destruct Hc as (m & Hm & Hc). apply in_map_iff in Hm. destruct Hm as (t & <- & Ht). destruct Hc as [<-|[<-|[<-|[]]]]; [now left|right|right].
    + eapply K; [reflexivity|]. apply in_or_app. right. now left.
    + eapply (O "string"%string); [match goal with E : of_kind "string" _ = _ |- _ => rewrite E end; exact (in_map fst _ _ Ht)|]. intros y Hy. apply in_or_app. right. now right.
  - apply in_concat in Hc. destruct Hc as (m & Hm & Hc). apply in_map_iff in Hm. destruct Hm as (i & <- & Hi). cbn [app] in Hc.
    destruct Hc as [<-|[<-|[<-|[<-|Hc]]]]; [now left|right|right|right|right].
    + eapply K; [reflexivity|]. apply in_or_app. right. now left.
    + eapply K; [reflexivity|]. apply in_or_app. right. right. apply in_or_app. right. now left.
    + eapply K; [reflexivity|]. apply in_or_app. right. right. apply in_or_app. right. right. apply in_or_app. right. now left.
    + destruct i as [i|]; [|destruct Hc]. destruct Hc as [<-|[]]. eapply (O "identifier"%string).
      * match goal with E : of_kind "identifier" _ = map fst ?ids |- _ => rewrite E; destruct ids end; [destruct Hi as [Hi|[]]; discriminate|].
        apply in_map_iff in Hi. destruct Hi as (j & Ej & Hj). inversion Ej; subst. exact (in_map fst (_ :: _) _ Hj).
      * intros y Hy. apply in_or_app. right. right. apply in_or_app. right. right. apply in_or_app. right. now right.
  - cbn in Hc. destruct Hc as [<-|[<-|[<-|[]]]]; [now left|right|right].
    + eapply K; [reflexivity|]. apply in_or_app. right. now left.
    + eapply K; [reflexivity|]. apply in_or_app. right. right. apply in_or_app. right. now left.
  - apply in_concat in Hc. destruct Hc as (m & Hm & Hc). apply in_map_iff in Hm. destruct Hm as (a' & <- & Ha). cbn [app] in Hc.
    destruct Hc as [<-|[<-|[<-|Hc]]]; [now left|right|right|right].
    + eapply K; [reflexivity|]. apply in_or_app. right. now left.
    + eapply K; [reflexivity|]. apply in_or_app. right. right. apply in_or_app. right. now left.
    + assert (Hw : exists x, In x (beneath (a ++ (f, SN "keyword" kw g) :: b ++ (f1, SN "string" (fst t) g1) :: c0 ++ (f2, SN "identifier" w g2) :: z)) /\ s_node x = w).
      { eapply K; [reflexivity|]. apply in_or_app. right. right. apply in_or_app. right. right. apply in_or_app. right. now left. }
      change (In a' (map (fun x : node * string => (Some w, Some x)) (i :: ids) ++ [(None, Some (w, "as"%string))])) in Ha. apply in_app_or in Ha. destruct Ha as [Ha|[<-|[]]].
      * apply in_map_iff in Ha. destruct Ha as (x & <- & Hx). cbn [fst snd app] in Hc. destruct Hc as [<-|[<-|[]]]; [exact Hw|].
        eapply (O "identifier"%string).
        { match goal with E : of_kind "identifier" z = _ |- _ => rewrite E end. cbn [cap c_node]. exact (in_map fst (i :: ids) x Hx). }
        intros y Hy. apply in_or_app. right. right. apply in_or_app. right. right. apply in_or_app. right. now right.
      * cbn [fst snd app] in Hc. destruct Hc as [<-|[]]. exact Hw.
Qed.
Lemma linked_nodes src l sts : linked src l sts -> forall st c, In st sts -> In c (concat (cap_stmt st)) ->
  exists x, In x (flat_map preorder l) /\ s_node x = c_node c.
Proof.
  intros H st c Hst Hc. destruct (linked_split _ _ _ H _ Hst) as (l1 & n & b & mid & e & f1 & f2 & l2 & pre & post & -> & Hk & _).
  destruct (links_nodes _ _ _ _ Hk _ eq_refl _ Hc) as [E|(x & Hx & E)].
  - exists (SN "statement" n ((f1, SN "statement_begin" b []) :: mid ++ [(f2, SN "statement_end" e [])])). split; [|symmetry; exact E]. apply in_flat_map. eexists. split; [apply in_or_app; right; now left|]. apply self_inside.
  - exists x. split; [|exact E]. apply in_flat_map. eexists. split; [apply in_or_app; right; now left|].
    cbn [preorder]. right. cbn [flat_map snd preorder app]. right. rewrite flat_map_app. apply in_or_app. now left.
Qed.
(** A quoted name of a statement whose words lie in order. *)
Definition in_order_at (l : kids) : Prop := ForallOrdPairs (fun a b => pt_le (n_end (s_node (snd a))) (n_start (s_node (snd b)))) l.
Definition each_whole (l : kids) : Prop := Forall (fun c => pt_le (n_start (s_node (snd c))) (n_end (s_node (snd c)))) l.
Lemma lt_after cur a b : pt_lt cur a -> pt_le a b -> pt_lt cur b.
Proof. unfold pt_lt, pt_le. lia. Qed.
Lemma before_lt cur a b : pt_le a b -> pt_lt b cur -> pt_lt a cur.
Proof. unfold pt_lt, pt_le. lia. Qed.
Lemma lt_le' a b : pt_lt a b -> pt_le a b.
Proof. unfold pt_lt, pt_le. lia. Qed.
Lemma order_split (a : kids) x z : in_order_at (a ++ x :: z) -> each_whole (a ++ x :: z) ->
  (forall y, In y a -> pt_le (n_start (s_node (snd y))) (n_end (s_node (snd y))) /\ pt_le (n_end (s_node (snd y))) (n_start (s_node (snd x)))) /\
  (forall y, In y z -> pt_le (n_end (s_node (snd x))) (n_start (s_node (snd y)))) /\ in_order_at z /\ each_whole z.
Proof.
  intros H W. destruct (pairs_app _ _ _ H) as (_ & Hz & Hp). apply Forall_app in W. destruct W as (W1 & W2). inversion W2 as [|? ? _ W3]; subst. inversion Hz as [|? ? H1 H2]; subst.
  split; [|split; [|split; [exact H2|exact W3]]].
  - intros y Hy. rewrite Forall_forall in W1. split; [now apply W1|]. apply Hp; [exact Hy|now left].
  - rewrite Forall_forall in H1. exact H1.
Qed.
Lemma of_kind_app kind a z : of_kind kind (a ++ z) = of_kind kind a ++ of_kind kind z.
Proof. unfold of_kind. apply flat_map_app. Qed.
Lemma of_kind_mid kind (z : kids) : forall A n Z, of_kind kind z = A ++ n :: Z ->
  exists z1 f x z2, z = z1 ++ (f, x) :: z2 /\ s_node x = n /\ of_kind kind z1 = A /\ of_kind kind z2 = Z.
Proof.
  induction z as [|(f, x) z IH]; intros A n Z E; [destruct A; discriminate|]. cbn [of_kind flat_map snd] in E. fold (of_kind kind z) in E.
  destruct (String.eqb (s_kind x) kind) eqn:Ek; cbn [app] in E.
  - destruct A as [|m A]; cbn in E; inversion E; subst; [exists [], f, x, z; auto|].
    destruct (IH _ _ _ H1) as (z1 & f' & x' & z2 & -> & En & E1 & E2). exists ((f, x) :: z1), f', x', z2. split; [reflexivity|]. split; [exact En|]. split; [|exact E2].
    cbn [of_kind flat_map snd]. rewrite Ek. fold (of_kind kind z1). now rewrite E1.
  - destruct (IH _ _ _ E) as (z1 & f' & x' & z2 & -> & En & E1 & E2). exists ((f, x) :: z1), f', x', z2. split; [reflexivity|]. split; [exact En|]. split; [|exact E2].
    cbn [of_kind flat_map snd]. rewrite Ek. exact E1.
Qed.
Lemma of_kind_after cur kind (z : kids) : (forall y, In y z -> pt_lt cur (n_start (s_node (snd y)))) -> Forall (after cur) (of_kind kind z).
Proof. intros H. apply Forall_forall. intros n Hn. apply of_kind_in in Hn. destruct Hn as (f & x & Hx & _ & <-). exact (H _ Hx). Qed.
Lemma links_cursor src n mid i r cur : links src n mid (Some i) -> in_order_at mid -> each_whole mid ->
  Forall (fun c => pt_le (n_start n) (n_start (s_node (snd c)))) mid -> In r (refs i) -> in_quotes cur r -> cursor_in cur i r.
Proof.
  intros H Ho Hw Hn Hr (Q1 & Q2).
  assert (Hon : on_node cur (fst r)) by (split; now apply lt_le').
  assert (Up : forall (y : string * stree) m, s_node (snd y) = m -> pt_le (n_start m) (n_end m) /\ pt_le (n_end m) (n_start (fst r)) -> upto cur m).
  { intros y m _ (A & B). unfold upto. apply lt_le'. eapply before_lt; [exact (pt_le_trans' _ _ _ A B)|exact Q1]. }
  inversion H; subst; cbn [refs] in Hr; unfold cursor_in; cbn [stmt_node].
  - destruct Hr as [<-|[]]. match goal with E : of_kind "string" z = _ |- _ => destruct (of_kind_mid _ _ [] _ _ E) as (z1 & f' & x & z2 & -> & Ex & _ & _) end.
    destruct (order_split _ _ _ Ho Hw) as (_ & Hk & Hoz & Hwz). cbn [snd s_node] in Hk.
    assert (Hx : pt_le (n_end kw) (n_start (fst t))) by (rewrite <- Ex; exact (Hk (f', x) ltac:(apply in_or_app; right; now left))).
    assert (Hkw : pt_le (n_start kw) (n_end kw)) by (unfold each_whole in Hw; rewrite Forall_forall in Hw; exact (Hw (f, SN "keyword" kw g) ltac:(apply in_or_app; right; now left))).
    assert (Hkk : pt_le (n_start n) (n_start kw)) by (rewrite Forall_forall in Hn; exact (Hn (f, SN "keyword" kw g) ltac:(apply in_or_app; right; now left))).
    assert (Ukw : upto cur kw) by (eapply (Up (f, SN "keyword" kw g)); [reflexivity|auto]).
    split; [unfold upto in *; eapply pt_le_trans'; eauto|]. split; [exact Hon|]. split; [reflexivity|exact Ukw].
  - destruct (in_split _ _ Hr) as (ta & tz & ->). match goal with E : of_kind "string" z = _ |- _ => rewrite map_app in E; cbn [map] in E; destruct (of_kind_mid _ _ _ _ _ E) as (z1 & f' & x & z2 & -> & Ex & E1 & E2) end.
    destruct (order_split _ _ _ Ho Hw) as (_ & Hk & Hoz & Hwz). cbn [snd s_node] in Hk. destruct (order_split _ _ _ Hoz Hwz) as (Hb & Ha & _ & _). cbn [snd] in Hb, Ha. rewrite Ex in Hb, Ha.
    assert (Hx : pt_le (n_end kw) (n_start (fst r))) by (rewrite <- Ex; exact (Hk (f', x) ltac:(apply in_or_app; right; now left))).
    assert (Hkw : pt_le (n_start kw) (n_end kw)) by (unfold each_whole in Hw; rewrite Forall_forall in Hw; exact (Hw (f, SN "keyword" kw g) ltac:(apply in_or_app; right; now left))).
    assert (Hkk : pt_le (n_start n) (n_start kw)) by (rewrite Forall_forall in Hn; exact (Hn (f, SN "keyword" kw g) ltac:(apply in_or_app; right; now left))).
    assert (Ukw : upto cur kw) by (eapply (Up (f, SN "keyword" kw g)); [reflexivity|auto]).
    split; [unfold upto in *; eapply pt_le_trans'; eauto|]. split; [exact Hon|]. split; [exact Ukw|]. exists ta, tz. split; [reflexivity|]. split.
    + apply Forall_forall. intros y Hy. assert (Hm : In (fst y) (of_kind "string" z1)) by (rewrite E1; now apply in_map). apply of_kind_in in Hm.
      destruct Hm as (fy & xy & Hxy & _ & Ey). destruct (Hb _ Hxy) as (B1 & B2). cbn [snd] in B1, B2. rewrite Ey in B1, B2. split; [exact (Up (fy, xy) _ Ey (conj B1 B2))|]. exact (before_lt _ _ _ B2 Q1).
    + apply Forall_forall. intros y Hy. assert (Hm : In (fst y) (of_kind "string" z2)) by (rewrite E2; now apply in_map). apply of_kind_in in Hm.
      destruct Hm as (fy & xy & Hxy & _ & Ey). unfold after. rewrite <- Ey. exact (lt_after _ _ _ Q2 (Ha _ Hxy)).
  - destruct Hr as [<-|[]]. destruct (order_split _ _ _ Ho Hw) as (_ & Hk & Hoz & Hwz). cbn [snd s_node] in Hk. destruct (order_split _ _ _ Hoz Hwz) as (_ & Ha & _ & _). cbn [snd s_node] in Ha.
    assert (Hx : pt_le (n_end kw) (n_start (fst t))) by (exact (Hk (f1, SN "string" (fst t) g1) ltac:(apply in_or_app; right; now left))).
    assert (Hkw : pt_le (n_start kw) (n_end kw)) by (unfold each_whole in Hw; rewrite Forall_forall in Hw; exact (Hw (f, SN "keyword" kw g) ltac:(apply in_or_app; right; now left))).
    assert (Hkk : pt_le (n_start n) (n_start kw)) by (rewrite Forall_forall in Hn; exact (Hn (f, SN "keyword" kw g) ltac:(apply in_or_app; right; now left))).
    assert (Ukw : upto cur kw) by (eapply (Up (f, SN "keyword" kw g)); [reflexivity|auto]).
    split; [unfold upto in *; eapply pt_le_trans'; eauto|]. split; [exact Hon|]. split; [reflexivity|]. split; [exact Ukw|].
    split; [exact (lt_after _ _ _ Q2 (Ha (f2, SN "keyword" imp g2) ltac:(apply in_or_app; right; now left)))|].
    assert (Hz : Forall (after cur) (map fst ids)).
    { match goal with E : of_kind "identifier" z = _ |- _ => rewrite <- E end. apply of_kind_after. intros y Hy. apply (lt_after _ _ _ Q2). apply Ha. apply in_or_app. right. now right. }
    destruct ids as [|i0 ids]; [repeat constructor|]. rewrite Forall_map in Hz. rewrite Forall_map. exact Hz.
  - destruct Hr as [<-|[]]. destruct (order_split _ _ _ Ho Hw) as (_ & Hk & Hoz & Hwz). cbn [snd s_node] in Hk.
    assert (Hx : pt_le (n_end kw) (n_start (fst t))) by (exact (Hk (f1, SN "string" (fst t) g1) ltac:(apply in_or_app; right; now left))).
    assert (Hkw : pt_le (n_start kw) (n_end kw)) by (unfold each_whole in Hw; rewrite Forall_forall in Hw; exact (Hw (f, SN "keyword" kw g) ltac:(apply in_or_app; right; now left))).
    assert (Hkk : pt_le (n_start n) (n_start kw)) by (rewrite Forall_forall in Hn; exact (Hn (f, SN "keyword" kw g) ltac:(apply in_or_app; right; now left))).
    assert (Ukw : upto cur kw) by (eapply (Up (f, SN "keyword" kw g)); [reflexivity|auto]).
    split; [unfold upto in *; eapply pt_le_trans'; eauto|]. split; [exact Hon|]. split; [reflexivity|]. split; [exact Ukw|]. repeat constructor.
  - destruct Hr as [<-|[]]. destruct (order_split _ _ _ Ho Hw) as (_ & Hk & Hoz & Hwz). cbn [snd s_node] in Hk. destruct (order_split _ _ _ Hoz Hwz) as (_ & Ha & _ & _). cbn [snd s_node] in Ha.
    assert (Hx : pt_le (n_end kw) (n_start (fst t))) by (exact (Hk (f1, SN "string" (fst t) g1) ltac:(apply in_or_app; right; now left))).
    assert (Hkw : pt_le (n_start kw) (n_end kw)) by (unfold each_whole in Hw; rewrite Forall_forall in Hw; exact (Hw (f, SN "keyword" kw g) ltac:(apply in_or_app; right; now left))).
    assert (Hkk : pt_le (n_start n) (n_start kw)) by (rewrite Forall_forall in Hn; exact (Hn (f, SN "keyword" kw g) ltac:(apply in_or_app; right; now left))).
    assert (Ukw : upto cur kw) by (eapply (Up (f, SN "keyword" kw g)); [reflexivity|auto]).
    split; [unfold upto in *; eapply pt_le_trans'; eauto|]. split; [exact Hon|]. split; [reflexivity|]. split; [exact Ukw|].
    assert (Aw : after cur w) by (exact (lt_after _ _ _ Q2 (Ha (f2, SN "identifier" w g2) ltac:(apply in_or_app; right; now left)))).
    assert (Hz : Forall (after cur) (map fst (i0 :: ids))).
    { match goal with E : of_kind "identifier" z = _ |- _ => rewrite <- E end. apply of_kind_after. intros y Hy. apply (lt_after _ _ _ Q2). apply Ha. apply in_or_app. right. now right. }
    match goal with |- Forall _ ((Some w, Some ?j) :: map ?h ?js ++ ?tl) => change (Forall (fun a0 : option node * option (node * string) => match fst a0 with Some k => after cur k | None => True end /\ match snd a0 with Some i1 => after cur (fst i1) | None => True end) (map h (j :: js) ++ tl)) end.
    apply Forall_app. split; [|apply Forall_cons; [split; [exact I|exact Aw]|apply Forall_nil]]. rewrite Forall_map in Hz. rewrite Forall_map. revert Hz. apply Forall_impl. intros x Hxx. cbn [fst snd]. auto.
Qed.

Section Tree0.
Context {parse : plang -> string -> option stree -> option stree} {edit : stree -> input_edit -> stree}.
Notation T := (ts_with parse edit).
(** The statements in front of a reference, and those behind. *)
Lemma reference_split src tr tp ps sts i r cur : depicts src tr tp ps sts -> well_placed tr -> In i sts -> In r (refs i) -> in_quotes cur r ->
  exists pre post, sts = pre ++ i :: post /\ Forall (all_before cur) pre /\ cursor_in cur i r /\ Forall (all_behind cur) post.
Proof.
  intros Hd (Hl & _ & _) Hi Hr Hq. destruct (linked_split _ _ _ (dp_linked _ _ _ _ _ Hd) _ Hi) as (l1 & n & b & mid & e & f1 & f2 & l2 & pre & post & El & Hk & Es & H1 & H2).
  exists pre, post. split; [exact Es|]. set (S := SN "statement" n ((f1, SN "statement_begin" b []) :: mid ++ [(f2, SN "statement_end" e [])])) in *.
  assert (HS : In S (preorder tr)) by (apply root_items; rewrite El; apply in_flat_map; exists S; split; [apply in_or_app; right; now left|apply self_inside]).
  assert (Hroot : In tr (preorder tr)) by apply self_inside. pose proof Hl as Hl0. unfold laid_out in Hl0. rewrite Forall_forall in Hl0.
  destruct (Hl0 _ Hroot) as (_ & Hord & _). destruct (Hl0 _ HS) as (_ & HordS & HinS). cbn [S s_children s_node] in HordS, HinS.
  destruct (map_eq_app _ _ _ _ El) as (c1 & c2' & Ec & E1 & E2). destruct c2' as [|(fS & S') c2]; cbn [map snd] in E2; inversion E2 as [[ES E3]]. subst S'.
  rewrite Ec in Hord. destruct (pairs_app _ _ _ Hord) as (_ & Hord2 & Hb). inversion Hord2 as [|? ? Ha _]; subst. rewrite Forall_forall in Ha. cbn [snd] in Ha.
  assert (Hkid : forall c, In c (s_children tr) -> laid_out (snd c)).
  { intros (f & x) Hx. destruct tr as [kr nr ch]. exact (laid_child _ _ _ _ _ Hl Hx). }
  assert (Hmid : in_order_at mid /\ each_whole mid).
  { split.
    - inversion HordS as [|? ? _ Hm]; subst. exact (proj1 (pairs_app _ _ _ Hm)).
    - apply Forall_forall. intros (f & x) Hx. cbn [snd]. apply (Hl0 x). apply (preorder_trans _ _ _ HS). cbn [S preorder]. right. apply in_flat_map. exists (f, x).
      split; [right; apply in_or_app; now left|apply self_inside]. }
  assert (Hmn : Forall (fun c => pt_le (n_start n) (n_start (s_node (snd c)))) mid).
  { rewrite Forall_forall in *. intros c Hc. apply HinS. right. apply in_or_app. now left. }
  assert (Hrn : exists x, In x (preorder S) /\ s_node x = fst r).
  { destruct (links_strings _ _ _ _ Hk _ eq_refl _ Hr) as (x & Hx & _ & E). exists x. split; [|exact E]. cbn [S preorder]. right. cbn [flat_map snd preorder app]. right.
    rewrite flat_map_app. apply in_or_app. now left. }
  assert (HlS : laid_out S) by (unfold laid_out; rewrite Forall_forall; intros y Hy; apply Hl0; exact (preorder_trans _ _ _ HS Hy)).
  destruct Hrn as (x & Hx & Ex). destruct (laid_inside _ _ HlS Hx) as (B1 & B2). rewrite Ex in B1, B2. destruct Hq as (Q1 & Q2). split; [|split; [exact (links_cursor _ _ _ _ _ _ Hk (proj1 Hmid) (proj2 Hmid) Hmn Hr (conj Q1 Q2))|]].
  - apply Forall_forall. intros st Hst. apply Forall_forall. intros c Hc. destruct (linked_nodes _ _ _ H1 _ _ Hst Hc) as (y & Hy & Ey). rewrite <- Ey.
    apply in_flat_map in Hy. destruct Hy as (w & Hw & Hy). apply in_map_iff in Hw. destruct Hw as (cw & <- & Hcw).
    assert (Hlw : laid_out (snd cw)) by (apply Hkid; rewrite Ec; apply in_or_app; now left). destruct (laid_inside _ _ Hlw Hy) as (D1 & D2).
    pose proof Hlw as Hlw'. unfold laid_out in Hlw'. rewrite Forall_forall in Hlw'. destruct (Hlw' _ Hy) as (Dy & _).
    pose proof (Hb cw (fS, S) Hcw ltac:(now left)) as Hbs. cbn [snd] in Hbs. apply lt_le'.
    eapply before_lt; [|exact Q1]. eapply pt_le_trans'; [exact Dy|]. eapply pt_le_trans'; [exact D2|]. eapply pt_le_trans'; [exact Hbs|exact B1].
  - apply Forall_forall. intros st Hst. apply Forall_forall. intros c Hc. destruct (linked_nodes _ _ _ H2 _ _ Hst Hc) as (y & Hy & Ey). rewrite <- Ey.
    apply in_flat_map in Hy. destruct Hy as (w & Hw & Hy). apply in_map_iff in Hw. destruct Hw as (cw & <- & Hcw).
    assert (Hlw : laid_out (snd cw)) by (apply Hkid; rewrite Ec; apply in_or_app; right; now right). destruct (laid_inside _ _ Hlw Hy) as (D1 & D2).
    eapply lt_after; [exact Q2|]. eapply pt_le_trans'; [exact B2|]. eapply pt_le_trans'; [exact (Ha _ Hcw)|exact D1].
Qed.
End Tree0.

Lemma goto_others_none url x uri vars : (forall fv, In fv (other_vars uri vars) -> heads x (id_name (snd fv)) = false) -> goto_others url x uri vars = Ok [].
Proof.
  assert (G : forall f vs, (forall fv, In fv (map (pair f) vs) -> heads x (id_name (snd fv)) = false) -> goto_file url x f vs = Ok []).
  { intros f vs. induction vs as [|w vs IH]; intros H; [reflexivity|]. cbn [goto_file]. pose proof (H (f, w) ltac:(now left)) as Hw. cbn [snd] in Hw. rewrite heads_first in Hw. rewrite Hw.
    apply IH. intros fv Hfv. apply H. now right. }
  induction vars as [|(f, vs) vars IH]; intros H; [reflexivity|]. unfold other_vars in *. cbn [goto_others filter fst] in *. destruct (String.eqb f uri); cbn [negb] in H; [now apply IH|].
  cbn [flat_map fst snd] in H. rewrite G; [|intros fv Hfv; apply H; apply in_or_app; now left]. cbn [bind]. rewrite IH; [reflexivity|]. intros fv Hfv. apply H. apply in_or_app. now right.
Qed.
Section Tree.
Context {parse : plang -> string -> option stree -> option stree} {edit : stree -> input_edit -> stree}.
Notation T := (ts_with parse edit).
Section Shown.
Variables (s : lsp_files T) (uri : string) (t : text) (tr : stree) (tp : tpl) (ps1 ps2 : list piece) (sts : list istmt).
Hypothesis Hsh : @displayed parse edit s uri t tr tp (ps1 ++ ps2) sts.
Variables (i : istmt) (r : sref) (pos : position).
Hypothesis Hi : In i sts.
Hypothesis Hr : In r (refs i).
Hypothesis Hq : in_quotes (point_of pos) r.
Hypothesis Hb : between (point_of pos) ps1 ps2.
Lemma gap_here : no_use_at (rope_content t) (concat (t_captures T QObjects tr (rope_content t))) (point_of pos).
Proof.
  pose proof (objects_are parse edit _ _ _ _ _ _ _ Hsh) as Ho. pose proof (pieces_are parse edit _ _ _ _ _ _ _ Hsh) as Hp.
  destruct (between_ends parse _ _ _ _ Hp Hb) as ((p & He & Hlt) & Hba). unfold cap_pieces in Ho. rewrite flat_map_app in Ho.
  exists ps1, (cap_pieces ps2), p. auto.
Qed.
Lemma statements_here : exists pre post, stmts_ok (rope_content t) (pre ++ i :: post) /\
  t_captures T QImports tr (rope_content t) = flat_map cap_stmt (pre ++ i :: post) /\
  Forall (all_before (point_of pos)) pre /\ cursor_in (point_of pos) i r /\ Forall (all_behind (point_of pos)) post.
Proof.
  pose proof (depicts_parsed parse edit _ _ _ _ _ (sh_depicts _ _ _ _ _ _ _ Hsh)) as Hpa.
  destruct (reference_split _ _ _ _ _ _ _ _ (sh_depicts _ _ _ _ _ _ _ Hsh) (sh_placed _ _ _ _ _ _ _ Hsh) Hi Hr Hq) as (pre & post & E & H1 & H2 & H3).
  exists pre, post. rewrite (content parse edit _ _ _ _ _ _ _ Hsh), <- E. split; [exact (pd_stmts _ _ _ _ _ _ Hpa)|]. split; [exact (pd_imports _ _ _ _ _ _ Hpa)|auto].
Qed.
Lemma goto_ref F url b u : proper_name (snd r) -> stands_for F url (cf_templates (ls_config s)) (snd r) u ->
  goto_definition F url b uri pos s = Ok (Some (GScalar (mkloc u range0))).
Proof.
  intros Hn (p & Hp & Hu). destruct statements_here as (pre & post & H1 & H2 & H3 & H4 & H5).
  change range0 with (lsp_range pt0 pt0).
  eapply goto_reference; [exact (shown_holds parse edit _ _ _ _ _ _ _ Hsh)|exact gap_here|exact H1|exact H2|exact H3|exact H4|exact H5| |exact Hu].
  rewrite (goto_lint_path _ _ Hn). exact Hp.
Qed.
Lemma goto_ref_missing F url b : proper_name (snd r) -> named_vars uri s ->
  (forall u, ~ stands_for F url (cf_templates (ls_config s)) (snd r) u) ->
  goto_definition F url b uri pos s = Ok (Some (GArray [])).
Proof.
  intros Hn Hv Hu. destruct statements_here as (pre & post & H1 & H2 & H3 & H4 & H5).
  destruct (shown_holds parse edit _ _ _ _ _ _ _ Hsh) as (A1 & A2 & A3).
  destruct (no_ident b _ _ _ gap_here) as (st & Q & Ei).
  destruct (template_at (rope_content t) _ (point_of pos) pre i post r H1 H2 H3 H4 H5) as (imps & im & Eq & Et & Eg).
  unfold goto_definition. rewrite A1. cbn [trees_of]. rewrite A2, A3, Q. cbn [bind].
  rewrite Ei. cbn [goto_local]. rewrite Eq. cbn [bind]. rewrite Et, Eg.
  assert (E : goto_template F url (id_name (ref_id r)) s = None).
  { unfold goto_template. change (id_name (ref_id r)) with (snd r). rewrite (goto_lint_path _ _ Hn). destruct (f_canon F _) as [p| |] eqn:Ec; try reflexivity.
    destruct (url (file_uri p)) as [u|] eqn:Eu; [|reflexivity]. exfalso. apply (Hu u). exists p. auto. }
  rewrite E, (goto_others_none url _ uri (ls_vars s) Hv). reflexivity.
Qed.
(** Completion between the quotes. *)
Lemma complete_ref b ctx typed rest : ctx = Some TkInvoked \/ ctx = Some TkTriggerCharacter -> outside ps1 (point_of pos) ->
  plain_line r -> snd r = (typed ++ rest)%string -> col (point_of pos) = col (n_start (fst r)) + 1 + slen typed ->
  exists n, quoted_prefix typed (snd r) n /\
    do_completion b uri pos ctx s = Ok (option_map (map RItem) (read_templates n (lsp_range (n_start (fst r)) (n_end (fst r))) pos s)).
Proof.
  intros Hctx Hout (Ha & Hc) En Hcol. destruct statements_here as (pre & post & H1 & H2 & H3 & H4 & H5).
  pose proof (depicts_parsed parse edit _ _ _ _ _ (sh_depicts _ _ _ _ _ _ _ Hsh)) as Hpa.
  assert (Hsm : small (n_start (fst r)) /\ small (n_end (fst r))).
  { destruct (linked_strings _ _ _ (dp_linked _ _ _ _ _ (sh_depicts _ _ _ _ _ _ _ Hsh)) _ _ Hi Hr) as (x & Hx & _ & <-). apply root_items in Hx.
    destruct (sh_placed _ _ _ _ _ _ _ Hsh) as (_ & _ & Hs). unfold small_tree in Hs. rewrite Forall_forall in Hs. now apply Hs. }
  destruct (completion_reference (T := T) b s uri pos ctx tr t pre i post r typed rest Hctx (shown_holds parse edit _ _ _ _ _ _ _ Hsh)) as (n & Hn & E).
  - intros n (b0 & c & a0 & E & Ec & _). pose proof (pd_clean _ _ _ _ _ _ Hpa) as Hcl. rewrite (content parse edit _ _ _ _ _ _ _ Hsh) in E.
    change (t_captures (ts_with parse edit)) with (t_captures T) in E. rewrite E in Hcl. apply Forall_app in Hcl. destruct Hcl as (_ & Hcl). inversion Hcl; subst. contradiction.
  - pose proof (objects_are parse edit _ _ _ _ _ _ _ Hsh) as Ho. pose proof (pieces_are parse edit _ _ _ _ _ _ _ Hsh) as Hp.
    destruct (between_ends parse _ _ _ _ Hp Hb) as ((p & He & Hlt) & Hba). unfold cap_pieces in Ho. rewrite flat_map_app in Ho.
    exists ps1, (cap_pieces ps2), p. auto.
  - exact H1.
  - exact H2.
  - exact H3.
  - exact H4.
  - exact H5.
  - exact En.
  - exact Ha.
  - exact Hc.
  - exact Hcol.
  - exact (proj1 Hsm).
  - exact (proj2 Hsm).
  - exists n. split; [exact Hn|]. unfold do_completion. rewrite E. cbn [bind]. now destruct (read_templates n _ pos s).
Qed.
Lemma offer_ref b ctx typed rest : let d := strip_dots (cf_templates (ls_config s)) in
  ctx = Some TkInvoked \/ ctx = Some TkTriggerCharacter -> outside ps1 (point_of pos) ->
  plain_line r -> snd r = (typed ++ rest)%string -> col (point_of pos) = col (n_start (fst r)) + 1 + slen typed ->
  exists n, quoted_prefix typed (snd r) n /\
    ((forall u, In u (map fst (ls_tt s)) -> sought n u -> exists label, lies_below d u label) ->
     exists us items, do_completion b uri pos ctx s = Ok (Some (map RItem items)) /\
       (forall u, In u us <-> In u (map fst (ls_tt s)) /\ sought n u) /\ (NoDup (map fst (ls_tt s)) -> NoDup us) /\
       Forall2 (template_for d (ls_vscode s) (lsp_range (n_start (fst r)) (n_end (fst r)))) us items).
Proof.
  intros d Hctx Hout Hl En Hcol. destruct (complete_ref b ctx typed rest Hctx Hout Hl En Hcol) as (n & Hn & E). exists n. split; [exact Hn|]. intros Hu.
  destruct (read_templates_exact s n (lsp_range (n_start (fst r)) (n_end (fst r))) pos Hu) as (us & items & Er & H1 & H2 & H3).
  exists us, items. rewrite E, Er. split; [reflexivity|]. split; [exact H1|]. split; [exact H2|exact H3].
Qed.
End Shown.
(** Hover on the name of a filter or a test. *)
Lemma hover_doc s uri t tr tp ps sts p name pos b :
  @displayed parse edit s uri t tr tp ps sts -> In p ps -> documents p name -> cursor_on tr (point_of pos) (fst name) ->
  do_hover b uri pos s = Ok (if str_mem (snd name) (known_docs p) then Some (doc_of p (snd name)) else None).
Proof.
  intros Hsh Hp Hk Hon. destruct (in_split _ _ Hp) as (pre & post & ->).
  pose proof (objects_are parse edit _ _ _ _ _ _ _ Hsh) as Ho. pose proof (pieces_are parse edit _ _ _ _ _ _ _ Hsh) as Hok.
  assert (Hbc : Forall (behind (point_of pos)) (cap_pieces post)).
  { destruct p as [|?|pi nm|kw nots nm|?|?]; cbn [documents] in Hk; try (now elim Hk); subst nm.
    - eapply behind_cursor; [exact (sh_depicts _ _ _ _ _ _ _ Hsh)|exact (sh_placed _ _ _ _ _ _ _ Hsh)|reflexivity| |exact Hon]. cbn [piece_nodes]. exact (eq_refl : _ = [_] ++ _).
    - eapply behind_cursor; [exact (sh_depicts _ _ _ _ _ _ _ Hsh)|exact (sh_placed _ _ _ _ _ _ _ Hsh)|reflexivity| |exact Hon]. cbn [piece_nodes].
      exact (eq_refl : _ = (_ :: _) ++ _). }
  destruct p as [|?|pi nm|kw nots nm|?|?]; cbn [documents] in Hk; try (now elim Hk); subst nm.
  - exact (hover_documented (T := T) b s uri pos tr t pre _ name _ post (shown_holds parse edit _ _ _ _ _ _ _ Hsh) Hok Ho eq_refl eq_refl (proj1 Hon) Hbc).
  - exact (hover_documented (T := T) b s uri pos tr t pre _ name _ post (shown_holds parse edit _ _ _ _ _ _ _ Hsh) Hok Ho eq_refl eq_refl (proj1 Hon) Hbc).
Qed.

Notation agree_on F url b uri s' ps sts dir e :=
  (forall i r ps1 ps2 pos, In i sts -> In r (refs i) -> proper_name (snd r) -> ps = ps1 ++ ps2 -> in_quotes (point_of pos) r -> between (point_of pos) ps1 ps2 ->
    (In (TemplateNotFound, ref_id r) e -> named_vars uri s' -> goto_definition F url b uri pos s' = Ok (Some (GArray []))) /\
    (forall u, stands_for F url dir (snd r) u -> ~ In (TemplateNotFound, ref_id r) e /\ goto_definition F url b uri pos s' = Ok (Some (GScalar (mkloc u range0))))).
Lemma agree_here F url b uri t tr tp ps sts (s' : lsp_files T) e1 ds vars chs :
  @displayed parse edit s' uri t tr tp ps sts -> reported ds vars chs e1 ->
  agree_on F url b uri s' ps sts (cf_templates (ls_config s')) (e1 ++ missing_reports F (cf_templates (ls_config s')) sts).
Proof.
  intros Hd Hrep i r ps1 ps2 pos Hi Hr Hn -> Hq Hb.
  assert (Hm : forall r', In (TemplateNotFound, ref_id r') (e1 ++ missing_reports F (cf_templates (ls_config s')) sts) -> missing F (cf_templates (ls_config s')) (snd r') = true).
  { intros r' H. apply in_app_or in H. destruct H as [H|H].
    - exfalso. clear - H Hrep. induction Hrep as [|u us es _ _ IH|u us es d Hv _ IH]; [destruct H|auto|]. destruct H as [E|Hin]; [|auto]. discriminate E.
    - unfold missing_reports in H. apply in_map_iff in H. destruct H as (w & E & H). apply filter_In in H. destruct H as (_ & H).
      replace (snd r') with (snd w) by (injection E; auto). exact H. }
  assert (Hne : snd r <> EmptyString) by (intros E; apply Hn; rewrite E; now left).
  assert (Hmn : missing F (cf_templates (ls_config s')) (snd r) = true -> forall u, ~ stands_for F url (cf_templates (ls_config s')) (snd r) u).
  { unfold missing, not_found. intros H u (p & Hp & _). rewrite Hp in H. apply orb_true_iff in H. destruct H as [H|H]; [apply String.eqb_eq in H; contradiction|discriminate]. }
  split.
  - intros Hrp Hv. eapply goto_ref_missing; [exact Hd|exact Hi|exact Hr|exact Hq|exact Hb|exact Hn|exact Hv|]. apply Hmn, Hm, Hrp.
  - intros u Hu. split; [intros H; exact (Hmn (Hm _ H) u Hu)|]. eapply goto_ref; [exact Hd|exact Hi|exact Hr|exact Hq|exact Hb|exact Hn|exact Hu].
Qed.
Lemma ref_open F url b uri t tr tp ps sts (s : lsp_files T) :
  file_ext uri = Some Template -> scalars t -> ls_ignore s = false ->
  parse PJinja (encode t) (sget uri (ls_tt s)) = Some tr ->
  on_characters t tr -> depicts (encode t) tr tp ps sts -> well_placed tr -> plain_ends tp ->
  exists s' e, did_open F b uri t false s = Ok (s', Some [(uri, e)]) /\ agree_on F url b uri s' ps sts (cf_templates (ls_config s)) e.
Proof.
  intros Hx Hs Hi Hp Hch Hd Hw Hst. destruct (open_shown parse edit F b uri t tr tp ps sts s Hx Hs Hi Hp Hch Hd Hw Hst) as (s' & e1 & H & Hr & _ & Hsh & _).
  exists s', (e1 ++ missing_reports F (cf_templates (ls_config s)) sts). split; [exact H|]. destruct (did_open_frame _ _ _ _ _ _ _ _ H) as (_ & _ & _ & Ec & _). rewrite <- Ec.
  exact (agree_here F url b _ _ _ _ _ _ _ _ _ _ _ Hsh Hr).
Qed.
Lemma ref_save F url b uri t tr tp ps sts (s : lsp_files T) :
  file_ext uri = Some Template -> scalars t -> ls_ignore s = false ->
  sget uri (ls_docs s) = Some t -> sget uri (ls_tt s) = Some tr ->
  on_characters t tr -> depicts (encode t) tr tp ps sts -> well_placed tr -> plain_ends tp ->
  exists s' e, did_save F b uri s = Ok (s', Some [(uri, e)]) /\ agree_on F url b uri s' ps sts (cf_templates (ls_config s)) e.
Proof.
  intros Hx Hs Hi Hdoc Htr Hch Hd Hw Hst. destruct (save_shown parse edit F b uri t tr tp ps sts s Hx Hs Hi Hdoc Htr Hch Hd Hw Hst) as (s' & e1 & H & Hr & _ & Hsh & _).
  exists s', (e1 ++ missing_reports F (cf_templates (ls_config s)) sts). split; [exact H|]. destruct (did_save_frame _ _ _ _ _ _ H) as (_ & _ & _ & Ec & _). rewrite <- Ec.
  exact (agree_here F url b _ _ _ _ _ _ _ _ _ _ _ Hsh Hr).
Qed.
(** In a session: the text in the editor decides. *)
Lemma asked_reference url b : parse_total T ->
  forall l (y : sys T) sy a F c rid, exec url b (sys0 T) l = Some y -> y_task y = TIdle sy ->
  forall uri t tr tp ps1 ps2 sts i r pos,
    file_ext uri = Some Template -> editor_text uri (map fst a) t -> conveys parse t tr tp (ps1 ++ ps2) sts ->
    y_taken y = a ++ (MGoto rid uri pos, F) :: c ->
    In i sts -> In r (refs i) -> proper_name (snd r) -> in_quotes (point_of pos) r -> between (point_of pos) ps1 ps2 ->
    exists s x, replay url b (task0 T) a = Ok (s, x) /\
      let dir := cf_templates (ls_config (tk_data s)) in
      (forall u, stands_for F url dir (snd r) u -> In (rid, RGoto (GScalar (mkloc u range0))) (y_replies y)) /\
      ((forall u, ~ stands_for F url dir (snd r) u) -> named_vars uri (tk_data s) -> In (rid, RGoto (GArray [])) (y_replies y)).
Proof.
  intros Hpt l y sy a F c rid He Hidle uri t tr tp ps1 ps2 sts i r pos Hx Ht R Hy Hi Hr Hn Hq Hb.
  destruct (session_reply parse edit url b l y sy a _ F c He Hidle Hy) as (sa & x & sb & es & Hrp & Hs & Hin).
  pose proof (replay_text url b uri ltac:(congruence) _ _ Ht _ _ _ _ eq_refl Hrp) as Hd.
  pose proof (replay_tree url b uri Hpt Hx _ _ Ht _ _ _ _ eq_refl Hrp) as Htr.
  pose proof (read_displayed parse edit _ _ _ _ _ _ _ Hx R Hd Htr) as Hsh. exists sa, x. split; [exact Hrp|]. split.
  - intros u Hu. apply Hin. cbn [MLspTask.step] in Hs. rewrite (goto_ref _ _ _ _ _ _ _ _ Hsh i r pos Hi Hr Hq Hb F url b u Hn Hu) in Hs. cbn [bind] in Hs. inversion Hs; subst. now left.
  - intros Hu Hv. apply Hin. cbn [MLspTask.step] in Hs. rewrite (goto_ref_missing _ _ _ _ _ _ _ _ Hsh i r pos Hi Hr Hq Hb F url b Hn Hv Hu) in Hs. cbn [bind] in Hs. inversion Hs; subst. now left.
Qed.
Lemma asked_doc url b : parse_total T ->
  forall l (y : sys T) sy a F c rid, exec url b (sys0 T) l = Some y -> y_task y = TIdle sy ->
  forall uri t tr tp ps sts p name pos,
    file_ext uri = Some Template -> editor_text uri (map fst a) t -> conveys parse t tr tp ps sts ->
    y_taken y = a ++ (MHover rid uri pos, F) :: c ->
    In p ps -> documents p name -> cursor_on tr (point_of pos) (fst name) ->
    In (rid, if str_mem (snd name) (known_docs p) then RHover (doc_of p (snd name)) else RNull) (y_replies y).
Proof.
  intros Hpt l y sy a F c rid He Hidle uri t tr tp ps sts p name pos Hx Ht R Hy Hp Hk Hon.
  destruct (session_reply parse edit url b l y sy a _ F c He Hidle Hy) as (sa & x & sb & es & Hrp & Hs & Hin).
  pose proof (replay_text url b uri ltac:(congruence) _ _ Ht _ _ _ _ eq_refl Hrp) as Hd.
  pose proof (replay_tree url b uri Hpt Hx _ _ Ht _ _ _ _ eq_refl Hrp) as Htr.
  pose proof (read_displayed parse edit _ _ _ _ _ _ _ Hx R Hd Htr) as Hsh. apply Hin. cbn [MLspTask.step] in Hs.
  rewrite (hover_doc _ _ _ _ _ _ _ _ _ _ b Hsh Hp Hk Hon) in Hs. cbn [bind] in Hs. destruct (str_mem _ _); inversion Hs; subst; now left.
Qed.
Lemma asked_offer url b : parse_total T ->
  forall l (y : sys T) sy a F c rid, exec url b (sys0 T) l = Some y -> y_task y = TIdle sy ->
  forall uri t tr tp ps1 ps2 sts i r pos ctx typed rest,
    file_ext uri = Some Template -> editor_text uri (map fst a) t -> conveys parse t tr tp (ps1 ++ ps2) sts ->
    y_taken y = a ++ (MCompletion rid uri pos ctx, F) :: c ->
    In i sts -> In r (refs i) -> in_quotes (point_of pos) r -> between (point_of pos) ps1 ps2 ->
    ctx = Some TkInvoked \/ ctx = Some TkTriggerCharacter -> outside ps1 (point_of pos) ->
    plain_line r -> snd r = (typed ++ rest)%string -> col (point_of pos) = col (n_start (fst r)) + 1 + slen typed ->
    exists s x n, replay url b (task0 T) a = Ok (s, x) /\ quoted_prefix typed (snd r) n /\
      let d := strip_dots (cf_templates (ls_config (tk_data s))) in
      ((forall u, In u (map fst (ls_tt (tk_data s))) -> sought n u -> exists label, lies_below d u label) ->
       exists us items, In (rid, RCompletion (map RItem items)) (y_replies y) /\
         (forall u, In u us <-> In u (map fst (ls_tt (tk_data s))) /\ sought n u) /\
         (NoDup (map fst (ls_tt (tk_data s))) -> NoDup us) /\
         Forall2 (template_for d (ls_vscode (tk_data s)) (lsp_range (n_start (fst r)) (n_end (fst r)))) us items).
Proof.
  intros Hpt l y sy a F c rid He Hidle uri t tr tp ps1 ps2 sts i r pos ctx typed rest Hx Ht R Hy Hi Hr Hq Hb Hctx Hout Hl En Hcol.
  destruct (session_reply parse edit url b l y sy a _ F c He Hidle Hy) as (sa & x & sb & es & Hrp & Hs & Hin).
  pose proof (replay_text url b uri ltac:(congruence) _ _ Ht _ _ _ _ eq_refl Hrp) as Hd.
  pose proof (replay_tree url b uri Hpt Hx _ _ Ht _ _ _ _ eq_refl Hrp) as Htr.
  pose proof (read_displayed parse edit _ _ _ _ _ _ _ Hx R Hd Htr) as Hsh.
  destruct (offer_ref _ _ _ _ _ _ _ _ Hsh i r pos Hi Hr Hq Hb b ctx typed rest Hctx Hout Hl En Hcol) as (n & Hn & Ho).
  exists sa, x, n. split; [exact Hrp|]. split; [exact Hn|]. intros d Hu. destruct (Ho Hu) as (us & items & E & H1 & H2 & H3). exists us, items.
  split; [|auto]. apply Hin. cbn [MLspTask.step] in Hs. rewrite E in Hs. cbn [bind] in Hs. inversion Hs; subst. now left.
Qed.
End Tree.
