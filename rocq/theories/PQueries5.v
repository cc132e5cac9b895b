(** * PQueries5: variables of Python files; what is remembered about a backend file. *)
From Verif Require Import Base RString Utf8 Rope Types Captures MTemplates MSearchErrors MLspFiles MQueries.
From Verif Require Import SpecBackend SpecLint SpecQueries SpecQueries2 PText PFiles PLint PBackend PQueries PQueries3 PQueries4.

(** ** Subscripts *)
Definition objects_in (l : kids) : list node :=
  flat_map (fun c => if String.eqb (fst c) "object" && String.eqb (s_kind (snd c)) "identifier" then [s_node (snd c)] else []) l.
Lemma objects_in_app a b : objects_in (a ++ b) = objects_in a ++ objects_in b.
Proof. apply flat_map_app. Qed.
Definition field_step : qstep := QS One "attribute" [QN "identifier" [] ["field"%string]].
Definition member_steps : list qstep := [QS Star "object" [QN "identifier" [] ["object"%string]]; field_step].
Lemma on_object c m1 :
  In m1 (on_child "object" [QN "identifier" [] ["object"%string]] c) <->
  fst c = "object"%string /\ s_kind (snd c) = "identifier"%string /\ m1 = ([("object"%string, s_node (snd c))], s_node (snd c)).
Proof.
  rewrite in_child. split.
  - intros ([X|E] & p & [<-|[]] & H); [discriminate|]. apply in_leaf in H. destruct H as (-> & ->). auto.
  - intros (E & Ek & ->). split; [now right|]. eexists. split; [now left|]. apply in_leaf. now split.
Qed.
Lemma on_field last ch m :
  In m (embed_steps [field_step] last ch) <->
  exists a fd b, ch = a ++ ("attribute"%string, fd) :: b /\ s_kind fd = "identifier"%string /\ m = ([("field"%string, s_node fd)], s_node fd).
Proof.
  unfold field_step. rewrite in_final. split.
  - intros (g & x & p & Hi & [X|<-] & [<-|[]] & H); [discriminate|]. apply in_leaf in H. destruct H as (Hk & ->). apply in_split in Hi. destruct Hi as (a & b & ->).
    exists a, x, b. auto.
  - intros (a & fd & b & -> & Hk & ->). exists "attribute"%string, fd. eexists. split; [apply in_or_app; right; now left|]. split; [now right|]. split; [now left|]. apply in_leaf. now split.
Qed.
Lemma in_member last ch m :
  In m (embed_steps member_steps last ch) <->
  exists a fd b S, ch = a ++ ("attribute"%string, fd) :: b /\ s_kind fd = "identifier"%string /\ subl S (objects_in a) /\
    m = (map (pair "object"%string) S ++ [("field"%string, s_node fd)], s_node fd).
Proof.
  unfold member_steps. rewrite steps_unfold, in_app_iff. revert last m. remember (length ch) as k eqn:Ek. revert ch Ek.
  induction k as [k IHk] using (well_founded_induction Wf_nat.lt_wf). intros ch -> last m. split.
  - intros [H|H].
    + apply in_pick_some in H. destruct H as (a & c & b & m1 & m2 & -> & H1 & H2 & ->). apply on_object in H1. destruct H1 as (Hf & Hk & ->). cbn [fst snd] in *.
      apply (IHk (length b)) in H2; [|rewrite app_length; cbn; lia|reflexivity]. destruct H2 as (a2 & fd & b2 & S & -> & Hk2 & Hs & ->).
      exists (a ++ c :: a2), fd, b2, (s_node (snd c) :: S). split; [now rewrite <- app_assoc|]. split; [exact Hk2|]. split; [|reflexivity].
      rewrite objects_in_app. apply subl_pre. unfold objects_in. cbn [flat_map]. rewrite Hf, Hk, !String.eqb_refl. cbn [andb app]. now apply SuTake.
    + apply on_field in H. destruct H as (a & fd & b & -> & Hk & ->). exists a, fd, b, []. split; [reflexivity|]. split; [exact Hk|]. split; [constructor|reflexivity].
  - intros (a & fd & b & S & -> & Hk & Hs & ->). destruct S as [|x S].
    + right. apply on_field. exists a, fd, b. auto.
    + left. assert (X : exists a1 c a2, a = a1 ++ c :: a2 /\ fst c = "object"%string /\ s_kind (snd c) = "identifier"%string /\ s_node (snd c) = x /\ subl S (objects_in a2)).
      { clear - Hs. induction a as [|c r IH]; [inversion Hs|]. unfold objects_in in Hs. cbn [flat_map] in Hs. fold (objects_in r) in Hs.
        destruct (String.eqb (fst c) "object" && String.eqb (s_kind (snd c)) "identifier") eqn:E; cbn [app] in Hs.
        - apply andb_true_iff in E. destruct E as (E1 & E2). apply String.eqb_eq in E1, E2. inversion Hs; subst; [now exists [], c, r|].
          destruct (IH H1) as (a1 & d & a2 & -> & H). now exists (c :: a1), d, a2.
        - destruct (IH Hs) as (a1 & d & a2 & -> & H). now exists (c :: a1), d, a2. }
      destruct X as (a1 & c & a2 & -> & Hf & Hck & <- & Hs'). apply in_pick_some.
      exists a1, c, (a2 ++ ("attribute"%string, fd) :: b), ([("object"%string, s_node (snd c))], s_node (snd c)), (map (pair "object"%string) S ++ [("field"%string, s_node fd)], s_node fd).
      split; [now rewrite <- app_assoc|]. split; [apply on_object; auto|]. split; [|reflexivity].
      apply (IHk (length (a2 ++ ("attribute"%string, fd) :: b))); [rewrite !app_length; cbn; rewrite ?app_length; cbn; lia|reflexivity|].
      exists a2, fd, b, S. auto.
Qed.
Definition key_sub_pat : qpat :=
  QN "subscript"
    [one (QN "attribute" member_steps []); one (QN "string" [step "string_content" ["key_id"%string]] [])] [].
Definition fam_key (x : stree) (P : list qcap) (A : list node) (Q : list qcap) : Prop :=
  exists f1 at_ f2 str a fd b f3 y, s_kind x = "subscript"%string /\ in_order (s_children x) f1 at_ f2 str /\
    s_kind at_ = "attribute"%string /\ s_children at_ = a ++ ("attribute"%string, fd) :: b /\ s_kind fd = "identifier"%string /\
    s_kind str = "string"%string /\ has (s_children str) f3 y /\ s_kind y = "string_content"%string /\
    P = [] /\ A = objects_in a /\ Q = [("field"%string, s_node fd); ("key_id"%string, s_node y)].
Lemma in_key x m :
  In m (embed key_sub_pat x) <-> exists P A Q S, fam_key x P A Q /\ subl S A /\ fst m = P ++ map (pair "object"%string) S ++ Q /\ In m (embed key_sub_pat x).
Proof.
  split; [|now intros (P & A & Q & S & _ & _ & _ & H)]. intros H0. assert (H := H0). unfold key_sub_pat in H. apply in_embed in H. destruct H as (Hk & m' & H & ->).
  apply in_one in H. destruct H as (a0 & f1 & at_ & b0 & p & m1 & m2 & Ech & _ & [<-|[]] & H1 & H2 & ->).
  apply in_final in H2. destruct H2 as (f2 & str & p & Hstr & _ & [<-|[]] & H2). apply in_embed in H2. destruct H2 as (Hsk & m3 & H2 & ->).
  apply in_final in H2. destruct H2 as (f3 & y & p & Hy & _ & [<-|[]] & H2). apply in_leaf in H2. destruct H2 as (Hyk & ->).
  apply in_embed in H1. destruct H1 as (Hak & m4 & H1 & ->). apply in_member in H1. destruct H1 as (a & fd & b & S & Ea & Hfk & Hs & ->).
  apply in_split in Hstr. destruct Hstr as (b1 & b2 & ->).
  eexists [], _, _, S. split; [|split; [exact Hs|]].
  - exists f1, at_, f2, str, a, fd, b, f3, y. split; [auto|]. split; [now exists a0, b1, b2|]. auto 20.
  - unfold with_caps. cbn [map app fst snd]. split; [rewrite <- app_assoc; reflexivity|]. exact H0.
Qed.
Lemma key_there x P A Q : fam_key x P A Q -> forall S, subl S A -> exists l, In (P ++ map (pair "object"%string) S ++ Q, l) (embed key_sub_pat x).
Proof.
  intros (f1 & at_ & f2 & str & a & fd & b & f3 & y & Hk & (a0 & b1 & b2 & Ech) & Hak & Ea & Hfk & Hsk & Hy & Hyk & -> & -> & ->) S Hs.
  exists (s_node y). unfold key_sub_pat. apply in_embed. split; [auto|].
  exists (map (pair "object"%string) S ++ [("field"%string, s_node fd); ("key_id"%string, s_node y)], s_node y). split; [|reflexivity].
  apply in_one. exists a0, f1, at_, (b1 ++ (f2, str) :: b2). eexists.
  exists (map (pair "object"%string) S ++ [("field"%string, s_node fd)], s_node fd), ([("key_id"%string, s_node y)], s_node y).
  split; [exact Ech|]. split; [now left|]. split; [now left|]. split; [|split].
  - apply in_embed. split; [auto|]. exists (map (pair "object"%string) S ++ [("field"%string, s_node fd)], s_node fd). split; [|reflexivity].
    apply in_member. exists a, fd, b, S. auto.
  - apply in_final. exists f2, str. eexists. split; [apply in_or_app; right; now left|]. split; [now left|]. split; [now left|].
    apply in_embed. split; [auto|]. exists ([("key_id"%string, s_node y)], s_node y). split; [|reflexivity]. apply in_final. exists f3, y. eexists.
    split; [exact Hy|]. split; [now left|]. split; [now left|]. apply in_leaf. now split.
  - cbn [fst snd]. rewrite <- app_assoc. reflexivity.
Qed.
Lemma split_unique (a b a' b' : kids) f x f' y :
  NoDup (ids (flat_map (fun c => preorder (snd c)) (a ++ (f, x) :: b))) -> a ++ (f, x) :: b = a' ++ (f', y) :: b' -> n_id (s_node x) = n_id (s_node y) -> a = a'.
Proof.
  revert a'. induction a as [|c a IH]; intros [|c' a'] Hn E Ei; cbn [app] in *.
  - reflexivity.
  - exfalso. inversion E; subst. cbn [flat_map snd] in Hn. rewrite ids_app in Hn. apply NoDup_app_parts in Hn. destruct Hn as (_ & _ & D).
    apply (D (n_id (s_node x))).
    + apply (in_map (fun x => n_id (s_node x))). apply self_inside.
    + rewrite Ei. apply (in_map (fun x => n_id (s_node x))). rewrite flat_map_app. apply in_or_app. right. cbn [flat_map]. apply in_or_app. left. apply self_inside.
  - exfalso. inversion E; subst. cbn [flat_map snd] in Hn. rewrite ids_app in Hn. apply NoDup_app_parts in Hn. destruct Hn as (_ & _ & D).
    apply (D (n_id (s_node x))).
    + rewrite Ei. apply (in_map (fun x => n_id (s_node x))). apply self_inside.
    + apply (in_map (fun x => n_id (s_node x))). rewrite flat_map_app. apply in_or_app. right. cbn [flat_map]. apply in_or_app. left. apply self_inside.
  - inversion E as [[E1 E2]]. subst. f_equal. apply IH; auto. cbn [flat_map] in Hn. rewrite ids_app in Hn. now apply NoDup_app_parts in Hn.
Qed.
Lemma apart_children t : told_apart t -> NoDup (ids (flat_map (fun c => preorder (snd c)) (s_children t))).
Proof. destruct t. unfold told_apart. cbn [preorder map s_children]. intros H. apply NoDup_cons_iff in H. apply H. Qed.
Lemma key_sub_largest x m : told_apart x ->
  In m (largest (embed key_sub_pat x)) <->
  In m (embed key_sub_pat x) /\ exists P A Q, fam_key x P A Q /\ True /\ fst m = P ++ map (pair "object"%string) A ++ Q.
Proof.
  intros Ht. apply (family (embed key_sub_pat x) "object" 2 (fam_key x) (fun _ => True)).
  - intros m0 Hm. apply in_key in Hm. destruct Hm as (P & A & Q & S & HF & Hs & E & _). exists P, A, Q, S. auto.
  - intros P A Q HF _. exact (key_there _ _ _ _ HF _ (subl_refl _)).
  - auto.
  - intros P A Q (? & ? & ? & ? & ? & ? & ? & ? & ? & _ & _ & _ & _ & _ & _ & _ & _ & -> & -> & ->). split; [reflexivity|]. split; repeat constructor; discriminate.
  - intros P A Q P' A' Q' (f1 & at_ & f2 & str & a & fd & b & f3 & y & _ & (a0 & b1 & b2 & Ech) & _ & Ea & _ & _ & _ & _ & -> & -> & ->)
      (f1' & at_' & f2' & str' & a' & fd' & b' & f3' & y' & _ & (a0' & b1' & b2' & Ech') & _ & Ea' & _ & _ & _ & _ & -> & -> & ->) _ HL _.
    cbn [app] in HL. inversion HL as [|? ? ? ? (_ & Ei) _]; subst. cbn [snd] in Ei.
    assert (at_ = at_') as <-.
    { eapply (same_parent x f1 at_ f1' at_'); [exact Ht| | | | |exact Ei].
      - rewrite Ech. apply in_or_app. right. now left.
      - rewrite Ech'. apply in_or_app. right. now left.
      - rewrite Ea. apply in_or_app. right. left. reflexivity.
      - rewrite Ea'. apply in_or_app. right. left. reflexivity. }
    f_equal. eapply split_unique; [|rewrite <- Ea, <- Ea'; reflexivity|exact Ei]. rewrite <- Ea. apply apart_children. apply apart_inside with x; [exact Ht|].
    eapply child_in. rewrite Ech. apply in_or_app. right. left. reflexivity.
Qed.

(** ** Keyword arguments *)
Definition kwargs : qstep :=
  QS One "arguments" [QN "argument_list"
    [one (QN "keyword_argument" [QS One "name" [QN "identifier" [] ["key_id"%string]]] [])] []].
Definition plain_call : qpat := QN "call" [QS One "function" [QN "identifier" [] ["method"%string]]; kwargs] [].
Definition member_call : qpat :=
  QN "call" [QS One "function" [QN "attribute" [QS One "object" [QN "identifier" [] []]; QS One "attribute" [QN "identifier" [] ["method"%string]]] []]; kwargs] [].
Definition kw_arg (args : stree) (y : stree) : Prop :=
  s_kind args = "argument_list"%string /\ exists f3 kw, has (s_children args) f3 kw /\ s_kind kw = "keyword_argument"%string /\
    has (s_children kw) "name" y /\ s_kind y = "identifier"%string.
Lemma in_kwargs last ch m :
  In m (embed_steps [kwargs] last ch) <-> exists args y, has ch "arguments" args /\ kw_arg args y /\ m = ([("key_id"%string, s_node y)], s_node y).
Proof.
  unfold kwargs. rewrite in_final. split.
  - intros (g & args & p & Hi & [X|<-] & [<-|[]] & H); [discriminate|]. apply in_embed in H. destruct H as (Ha & m1 & H & ->).
    apply in_final in H. destruct H as (f3 & kw & p & Hkw & _ & [<-|[]] & H). apply in_embed in H. destruct H as (Hk & m2 & H & ->).
    apply in_final in H. destruct H as (f4 & y & p & Hy & [X|<-] & [<-|[]] & H); [discriminate|]. apply in_leaf in H. destruct H as (Hyk & ->).
    exists args, y. split; [exact Hi|]. split; [|reflexivity]. split; [auto|]. exists f3, kw. auto.
  - intros (args & y & Hi & (Ha & f3 & kw & Hkw & Hk & Hy & Hyk) & ->). exists "arguments"%string, args. eexists. split; [exact Hi|]. split; [now right|]. split; [now left|].
    apply in_embed. split; [auto|]. exists ([("key_id"%string, s_node y)], s_node y). split; [|reflexivity]. apply in_final. exists f3, kw. eexists. split; [exact Hkw|]. split; [now left|]. split; [now left|].
    apply in_embed. split; [auto|]. exists ([("key_id"%string, s_node y)], s_node y). split; [|reflexivity]. apply in_final. exists "name"%string, y. eexists. split; [exact Hy|]. split; [now right|]. split; [now left|].
    apply in_leaf. now split.
Qed.
Definition called (callee method : stree) : Prop :=
  callee = method \/
  s_kind callee = "attribute"%string /\ exists o, s_kind o = "identifier"%string /\ in_order (s_children callee) "object" o "attribute" method.
Definition calls_with (x method y : stree) (Hc : stree -> Prop) : Prop :=
  s_kind x = "call"%string /\ exists callee args, in_order (s_children x) "function" callee "arguments" args /\ Hc callee /\
    s_kind method = "identifier"%string /\ kw_arg args y.
Definition call_match (method y : stree) : emb := ([("method"%string, s_node method); ("key_id"%string, s_node y)], s_node y).
Lemma in_plain x m : In m (embed plain_call x) <-> exists method y, calls_with x method y (fun c => c = method) /\ m = call_match method y.
Proof.
  unfold plain_call. rewrite in_embed. split.
  - intros (Hk & m' & H & ->). apply in_one in H. destruct H as (a & f & callee & b & p & m1 & m2 & Ech & [X|<-] & [<-|[]] & H1 & H2 & ->); [discriminate|].
    apply in_leaf in H1. destruct H1 as (Hc & ->). apply in_kwargs in H2. destruct H2 as (args & y & Hi & Ha & ->). apply in_split in Hi. destruct Hi as (b1 & b2 & ->).
    exists callee, y. split; [|reflexivity]. split; [auto|]. exists callee, args. split; [now exists a, b1, b2|]. auto.
  - intros (method & y & (Hk & callee & args & (a & b & c & Ech) & -> & Hm & Ha) & ->). split; [auto|]. exists (call_match method y). split; [|reflexivity].
    apply in_one. exists a, "function"%string, method, (b ++ ("arguments"%string, args) :: c). eexists. exists ([("method"%string, s_node method)], s_node method), ([("key_id"%string, s_node y)], s_node y).
    split; [exact Ech|]. split; [now right|]. split; [now left|]. split; [apply in_leaf; now split|]. split; [|reflexivity].
    apply in_kwargs. exists args, y. split; [apply in_or_app; right; now left|]. auto.
Qed.
Lemma in_member_call x m :
  In m (embed member_call x) <-> exists method y,
    calls_with x method y (fun c => s_kind c = "attribute"%string /\ exists o, s_kind o = "identifier"%string /\ in_order (s_children c) "object" o "attribute" method) /\ m = call_match method y.
Proof.
  unfold member_call. rewrite in_embed. split.
  - intros (Hk & m' & H & ->). apply in_one in H. destruct H as (a & f & callee & b & p & m1 & m2 & Ech & [X|<-] & [<-|[]] & H1 & H2 & ->); [discriminate|].
    apply in_embed in H1. destruct H1 as (Hc & m3 & H1 & ->). apply in_one in H1. destruct H1 as (a1 & f1 & o & c1 & p & m4 & m5 & Eo & [X|<-] & [<-|[]] & H4 & H5 & ->); [discriminate|].
    apply in_leaf in H4. destruct H4 as (Ho & ->). apply in_final in H5. destruct H5 as (g & method & p & Hi & [X|<-] & [<-|[]] & H5); [discriminate|]. apply in_leaf in H5. destruct H5 as (Hm & ->).
    apply in_split in Hi. destruct Hi as (c2 & c3 & ->).
    apply in_kwargs in H2. destruct H2 as (args & y & Hi & Ha & ->). apply in_split in Hi. destruct Hi as (b1 & b2 & ->).
    exists method, y. split; [|reflexivity]. split; [auto|]. exists callee, args. split; [now exists a, b1, b2|]. split; [|auto]. split; [auto|]. exists o. split; [auto|]. now exists a1, c2, c3.
  - intros (method & y & (Hk & callee & args & (a & b & c & Ech) & (Hc & o & Ho & (a1 & c2 & c3 & Eo)) & Hm & Ha) & ->). split; [auto|]. exists (call_match method y). split; [|reflexivity].
    apply in_one. exists a, "function"%string, callee, (b ++ ("arguments"%string, args) :: c). eexists. exists ([("method"%string, s_node method)], s_node method), ([("key_id"%string, s_node y)], s_node y).
    split; [exact Ech|]. split; [now right|]. split; [now left|]. split; [|split].
    + apply in_embed. split; [auto|]. exists ([("method"%string, s_node method)], s_node method). split; [|reflexivity]. apply in_one.
      exists a1, "object"%string, o, (c2 ++ ("attribute"%string, method) :: c3). eexists. exists ([], s_node o), ([("method"%string, s_node method)], s_node method).
      split; [exact Eo|]. split; [now right|]. split; [now left|]. split; [apply in_leaf; now split|]. split; [|reflexivity].
      apply in_final. exists "attribute"%string, method. eexists. split; [apply in_or_app; right; now left|]. split; [now right|]. split; [now left|]. apply in_leaf. now split.
    + apply in_kwargs. exists args, y. split; [apply in_or_app; right; now left|]. auto.
    + reflexivity.
Qed.

(** ** All variables *)
Definition py_key : pattern := (mkpat [RNode key_sub_pat] [PMatch "field" (ReIs ["globals"; "filters"]); PEq "object" "jinja_env"])%string.
Definition py_call : pattern := (mkpat [RNode plain_call; RNode member_call] [PMatch "method" (ReIs ["render_template"; "render"])])%string.
Definition py_error : pattern := (mkpat [leaf "ERROR" "error"] [])%string.
Lemma python_is : PYTHON_DEFINITIONS = [py_key; py_call; py_error].
Proof. reflexivity. Qed.
Definition python_caught (src : string) (t : stree) (n : node) : Prop :=
  (exists x P A Q a fd b y f1 at_ f2 str f3, In x (preorder t) /\ fam_key x P A Q /\ P = @nil qcap /\
     in_order (s_children x) f1 at_ f2 str /\ s_kind at_ = "attribute"%string /\ s_children at_ = a ++ ("attribute"%string, fd) :: b /\
     s_kind fd = "identifier"%string /\ s_kind str = "string"%string /\ has (s_children str) f3 y /\ s_kind y = "string_content"%string /\
     A = objects_in a /\ Q = [("field"%string, s_node fd); ("key_id"%string, s_node y)] /\
     In (said src fd) ["globals"; "filters"]%string /\ Forall (fun o => text_of src o = "jinja_env"%string) A /\ n = s_node y) \/
  (exists x method y, In x (preorder t) /\ calls_with x method y (fun c => called c method) /\
     In (said src method) ["render_template"; "render"]%string /\ n = s_node y).
Lemma py_key_preds src A fd y :
  forallb (pred_holds src (map (pair "object"%string) A ++ [("field"%string, fd); ("key_id"%string, y)])) (p_preds py_key) = true <->
  In (text_of src fd) ["globals"; "filters"]%string /\ Forall (fun o => text_of src o = "jinja_env"%string) A.
Proof.
  rewrite preds_swap, forallb_app, andb_true_iff.
  assert (E1 : forallb (fun c => forallb (pred1 src c) (p_preds py_key)) [("field"%string, fd); ("key_id"%string, y)] = existsb (String.eqb (text_of src fd)) ["globals"; "filters"]%string).
  { cbn -[String.eqb text_of existsb]. lits. cbn -[String.eqb text_of existsb]. now rewrite !andb_true_r. }
  unfold qcap in *. rewrite E1, mem_in. clear E1. rewrite and_comm. apply and_iff_compat_l. rewrite forallb_forall, Forall_forall. split.
  - intros H o Ho. specialize (H ("object"%string, o) (in_map _ _ _ Ho)). cbn -[String.eqb text_of existsb] in H. change (String.eqb "object" "field") with false in H. rewrite String.eqb_refl, andb_true_r in H.
    cbn iota in H. cbn [andb] in H. apply String.eqb_eq in H. auto.
  - intros H c Hc. apply in_map_iff in Hc. destruct Hc as (o & <- & Ho). cbn -[String.eqb text_of existsb]. change (String.eqb "object" "field") with false. rewrite String.eqb_refl, andb_true_r.
    cbn iota. cbn [andb]. apply String.eqb_eq. symmetry. auto.
Qed.
Lemma py_call_preds src method y :
  forallb (pred_holds src (fst (call_match method y))) (p_preds py_call) = true <-> In (said src method) ["render_template"; "render"]%string.
Proof.
  rewrite preds_swap. cbn [call_match fst forallb].
  assert (E1 : forall a b, (a && true) && ((b && true) && true) = a && b) by (intros [] []; reflexivity).
  cbn -[String.eqb text_of existsb]. lits. cbn -[String.eqb text_of existsb]. rewrite !andb_true_r. unfold said. apply mem_in.
Qed.
Lemma python_captures src t c : told_apart t -> no_error t ->
  In c (concat (matches PYTHON_DEFINITIONS src t)) ->
  fst c = "key_id"%string /\ python_caught src t (snd c) \/ In (fst c) ["object"; "field"; "method"]%string.
Proof.
  intros Ht He Hc. apply in_concat in Hc. destruct Hc as (cs & Hcs & Hc). apply in_matches in Hcs. destruct Hcs as (x & m & Hx & Hm & ->).
  apply in_query in Hm. destruct Hm as (p & Hp & Hm). rewrite python_is in Hp. apply in_pattern in Hm. destruct Hm as (a & Ha & Hm & Hps).
  destruct Hp as [<-|[<-|[<-|[]]]].
  - destruct Ha as [<-|[]]. cbn [embed_root] in Hm. apply key_sub_largest in Hm; [|now apply apart_inside with t]. destruct Hm as (_ & P & A & Q & HF & _ & Em).
    rewrite Em in *. assert (HF0 := HF). destruct HF as (f1 & at_ & f2 & str & a & fd & b & f3 & y & _ & Ho & Hak & Ea & Hfk & Hsk & Hy & Hyk & -> & -> & ->). cbn [app] in *.
    apply py_key_preds in Hps. destruct Hps as (Hps1 & Hps2). apply in_app_or in Hc. destruct Hc as [Hc|[<-|[<-|[]]]].
    + right. apply in_map_iff in Hc. destruct Hc as (o & <- & _). cbn. auto.
    + right. cbn. auto.
    + left. split; [reflexivity|]. left. exists x. do 12 eexists. split; [exact Hx|]. split; [exact HF0|]. split; [reflexivity|]. split; [exact Ho|].
      split; [exact Hak|]. split; [exact Ea|]. split; [exact Hfk|]. split; [exact Hsk|]. split; [exact Hy|]. split; [exact Hyk|]. auto 10.
  - apply in_largest in Hm. assert (X : exists method y, calls_with x method y (fun c => called c method) /\ m = call_match method y).
    { destruct Ha as [<-|[<-|[]]]; cbn [embed_root] in Hm.
      - apply in_plain in Hm. destruct Hm as (method & y & (Hk & callee & args & Ho & Hcl & Hr) & ->). exists method, y. split; [|reflexivity]. split; [exact Hk|]. exists callee, args. split; [exact Ho|]. split; [now left|exact Hr].
      - apply in_member_call in Hm. destruct Hm as (method & y & (Hk & callee & args & Ho & Hcl & Hr) & ->). exists method, y. split; [|reflexivity]. split; [exact Hk|]. exists callee, args. split; [exact Ho|]. split; [now right|exact Hr]. }
    destruct X as (method & y & Hcw & ->). apply py_call_preds in Hps. cbn in Hc. destruct Hc as [<-|[<-|[]]]; [right; cbn; auto|]. left. split; [reflexivity|]. right. exists x, method, y. auto.
  - exfalso. destruct Ha as [<-|[]]. apply in_largest in Hm. rewrite embed_leaf in Hm. destruct (String.eqb_spec "ERROR" (s_kind x)) as [E|]; [|destruct Hm].
    unfold no_error in He. rewrite Forall_forall in He. now apply (He x Hx).
Qed.
Lemma call_flat x : (forall m, In m (embed plain_call x) -> length (fst m) = 2%nat) /\ (forall m, In m (embed member_call x) -> length (fst m) = 2%nat).
Proof.
  split; intros m Hm; [apply in_plain in Hm|apply in_member_call in Hm]; destruct Hm as (method & y & _ & ->); reflexivity.
Qed.
Lemma python_captures_all src t n : told_apart t -> python_caught src t n -> In ("key_id"%string, n) (concat (matches PYTHON_DEFINITIONS src t)).
Proof.
  intros Ht Hc. apply in_concat. destruct Hc as [(x & P & A & Q & a & fd & b & y & f1 & at_ & f2 & str & f3 & Hx & HF & -> & _ & _ & _ & _ & _ & _ & _ & -> & -> & Hfs & Hos & ->)|(x & method & y & Hx & Hcw & Hms & ->)].
  - destruct (key_there _ _ _ _ HF _ (subl_refl _)) as (l & Hl). exists (map (pair "object"%string) (objects_in a) ++ [("field"%string, s_node fd); ("key_id"%string, s_node y)]). split; [|apply in_or_app; right; right; now left].
    apply in_matches. exists x. eexists. split; [exact Hx|]. split; [|cbn [app] in Hl; symmetry; exact (eq_refl (fst (_, l)))]. apply in_query. exists py_key. rewrite python_is. split; [now left|].
    apply in_pattern. eexists. split; [now left|]. cbn [embed_root]. split.
    + apply key_sub_largest; [now apply apart_inside with t|]. split; [exact Hl|]. eexists _, _, _. split; [exact HF|]. split; [exact I|]. reflexivity.
    + cbn [fst app]. apply py_key_preds. auto.
  - exists (fst (call_match method y)). split; [|cbn; auto]. apply in_matches. exists x, (call_match method y). split; [exact Hx|]. split; [|reflexivity].
    apply in_query. exists py_call. rewrite python_is. split; [cbn; auto|]. apply in_pattern. destruct Hcw as (Hk & callee & args & Ho & Hcl & Hr). destruct (call_flat x) as (L1 & L2).
    destruct Hcl as [Hcl|Hcl].
    + exists (RNode plain_call). split; [cbn; auto|]. cbn [embed_root]. rewrite (largest_flat 2) by exact L1. split; [|now apply py_call_preds]. apply in_plain. exists method, y. split; [|reflexivity]. split; [exact Hk|]. exists callee, args. auto.
    + exists (RNode member_call). split; [cbn; auto|]. cbn [embed_root]. rewrite (largest_flat 2) by exact L2. split; [|now apply py_call_preds]. apply in_member_call. exists method, y. split; [|reflexivity]. split; [exact Hk|]. exists callee, args. auto.
Qed.
Lemma objects_in_iff l n : In n (objects_in l) <-> exists o, In ("object"%string, o) l /\ s_kind o = "identifier"%string /\ n = s_node o.
Proof.
  unfold objects_in. rewrite in_flat_map. split.
  - intros ((f & o) & Hi & H). cbn [fst snd] in H. destruct (String.eqb_spec f "object"); [|destruct H]. destruct (String.eqb_spec (s_kind o) "identifier"); [|destruct H].
    destruct H as [<-|[]]. subst. now exists o.
  - intros (o & Hi & Hk & ->). exists ("object"%string, o). split; [exact Hi|]. cbn [fst snd]. rewrite Hk. now left.
Qed.
Lemma python_caught_iff src t n : python_caught src t n <-> python_variable src t n (text_of src n).
Proof.
  split.
  - intros [(x & P & A & Q & a & fd & b & y & f1 & at_ & f2 & str & f3 & Hx & (? & ? & ? & ? & ? & ? & ? & ? & ? & Hk & _) & -> & Ho & Hak & Ea & Hfk & Hsk & Hy & Hyk & -> & -> & Hfs & Hos & ->)|(x & method & y & Hx & (Hk & callee & args & Ho & Hcl & Hm & (Ha & f3 & kw & Hkw & Hkk & Hy & Hyk)) & Hms & ->)].
    + apply (PvKey src t x f1 at_ f2 str a fd b f3 y); auto. intros o Hi Hok. rewrite Forall_forall in Hos. apply Hos. apply objects_in_iff. now exists o.
    + apply (PvArgument src t x callee args method f3 kw y); auto.
  - intros H. inversion H as [s f1 at_ f2 str a fd b f3 x Hx Hk Ho Hak Ea Hfk Hfs Hos Hsk Hy Hyk En|c callee args method f3 kw x Hx Hk Ho Hcl Hm Hms Ha Hkw Hkk Hy Hyk En].
    + left. exists s, [], (objects_in a), [("field"%string, s_node fd); ("key_id"%string, s_node x)], a, fd, b, x, f1, at_, f2, str, f3.
      split; [exact Hx|]. split; [exists f1, at_, f2, str, a, fd, b, f3, x; auto 20|]. repeat (split; [first [assumption|reflexivity]|]). split; [|reflexivity].
      apply Forall_forall. intros o Hi. apply objects_in_iff in Hi. destruct Hi as (o' & Hi & Hok & ->). now apply Hos.
    + right. exists c, method, x. split; [exact Hx|]. split; [|auto]. split; [exact Hk|]. exists callee, args. split; [exact Ho|]. split; [exact Hcl|]. split; [exact Hm|]. split; [exact Ha|]. exists f3, kw. auto.
Qed.
Lemma python_text src t n name : python_variable src t n name -> name = text_of src n.
Proof. intros H. inversion H; reflexivity. Qed.
Lemma python_definitions src t v : told_apart t -> no_error t ->
  In v (definitions_in (map (with_text src) (concat (matches PYTHON_DEFINITIONS src t)))) <->
  exists n name, python_variable src t n name /\ v = at_node BackendVariable n name.
Proof.
  intros Ht He. unfold definitions_in. rewrite before_error_all.
  - rewrite in_flat_map. split.
    + intros (b & Hb & Hv). apply in_map_iff in Hb. destruct Hb as ((nm & n) & <- & Hc). apply python_captures in Hc; auto. cbn [fst snd] in Hc. destruct Hc as [(-> & Hc)|Hc].
      * cbn in Hv. destruct Hv as [<-|[]]. exists n, (text_of src n). split; [now apply python_caught_iff|reflexivity].
      * exfalso. cbn in Hc. repeat destruct Hc as [<-|Hc]; try (destruct Hv; fail); destruct Hc.
    + intros (n & name & Hv & ->). assert (E := python_text _ _ _ _ Hv). subst name. exists (with_text src ("key_id"%string, n)). split; [|left; reflexivity]. apply in_map.
      apply python_captures_all; [exact Ht|]. now apply python_caught_iff.
  - apply Forall_map. apply Forall_forall. intros (nm & n) Hc. apply python_captures in Hc; auto. unfold with_text. cbn [bc_name fst snd] in *.
    destruct Hc as [(-> & _)|Hc]; [discriminate|]. cbn in Hc |- *. repeat destruct Hc as [<-|Hc]; try discriminate. destruct Hc.
Qed.

(** ** Opening a backend file *)
Section Backend.
Context {T : ts}.
Lemma backend_opened F b uri (t : text) (s : lsp_files T) tr ds rs :
  file_ext uri = Some Backend ->
  t_parse T (ls_parser s) (encode t) (sget uri (ls_bt s)) = Some tr ->
  concat (t_captures T (QBackendDefs (ls_query s)) tr (encode t)) = map as_capture ds -> Forall (covers (encode t)) ds ->
  concat (t_captures T (QBackendTemplates (ls_query s)) tr (encode t)) = map as_capture rs -> Forall (covers (encode t)) rs ->
  exists s', did_open F b uri t false s = Ok (s', Some [(uri, map (fun i => (TemplateNotFound, i))
      (filter (fun i => itype_eqb (id_type i) JinjaTemplate && not_found F (cf_templates (ls_config s)) (id_name i)) (definitions_in ds ++ references [] rs)))]) /\
    sget uri (ls_vars s') = Some (definitions_in ds ++ references [] rs) /\ (forall f, f <> uri -> sget f (ls_vars s') = sget f (ls_vars s)).
Proof.
  intros Hx Ht Ed Hd Er Hr. unfold did_open. rewrite Hx.
  set (s2 := set_docs (sinsert uri t (ls_docs (delete_variables uri s))) (delete_variables uri s)) in *.
  assert (Hs2 : ls_bt s2 = ls_bt s /\ ls_query s2 = ls_query s /\ ls_parser s2 = ls_parser s /\ ls_config s2 = ls_config s /\
    (forall f, f <> uri -> sget f (ls_vars s2) = sget f (ls_vars s))).
  { destruct (delete_variables_docs uri s) as (D1 & D2 & D3 & D4). unfold s2. lsimp.
    repeat split; try assumption; unfold delete_variables; destruct (sget uri (ls_vars s)); try reflexivity. intros f Hf. lsimp. now apply sget_sinsert_other. }
  destruct Hs2 as (E1 & E2 & E3 & E4 & E5).
  unfold add_tree, parse. cbn [trees_of]. rewrite E1, E3, Ht. unfold add_variables. cbn [trees_of set_trees ls_bt].
  rewrite sget_sinsert_same.
  match goal with |- context [ls_query ?x] => change (ls_query x) with (ls_query s2) end. rewrite E2.
  rewrite (definitions_exact _ pt0 _ _ Ed Hd). cbn [bind].
  destruct (references_exact _ pt0 _ _ Er Hr) as (st & Est & Eb). rewrite Est. cbn [bind]. rewrite Eb.
  eexists. split; [|split].
  - unfold read_tree. lsimp. unfold s2 at 1. lsimp. rewrite sget_sinsert_same. rewrite Hx. cbn [trees_of]. lsimp. rewrite sget_sinsert_same.
    rewrite (backend_missing_exact T F b tr _ _ uri _ _ (definitions_in ds ++ references [] rs)) by apply sget_sinsert_same. cbn [bind].
    rewrite <- E4. reflexivity.
  - lsimp. apply sget_sinsert_same.
  - intros f Hf. lsimp. rewrite sget_sinsert_other by exact Hf. exact (E5 f Hf).
Qed.
End Backend.

Section Open.
Variables (parse : plang -> string -> option stree -> option stree) (edit : stree -> input_edit -> stree).
Let T := ts_with parse edit.
Lemma backend_file F b uri (t : text) (s : lsp_files T) tr variable call member name args str :
  file_ext uri = Some Backend -> parse (ls_parser s) (encode t) (sget uri (ls_bt s)) = Some tr ->
  readable (encode t) tr -> told_apart tr ->
  query_of (QBackendTemplates (ls_query s)) = [TEMPLATES call member name args str] ->
  (forall v, In v (definitions_in (map (with_text (encode t)) (concat (matches (query_of (QBackendDefs (ls_query s))) (encode t) tr)))) <->
     exists n name, variable n name /\ v = at_node BackendVariable n name) ->
  exists s' e, did_open F b uri t false s = Ok (s', Some [(uri, e)]) /\
    backend_known F uri s s' e (encode t) variable (loads call member name args str (encode t) tr).
Proof.
  intros Hx Hp Hr Ht Hq Hv.
  destruct (@backend_opened T F b uri t s tr (map (with_text (encode t)) (concat (matches (query_of (QBackendDefs (ls_query s))) (encode t) tr)))
    (map (with_text (encode t)) (concat (matches (query_of (QBackendTemplates (ls_query s))) (encode t) tr)))) as (s' & H & Hs & Ho); auto.
  - cbn [T ts_with t_captures]. rewrite with_text_caps. apply captured_concat.
  - eapply readable_covers; [exact Hr|]. apply captured_inside.
  - cbn [T ts_with t_captures]. rewrite with_text_caps. apply captured_concat.
  - eapply readable_covers; [exact Hr|]. apply captured_inside.
  - eexists _, _. split; [exact H|]. clear H. rewrite Hq in *.
    assert (HI : forall v, In v (definitions_in (map (with_text (encode t)) (concat (matches (query_of (QBackendDefs (ls_query s))) (encode t) tr))) ++
      references [] (map (with_text (encode t)) (concat (matches [TEMPLATES call member name args str] (encode t) tr)))) <->
      remembered variable (loads call member name args str (encode t) tr) (encode t) v).
    { intros v. rewrite in_app_iff. unfold remembered. rewrite Hv, template_refs by assumption. reflexivity. }
    split; [|split; [|exact Ho]].
    + eexists. split; [exact Hs|]. exact HI.
    + intros k i. rewrite in_map_iff. split.
      * intros (v & E & Hf). inversion E; subst. split; [reflexivity|]. apply filter_In in Hf. destruct Hf as (Hin & Hc). apply andb_true_iff in Hc. destruct Hc as (Hc1 & Hc2).
        apply HI in Hin. destruct Hin as [(n & nm & _ & ->)|(n & Hn & ->)]; [discriminate Hc1|]. exists n. split; [exact Hn|]. split; [reflexivity|].
        unfold not_found in Hc2. destruct (f_canon F _); congruence.
      * intros (-> & n & Hn & Ei & Hc). exists i. split; [reflexivity|]. apply filter_In. split; [apply HI; right; now exists n|].
        apply andb_true_iff. split; [now rewrite Ei|]. unfold not_found. now rewrite Hc.
Qed.
Theorem rust_file F b uri (t : text) (s : lsp_files T) tr :
  file_ext uri = Some Backend -> ls_query s <> PPython -> parse (ls_parser s) (encode t) (sget uri (ls_bt s)) = Some tr ->
  readable (encode t) tr -> told_apart tr -> no_error tr ->
  exists s' e, did_open F b uri t false s = Ok (s', Some [(uri, e)]) /\
    backend_known F uri s s' e (encode t) (rust_variable (encode t) tr) (rust_loads (encode t) tr).
Proof.
  intros Hx Hq Hp Hr Ht He. apply backend_file; auto.
  - destruct (ls_query s); congruence || reflexivity.
  - intros v. replace (query_of (QBackendDefs (ls_query s))) with RUST_DEFINITIONS by (destruct (ls_query s); congruence || reflexivity). now apply rust_definitions.
Qed.
Theorem python_file F b uri (t : text) (s : lsp_files T) tr :
  file_ext uri = Some Backend -> ls_query s = PPython -> parse (ls_parser s) (encode t) (sget uri (ls_bt s)) = Some tr ->
  readable (encode t) tr -> told_apart tr -> no_error tr ->
  exists s' e, did_open F b uri t false s = Ok (s', Some [(uri, e)]) /\
    backend_known F uri s s' e (encode t) (python_variable (encode t) tr) (python_loads (encode t) tr).
Proof.
  intros Hx Hq Hp Hr Ht He. apply backend_file; auto.
  - now rewrite Hq.
  - intros v. rewrite Hq. now apply python_definitions.
Qed.
End Open.
