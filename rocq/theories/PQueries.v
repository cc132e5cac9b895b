(** * PQueries: what the queries find in the trees of SpecQueries. *)
From Verif Require Import Base RString Utf8 Rope Types Captures MDefinition MObjects MTemplates MSearchErrors MLspFiles MQueries.
From Verif Require Import SpecScope SpecScope2 SpecObjects SpecObjects2 SpecLint SpecQueries.
From Verif Require Import PText PPlace PNav3.

(** ** Evaluation *)
Lemma embed_node k ss caps t :
  embed (QN k ss caps) t =
  if String.eqb k (s_kind t) then
    map (fun m => (map (fun c => (c, s_node t)) caps ++ fst m, snd m)) (embed_steps ss (s_node t) (s_children t))
  else [].
Proof.
  reflexivity.
Qed.
Lemma embed_leaf k c t :
  embed_root (leaf k c) t = if String.eqb k (s_kind t) then [([(c, s_node t)], s_node t)] else [].
Proof. unfold leaf. cbn [embed_root]. rewrite embed_node. destruct (String.eqb k (s_kind t)); reflexivity. Qed.
Lemma largest_le1 (ms : list emb) : (length ms <= 1)%nat -> largest ms = ms.
Proof.
  destruct ms as [|m [|m' r]]; [reflexivity| |cbn; lia]. intros _. unfold largest. cbn [filter existsb]. unfold smaller at 1.
  replace (length (fst m) <? length (fst m))%nat with false by (symmetry; apply Nat.ltb_irrefl). reflexivity.
Qed.
Lemma largest_leaf k c t : largest (embed_root (leaf k c) t) = embed_root (leaf k c) t.
Proof. apply largest_le1. rewrite embed_leaf. destruct (String.eqb k (s_kind t)); cbn; lia. Qed.

Lemma NoDup_app_parts {A} (a b : list A) : NoDup (a ++ b) -> NoDup a /\ NoDup b /\ forall i, In i a -> In i b -> False.
Proof.
  induction a as [|x a IH]; cbn; intros H; [repeat split; auto; constructor|].
  apply NoDup_cons_iff in H. destruct H as (Hx & H). destruct (IH H) as (A1 & A2 & A3). repeat split; auto.
  - constructor; auto. intros Hi. apply Hx. apply in_or_app. auto.
  - intros i [->|Hi] Hb; [apply Hx; apply in_or_app; auto|eauto].
Qed.

(** ** Order *)
Definition ids (l : list stree) : list N := map (fun x => n_id (s_node x)) l.
Definition ordering (f : stree -> list emb) (xs ys : list stree) : list emb :=
  flat_map (fun y => filter (ends_at y) (flat_map f xs)) ys.
Lemma matches_ordering q src t : matches q src t = map fst (ordering (query_at q src) (preorder t) (preorder t)).
Proof. reflexivity. Qed.
Lemma filter_flat_map {A B} (p : B -> bool) (f : A -> list B) l :
  filter p (flat_map f l) = flat_map (fun x => filter p (f x)) l.
Proof. induction l as [|a l IH]; [reflexivity|]. cbn [flat_map]. now rewrite filter_app, IH. Qed.
Lemma ends_none (y : stree) ms : Forall (fun m => n_id (snd m) <> n_id (s_node y)) ms -> filter (ends_at y) ms = [].
Proof.
  induction 1 as [|m r Hm _ IH]; [reflexivity|]. cbn [filter]. unfold ends_at at 1.
  destruct (n_id (snd m) =? n_id (s_node y)) eqn:E; [lia|exact IH].
Qed.
Lemma ends_all (y : stree) ms : Forall (fun m => n_id (snd m) = n_id (s_node y)) ms -> filter (ends_at y) ms = ms.
Proof.
  induction 1 as [|m r Hm _ IH]; [reflexivity|]. cbn [filter]. unfold ends_at at 1.
  destruct (n_id (snd m) =? n_id (s_node y)) eqn:E; [now rewrite IH|lia].
Qed.
(** What ends in [zs] does not end in [ys]. *)
Lemma ordering_other f xs ys zs :
  Forall (fun m => In (n_id (snd m)) (ids zs)) (flat_map f xs) -> (forall i, In i (ids ys) -> ~ In i (ids zs)) ->
  ordering f xs ys = [].
Proof.
  intros H Hd. unfold ordering. induction ys as [|y r IH]; [reflexivity|]. cbn [flat_map].
  rewrite IH by (intros i Hi; apply Hd; cbn; auto). rewrite app_nil_r. apply ends_none.
  eapply Forall_impl; [|exact H]. intros m Hm E. cbn beta in Hm, E. rewrite E in Hm. apply (Hd _ (or_introl eq_refl) Hm).
Qed.
Lemma ordering_app_r f xs a b : ordering f xs (a ++ b) = ordering f xs a ++ ordering f xs b.
Proof. unfold ordering. now rewrite flat_map_app. Qed.
Lemma ordering_skip f a b ys :
  (forall y, In y ys -> filter (ends_at y) (flat_map f a) = []) -> ordering f (a ++ b) ys = ordering f b ys.
Proof.
  intros H. unfold ordering. induction ys as [|y r IH]; [reflexivity|]. cbn [flat_map].
  rewrite flat_map_app, filter_app, (H y (or_introl eq_refl)). cbn [app]. f_equal.
  rewrite <- IH by (intros z Hz; apply H; cbn; auto). apply flat_map_ext. intros z. now rewrite flat_map_app.
Qed.
Lemma ordering_skip_r f a b ys :
  (forall y, In y ys -> filter (ends_at y) (flat_map f b) = []) -> ordering f (a ++ b) ys = ordering f a ys.
Proof.
  intros H. unfold ordering. induction ys as [|y r IH]; [reflexivity|]. cbn [flat_map].
  rewrite flat_map_app, filter_app, (H y (or_introl eq_refl)), app_nil_r. f_equal.
  rewrite <- IH by (intros z Hz; apply H; cbn; auto). apply flat_map_ext. intros z. now rewrite flat_map_app.
Qed.
Lemma ordering_split f a b :
  NoDup (ids (a ++ b)) ->
  Forall (fun m => In (n_id (snd m)) (ids a)) (flat_map f a) -> Forall (fun m => In (n_id (snd m)) (ids b)) (flat_map f b) ->
  ordering f (a ++ b) (a ++ b) = ordering f a a ++ ordering f b b.
Proof.
  intros Hn Ha Hb. unfold ids in Hn. rewrite map_app in Hn.
  assert (Hd : forall i, In i (ids a) -> In i (ids b) -> False).
  { apply (NoDup_app_parts _ _ Hn). }
  rewrite ordering_app_r. f_equal.
  - apply ordering_skip_r. intros y Hy. apply ends_none. eapply Forall_impl; [|exact Hb]. intros m Hm E. cbn beta in Hm, E. rewrite E in Hm.
    apply (Hd (n_id (s_node y))); [|exact Hm]. apply (in_map (fun x => n_id (s_node x))), Hy.
  - apply ordering_skip. intros y Hy. apply ends_none. eapply Forall_impl; [|exact Ha]. intros m Hm E. cbn beta in Hm, E. rewrite E in Hm.
    apply (Hd (n_id (s_node y))); [exact Hm|]. apply (in_map (fun x => n_id (s_node x))), Hy.
Qed.
(** Matches of one node. *)
Definition local (f : stree -> list emb) (x : stree) : Prop := Forall (fun m => snd m = s_node x) (f x).
Lemma local_in f l : Forall (local f) l -> Forall (fun m => In (n_id (snd m)) (ids l)) (flat_map f l).
Proof.
  intros H. apply Forall_forall. intros m Hm. apply in_flat_map in Hm. destruct Hm as (x & Hx & Hm).
  rewrite Forall_forall in H. specialize (H x Hx). unfold local in H. rewrite Forall_forall in H. rewrite (H m Hm).
  apply (in_map (fun x => n_id (s_node x))), Hx.
Qed.
Lemma ordering_local f l : NoDup (ids l) -> Forall (local f) l -> ordering f l l = flat_map f l.
Proof.
  induction l as [|x l IH]; intros Hn Hl; [reflexivity|]. inversion Hl as [|? ? Hx Hl']; subst.
  change (x :: l) with ([x] ++ l) at 1 2. rewrite ordering_split.
  - rewrite IH by (auto; cbn in Hn; now apply NoDup_cons_iff in Hn). cbn [flat_map]. f_equal.
    unfold ordering. cbn [flat_map]. rewrite !app_nil_r. apply ends_all. eapply Forall_impl; [|exact Hx].
    intros m ->. reflexivity.
  - exact Hn.
  - apply local_in. auto.
  - now apply local_in.
Qed.

(** Comparisons of literal strings. *)
Ltac lits :=
  repeat match goal with
         | |- context [String.eqb ?a ?b] =>
             let r := eval vm_compute in (String.eqb a b) in
             first [constr_eq r true | constr_eq r false]; change (String.eqb a b) with r
         end.
Ltac kinds := subst; cbn -[String.eqb all_digits text_of starts_with contains]; lits; cbn -[String.eqb all_digits text_of starts_with contains]; lits;
  cbn -[String.eqb all_digits text_of starts_with contains]; rewrite ?andb_true_r.

(** ** Objects *)
Definition ocap (src : string) (t : stree) : list qcap :=
  let n := s_node t in
  if String.eqb (s_kind t) "operator" then ("pipe"%string, n) :: (if String.eqb "." (text_of src n) then [("dot"%string, n)] else [])
  else if String.eqb (s_kind t) "identifier" then (if all_digits (text_of src n) then [] else [("just_id"%string, n)])
  else if String.eqb (s_kind t) "expression" then [("expr"%string, n)]
  else if String.eqb (s_kind t) "keyword" then (if String.eqb "is" (text_of src n) then [("is"%string, n)] else [])
  else if String.eqb (s_kind t) "ERROR" then [("error"%string, n)]
  else [].
Lemma objects_at src t : query_at OBJECTS src t = map (fun c => ([c], s_node t)) (ocap src t).
Proof.
  unfold query_at, OBJECTS. cbn [flat_map app]. rewrite app_nil_r. unfold pattern_at. cbn [p_alts p_preds rev app flat_map].
  rewrite !largest_leaf, !embed_leaf. destruct t as [k n ch]; cbn [s_kind s_node]. unfold ocap; cbn [s_kind s_node].
  rewrite !(String.eqb_sym _ k).
  destruct (String.eqb_spec k "operator"); [kinds; destruct (String.eqb "." (text_of src n)); reflexivity|].
  destruct (String.eqb_spec k "identifier"); [kinds; destruct (all_digits (text_of src n)); reflexivity|].
  destruct (String.eqb_spec k "expression"); [kinds; reflexivity|].
  destruct (String.eqb_spec k "keyword"); [kinds; destruct (String.eqb "is" (text_of src n)); reflexivity|].
  destruct (String.eqb_spec k "ERROR"); [kinds; reflexivity|]. reflexivity.
Qed.
Lemma objects_tree src t : told_apart t -> concat (matches OBJECTS src t) = flat_map (ocap src) (preorder t).
Proof.
  intros Hn. rewrite matches_ordering, ordering_local.
  - clear Hn. induction (preorder t) as [|x l IH]; [reflexivity|]. cbn [flat_map]. rewrite map_app, concat_app. f_equal; [|exact IH].
    rewrite objects_at, map_map. cbn [fst]. clear. induction (ocap src x) as [|c r IHr]; [reflexivity|]. cbn. now f_equal.
  - exact Hn.
  - apply Forall_forall. intros x _. unfold local. rewrite objects_at. apply Forall_forall. intros m Hm.
    apply in_map_iff in Hm. destruct Hm as (c & <- & _). reflexivity.
Qed.
Definition to_cap (c : qcap) : capture := mkcap (cname_of (fst c)) (snd c).
Lemma captured_concat q src t : concat (captured q src t) = map to_cap (concat (matches q src t)).
Proof. unfold captured. now rewrite concat_map. Qed.

Lemma digit_is c : is_digit c = true <-> digit c.
Proof.
  split.
  - destruct c as [[] [] [] [] [] [] [] []]; vm_compute; intros H; try discriminate; tauto.
  - intros H. vm_compute in H. repeat destruct H as [<-|H]; try reflexivity. destruct H.
Qed.
Lemma all_digits_number s : all_digits s = true <-> number s.
Proof.
  unfold all_digits, number. rewrite andb_true_iff, negb_true_iff, String.eqb_neq, forallb_forall, Forall_forall.
  split; intros (A & B); (split; [exact A|]); intros c Hc; apply digit_is; auto.
Qed.
Lemma not_number s : ~ number s <-> all_digits s = false.
Proof. rewrite <- all_digits_number. destruct (all_digits s); split; intros H; try easy; try (intros X; discriminate X). Qed.
Lemma reads_text src t : reads src t -> text_of src (fst t) = snd t.
Proof.
  intros (H & _). unfold utf8_text in H. unfold text_of. destruct (_ && _); [|discriminate].
  destruct (valid_utf8 _); now inversion H.
Qed.

Definition scap (src : string) (x : string * node) : list qcap := ocap src (SN (fst x) (snd x) []).
Definition says (src : string) (x : string * node) : Prop :=
  (fst x = "identifier"%string -> all_digits (text_of src (snd x)) = false) /\
  (fst x = "keyword"%string -> text_of src (snd x) = "is"%string).
Lemma spoken_caps src l ns :
  spoken src l ns -> Forall (fun x => s_kind x <> "ERROR"%string) l ->
  flat_map (ocap src) l = flat_map (scap src) ns /\ Forall (says src) ns.
Proof.
  induction 1 as [|t r ns Hs _ IH|t r ns Hs _ IH]; intros HE; [split; [reflexivity|constructor]| |];
    inversion HE as [|? ? Ht HE']; subst; destruct (IH HE') as (E & HF).
  - cbn [flat_map]. split; [now rewrite E|]. constructor; [|exact HF].
    destruct Hs; split; cbn; try discriminate; auto. intros _. now apply not_number.
  - split; [|exact HF]. cbn [flat_map]. rewrite E. clear E IH. replace (ocap src t) with (@nil qcap); [reflexivity|].
    destruct t as [k n ch]. unfold ocap. cbn [s_kind s_node] in *.
    destruct (String.eqb_spec k "operator"); [subst; elim Hs; constructor|].
    destruct (String.eqb_spec k "identifier").
    { subst. destruct (all_digits (text_of src n)) eqn:Ed; [reflexivity|]. elim Hs. constructor. now apply not_number. }
    destruct (String.eqb_spec k "expression"); [subst; elim Hs; constructor|].
    destruct (String.eqb_spec k "keyword").
    { subst. destruct (String.eqb_spec "is" (text_of src n)) as [Ei|]; [|reflexivity]. elim Hs. constructor. now symmetry. }
    destruct (String.eqb_spec k "ERROR"); [contradiction|reflexivity].
Qed.
Lemma scap_id src n : all_digits (text_of src n) = false -> scap src ("identifier"%string, n) = [("just_id"%string, n)].
Proof. intros H. unfold scap, ocap. cbn [fst snd s_kind s_node]. lits. now rewrite H. Qed.
Lemma scap_op src n : text_of src n <> "."%string -> scap src ("operator"%string, n) = [("pipe"%string, n)].
Proof. intros H. unfold scap, ocap. cbn [fst snd s_kind s_node]. lits. destruct (String.eqb_spec "." (text_of src n)); [congruence|reflexivity]. Qed.
Lemma scap_dot src n : text_of src n = "."%string -> scap src ("operator"%string, n) = [("pipe"%string, n); ("dot"%string, n)].
Proof. intros H. unfold scap, ocap. cbn [fst snd s_kind s_node]. lits. now rewrite H. Qed.
Lemma scap_is src n : text_of src n = "is"%string -> scap src ("keyword"%string, n) = [("is"%string, n)].
Proof. intros H. unfold scap, ocap. cbn [fst snd s_kind s_node]. lits. now rewrite H. Qed.
Lemma pipe_not_dot s : (exists r, s = ("|" ++ r)%string) -> s <> "."%string.
Proof. intros (r & ->). discriminate. Qed.

Lemma word_scap src w :
  word_ok src w -> pipe_first w -> Forall (says src) (word_nodes w) ->
  map to_cap (flat_map (scap src) (word_nodes w)) = cap_word w.
Proof.
  intros Hok Hp Hs. destruct w as [n|t|a|p name|kw|t]; cbn [word_nodes flat_map cap_word word_ok pipe_first] in *.
  - reflexivity.
  - inversion Hs as [|? ? (A & _) _]; subst. rewrite scap_id by auto. reflexivity.
  - destruct Hok as (Hd & _). apply reads_text in Hd. cbn [fst snd] in Hd.
    inversion Hs as [|? ? _ Hs']; subst. inversion Hs' as [|? ? (A & _) _]; subst.
    rewrite scap_dot, scap_id by auto. unfold cap_access. rewrite Hp. reflexivity.
  - destruct Hok as (Hr & Hb & _). apply reads_text in Hr. apply pipe_not_dot in Hb.
    inversion Hs as [|? ? _ Hs']; subst. inversion Hs' as [|? ? (A & _) _]; subst.
    rewrite scap_op, scap_id by (auto; congruence). reflexivity.
  - inversion Hs as [|? ? (_ & A) _]; subst. rewrite scap_is by auto. reflexivity.
  - destruct Hok as (Hr & _ & Hd). apply reads_text in Hr. rewrite scap_op by congruence. reflexivity.
Qed.
Lemma objects_words src t ws :
  told_apart t -> no_error t -> spoken src (preorder t) (flat_map word_nodes ws) ->
  Forall (word_ok src) ws -> Forall pipe_first ws ->
  concat (captured OBJECTS src t) = cap_words ws.
Proof.
  intros Hn He Hs Hok Hp. rewrite captured_concat, (objects_tree src t Hn).
  destruct (spoken_caps src _ _ Hs He) as (E & HF). rewrite E. clear E Hs.
  induction ws as [|w ws IH]; [reflexivity|]. inversion Hok; inversion Hp; subst. cbn [flat_map] in HF |- *.
  apply Forall_app in HF. destruct HF as (H1' & H2'). rewrite flat_map_app, map_app, IH by auto.
  unfold cap_words. cbn [flat_map]. f_equal. now apply word_scap.
Qed.
Lemma piece_scap src p :
  piece_ok src p -> piece_pipe_first p -> Forall (says src) (piece_nodes p) ->
  map to_cap (flat_map (scap src) (piece_nodes p)) = cap_piece p.
Proof.
  intros Hok Hp Hs. destruct p as [n|h fs|p name|kw nots name|t|t]; cbn [piece_nodes flat_map cap_piece piece_ok piece_pipe_first] in *.
  - reflexivity.
  - destruct Hok as (_ & _ & Hf). inversion Hs as [|? ? (A & _) Hs']; subst. rewrite scap_id by auto. cbn [app map]. f_equal.
    clear - Hf Hp Hs'. induction fs as [|a fs IH]; [reflexivity|]. cbn [flat_map app] in *.
    inversion Hf as [|? ? (Hd & _) Hf']; inversion Hp as [|? ? Hpf Hp']; subst.
    inversion Hs' as [|? ? _ Hs1]; subst. inversion Hs1 as [|? ? (A & _) Hs2]; subst. apply reads_text in Hd. cbn [fst snd] in Hd.
    rewrite scap_dot, scap_id by auto. cbn [app map]. rewrite IH by auto. unfold cap_access. rewrite Hpf. reflexivity.
  - destruct Hok as (Hr & Hb & _). apply reads_text in Hr. apply pipe_not_dot in Hb.
    inversion Hs as [|? ? _ Hs']; subst. inversion Hs' as [|? ? (A & _) _]; subst.
    rewrite scap_op, scap_id by (auto; congruence). reflexivity.
  - inversion Hs as [|? ? (_ & A) Hs']; subst. rewrite scap_is by auto. cbn [app map]. f_equal. clear - Hs'.
    induction nots as [|t nots IH]; cbn [map app flat_map] in *.
    + inversion Hs' as [|? ? (A & _) _]; subst. rewrite scap_id by auto. reflexivity.
    + inversion Hs' as [|? ? (A & _) Hs2]; subst. rewrite scap_id by auto. cbn [app map]. now rewrite IH.
  - inversion Hs as [|? ? (A & _) _]; subst. rewrite scap_id by auto. reflexivity.
  - destruct Hok as (Hr & _ & Hd). apply reads_text in Hr. rewrite scap_op by congruence. reflexivity.
Qed.
Lemma objects_pieces src t ps :
  told_apart t -> no_error t -> spoken src (preorder t) (flat_map piece_nodes ps) ->
  Forall (piece_ok src) ps -> Forall piece_pipe_first ps ->
  concat (captured OBJECTS src t) = cap_pieces ps.
Proof.
  intros Hn He Hs Hok Hp. rewrite captured_concat, (objects_tree src t Hn).
  destruct (spoken_caps src _ _ Hs He) as (E & HF). rewrite E. clear E Hs.
  induction ps as [|w ws IH]; [reflexivity|]. inversion Hok; inversion Hp; subst. cbn [flat_map] in HF |- *.
  apply Forall_app in HF. destruct HF as (H1' & H2'). rewrite flat_map_app, map_app, IH by auto.
  unfold cap_pieces. cbn [flat_map]. f_equal. now apply piece_scap.
Qed.

(** ** Definitions *)
Definition dcap (src : string) (t : stree) : list qcap :=
  let n := s_node t in let x := text_of src n in
  if String.eqb (s_kind t) "identifier" then (if all_digits x then [] else [("id"%string, n)])
  else if String.eqb (s_kind t) "keyword" then
    (if existsb (String.eqb x) ["for"; "set"; "with"; "macro"; "block"]%string then [("definition"%string, n)] else []) ++
    (if existsb (String.eqb x) ["if"; "elif"; "else"; "filter"; "autoescape"; "raw"]%string then [("scope"%string, n)] else []) ++
    (if starts_with x "end" then [("endblock"%string, n)] else [])
  else if String.eqb (s_kind t) "operator" then (if contains x "=" then [("equals"%string, n)] else [])
  else if String.eqb (s_kind t) "ERROR" then [("error"%string, n)]
  else [].
Lemma definitions_at src t :
  s_kind t <> "statement"%string -> query_at DEFINITIONS src t = map (fun c => ([c], s_node t)) (dcap src t).
Proof.
  intros Hk. unfold query_at, DEFINITIONS. cbn [flat_map app]. unfold pattern_at. cbn [p_alts p_preds rev app flat_map].
  rewrite !app_nil_r, !largest_leaf, !embed_leaf. cbn [embed_root]. rewrite embed_node.
  destruct t as [k n ch]; cbn [s_kind s_node] in *. unfold dcap; cbn [s_kind s_node].
  rewrite !(String.eqb_sym _ k). destruct (String.eqb_spec k "statement"); [contradiction|].
  change (largest []) with (@nil emb). cbn [filter app].
  destruct (String.eqb_spec k "identifier"); [kinds; destruct (all_digits (text_of src n)); reflexivity|].
  destruct (String.eqb_spec k "keyword").
  { subst. lits. cbn [filter fst snd forallb pred_holds regex_matches app]. lits. rewrite !andb_true_r.
    change (existsb (starts_with (text_of src n)) ["end"%string]) with (starts_with (text_of src n) "end" || false). rewrite orb_false_r.
    destruct (existsb _ ["for"; "set"; "with"; "macro"; "block"]%string), (existsb _ ["if"; "elif"; "else"; "filter"; "autoescape"; "raw"]%string),
      (starts_with _ "end"); reflexivity. }
  destruct (String.eqb_spec k "operator").
  { subst. lits. cbn [filter fst snd forallb pred_holds regex_matches app]. lits. rewrite !andb_true_r.
    change (existsb (contains (text_of src n)) ["="%string]) with (contains (text_of src n) "=" || false). rewrite orb_false_r.
    destruct (contains _ _); reflexivity. }
  destruct (String.eqb_spec k "ERROR"); [subst; reflexivity|]. reflexivity.
Qed.
Lemma one_kind k caps f c :
  s_kind (snd c) <> k ->
  (if field_ok f (fst c) then flat_map (fun p' => embed p' (snd c)) [QN k [] caps] else []) = [].
Proof.
  intros H. destruct (field_ok f (fst c)); [|reflexivity]. cbn [flat_map]. rewrite embed_node.
  destruct (String.eqb_spec k (s_kind (snd c))); [congruence|reflexivity].
Qed.
Lemma pick_skip one k a b : Forall (fun c => one c = []) a -> pick one k (a ++ b) = pick one k b.
Proof. induction 1 as [|c a Hc _ IH]; [reflexivity|]. cbn [app pick]. now rewrite Hc. Qed.
Lemma inner_children mid :
  inner (flat_map (fun c : string * stree => preorder (snd c)) mid) -> Forall (fun c => ~ In (s_kind (snd c)) ["statement"; "statement_begin"; "statement_end"]%string) mid.
Proof.
  induction mid as [|c mid IH]; intros H; constructor.
  - unfold inner in H. cbn [flat_map] in H. apply Forall_app in H. destruct H as (H & _). destruct (snd c) as [k n ch].
    cbn [preorder] in H. now inversion H.
  - apply IH. unfold inner in *. cbn [flat_map] in H. now apply Forall_app in H.
Qed.
Lemma statement_at src n b mid e f1 f2 :
  inner (flat_map (fun c => preorder (snd c)) mid) ->
  query_at DEFINITIONS src (SN "statement" n ((f1, SN "statement_begin" b []) :: mid ++ [(f2, SN "statement_end" e [])])) =
  [([("scope_end"%string, b); ("scope_start"%string, e)], e)].
Proof.
  intros Hin. apply inner_children in Hin.
  set (ch := (f1, SN "statement_begin" b []) :: mid ++ [(f2, SN "statement_end" e [])]).
  assert (E0 : query_at DEFINITIONS src (SN "statement" n ch) =
    largest (embed_steps [step "statement_begin" ["scope_end"%string]; step "statement_end" ["scope_start"%string]] n ch)).
  { clearbody ch. unfold query_at, DEFINITIONS. cbn [flat_map app]. unfold pattern_at. cbn [p_alts p_preds rev app flat_map].
    rewrite !app_nil_r. cbn [embed_root]. rewrite embed_node. cbn [s_kind s_node s_children]. lits.
    cbn [filter app forallb map]. rewrite map_ext with (g := fun m => m) by (intros (x, y); reflexivity). rewrite map_id.
    clear. induction (largest _) as [|m l IH]; [reflexivity|]. cbn [filter]. now rewrite IH. }
  rewrite E0. unfold ch. clear E0 ch.
  set (st2 := step "statement_end" ["scope_start"%string]).
  assert (E2 : forall last, embed_steps [st2] last (mid ++ [(f2, SN "statement_end" e [])]) = [([("scope_start"%string, e)], e)]).
  { intros last. unfold st2, step, one. cbn [embed_steps]. rewrite pick_skip.
    - cbn. destruct (field_ok "" f2) eqn:Ef; [reflexivity|]. unfold field_ok in Ef. cbn in Ef. discriminate.
    - eapply Forall_impl; [|exact Hin]. intros c Hc. apply one_kind. intros X. apply Hc. rewrite X. cbn. auto. }
  assert (E1 : embed_steps [step "statement_begin" ["scope_end"%string]; st2] n ((f1, SN "statement_begin" b []) :: mid ++ [(f2, SN "statement_end" e [])]) =
    [([("scope_end"%string, b); ("scope_start"%string, e)], e)]).
  { change (embed_steps [step "statement_begin" ["scope_end"%string]; st2]) with
      (fun (last : node) ch => pick (fun c => if field_ok "" (fst c) then flat_map (fun p' => embed p' (snd c)) [QN "statement_begin" [] ["scope_end"%string]] else []) (embed_steps [st2]) ch).
    cbn beta. cbn [pick].
    match goal with |- ?a ++ ?p = _ => replace p with (@nil emb) end.
    - cbn [fst snd]. change (field_ok "" f1) with true. cbn [flat_map]. rewrite embed_node. cbn [s_kind s_node s_children]. lits.
      change (embed_steps [] b []) with [(@nil qcap, b)]. cbn [map app flat_map fst snd]. unfold join_emb. cbn [fst snd]. rewrite E2. reflexivity.
    - symmetry. rewrite pick_skip.
      + cbn [pick]. rewrite one_kind by discriminate. reflexivity.
      + eapply Forall_impl; [|exact Hin]. intros c Hc. apply one_kind. intros X. apply Hc. rewrite X. cbn. auto. }
  rewrite E1. now apply largest_le1.
Qed.

Lemma has_eq x : contains x "=" = true <-> exists a z, x = (a ++ "=" ++ z)%string.
Proof. exact (contains_iff x "="). Qed.
Definition dname (k : dkind) : string :=
  match k with DkId => "id" | DkEq => "equals" | DkDef => "definition" | DkScope => "scope" | DkEnd => "endblock" end.
Definition sign_caps (s : sign) : list qcap :=
  match s with
  | SgWord k n => [(dname k, n)]
  | SgTail b e => [("scope_end"%string, b); ("scope_start"%string, e)]
  end.
Lemma mem_in x l : existsb (String.eqb x) l = true <-> In x l.
Proof.
  rewrite existsb_exists. split.
  - intros (y & Hy & E). apply String.eqb_eq in E. now subst.
  - intros H. exists x. split; [exact H|apply String.eqb_refl].
Qed.
Lemma hears_caps src t k : hears src t k -> dcap src t = [(dname k, s_node t)].
Proof.
  intros [n ch H|n ch a z H|n ch H|n ch H|n ch z H]; unfold dcap; cbn [s_kind s_node]; lits.
  - apply not_number in H. now rewrite H.
  - assert (X : contains (text_of src n) "=" = true) by (apply has_eq; eauto). now rewrite X.
  - cbn [In] in H. repeat destruct H as [<-|H]; try reflexivity. destruct H.
  - cbn [In] in H. repeat destruct H as [<-|H]; try reflexivity. destruct H.
  - rewrite H. destruct z; reflexivity.
Qed.
Lemma silent_caps src t : (forall k, ~ hears src t k) -> s_kind t <> "ERROR"%string -> dcap src t = [].
Proof.
  intros H He. unfold dcap. destruct t as [k n ch]; cbn [s_kind s_node] in *.
  destruct (String.eqb_spec k "identifier").
  { subst. destruct (all_digits (text_of src n)) eqn:E; [reflexivity|]. elim (H DkId). constructor. now apply not_number. }
  destruct (String.eqb_spec k "keyword").
  { subst. match goal with |- context [existsb ?f ["for"; "set"; "with"; "macro"; "block"]%string] =>
      destruct (existsb f ["for"; "set"; "with"; "macro"; "block"]%string) eqn:E1 end.
    { apply mem_in in E1. elim (H DkDef). now constructor. }
    match goal with |- context [existsb ?f ["if"; "elif"; "else"; "filter"; "autoescape"; "raw"]%string] =>
      destruct (existsb f ["if"; "elif"; "else"; "filter"; "autoescape"; "raw"]%string) eqn:E2 end.
    { apply mem_in in E2. elim (H DkScope). now constructor. }
    destruct (starts_with (text_of src n) "end") eqn:E; [|reflexivity]. apply starts_with_app in E. destruct E as (z & E).
    elim (H DkEnd). now apply HeEnd with z. }
  destruct (String.eqb_spec k "operator").
  { subst. destruct (contains (text_of src n) "=") eqn:E; [|reflexivity]. apply has_eq in E. destruct E as (a & z & E).
    elim (H DkEq). now apply HeEq with a z. }
  destruct (String.eqb_spec k "ERROR"); [contradiction|reflexivity].
Qed.
Lemma heard_caps src l ms :
  heard src l ms -> Forall (fun x => s_kind x <> "ERROR"%string) l -> flat_map (dcap src) l = flat_map sign_caps ms.
Proof.
  induction 1 as [|t k r ss Hh _ IH|t r ss Hh _ IH]; intros He; [reflexivity| |]; inversion He as [|? ? Ht He']; subst; cbn [flat_map].
  - rewrite (hears_caps src t k Hh), IH by auto. reflexivity.
  - rewrite (silent_caps src t Hh Ht), IH by auto. reflexivity.
Qed.

Lemma inner_local src l :
  inner l -> Forall (local (query_at DEFINITIONS src)) l /\
    concat (map fst (flat_map (query_at DEFINITIONS src) l)) = flat_map (dcap src) l.
Proof.
  intros H. induction H as [|x l Hx _ (IH1 & IH2)]; [split; [constructor|reflexivity]|].
  assert (E : query_at DEFINITIONS src x = map (fun c => ([c], s_node x)) (dcap src x)).
  { apply definitions_at. intros E. apply Hx. rewrite E. cbn. auto. }
  split.
  - constructor; [|exact IH1]. unfold local. rewrite E. apply Forall_forall. intros m Hm. apply in_map_iff in Hm. destruct Hm as (c & <- & _). reflexivity.
  - cbn [flat_map]. rewrite map_app, concat_app. f_equal; [|exact IH2]. rewrite E, map_map. cbn [fst]. clear. induction (dcap src x) as [|c r IHr]; [reflexivity|]. cbn. now f_equal.
Qed.
Lemma one_statement src n b mid e f1 f2 :
  let t := SN "statement" n ((f1, SN "statement_begin" b []) :: mid ++ [(f2, SN "statement_end" e [])]) in
  let l := flat_map (fun c => preorder (snd c)) mid in
  let f := query_at DEFINITIONS src in
  inner l -> NoDup (ids (preorder t)) ->
  Forall (fun m => In (n_id (snd m)) (ids (preorder t))) (flat_map f (preorder t)) /\
  concat (map fst (ordering f (preorder t) (preorder t))) = flat_map (dcap src) l ++ [("scope_end"%string, b); ("scope_start"%string, e)].
Proof.
  intros t l f Hin Hnd.
  assert (Et : preorder t = [t] ++ (SN "statement_begin" b [] :: l) ++ [SN "statement_end" e []]).
  { unfold t at 1. cbn [preorder flat_map snd app]. rewrite flat_map_app. cbn. reflexivity. }
  assert (Ft : f t = [([("scope_end"%string, b); ("scope_start"%string, e)], e)]) by (apply statement_at; exact Hin).
  assert (Fb : f (SN "statement_begin" b []) = []) by (unfold f; rewrite definitions_at by discriminate; reflexivity).
  assert (Fe : f (SN "statement_end" e []) = []) by (unfold f; rewrite definitions_at by discriminate; reflexivity).
  destruct (inner_local src l Hin) as (Hl & Hc). fold f in Hl, Hc.
  assert (Hl' : Forall (local f) (SN "statement_begin" b [] :: l)).
  { constructor; [|exact Hl]. unfold local. rewrite Fb. constructor. }
  rewrite Et in *. set (bl := SN "statement_begin" b [] :: l) in *. set (te := SN "statement_end" e []) in *.
  assert (Hbl : flat_map f bl = flat_map f l) by (unfold bl; cbn [flat_map]; now rewrite Fb).
  split.
  - rewrite !flat_map_app. cbn [flat_map]. rewrite Ft, Fe. cbn [app]. rewrite app_nil_r. change (t :: bl ++ [te]) with ([t] ++ bl ++ [te]). constructor.
    + unfold ids. rewrite !map_app. apply in_or_app. right. apply in_or_app. right. cbn. auto.
    + pose proof (local_in f bl Hl') as X. eapply Forall_impl; [|exact X]. intros m Hm. cbn beta in Hm. unfold ids. rewrite !map_app.
      apply in_or_app. right. apply in_or_app. left. exact Hm.
  - unfold ids in Hnd. rewrite app_assoc, map_app in Hnd. destruct (NoDup_app_parts _ _ Hnd) as (Hpre & _ & Hdis).
    rewrite map_app in Hpre. destruct (NoDup_app_parts _ _ Hpre) as (_ & Hblnd & Hdis2).
    rewrite app_assoc at 2. rewrite ordering_app_r, map_app, concat_app. f_equal.
    + rewrite ordering_skip.
      2: { intros y Hy. cbn [flat_map]. rewrite Ft. apply ends_none. constructor; [|constructor]. cbn [snd]. intros X.
           apply (Hdis (n_id e)); [|cbn; auto]. rewrite X. apply (in_map (fun x => n_id (s_node x))) in Hy. exact Hy. }
      rewrite ordering_skip_r by (intros y Hy; cbn [flat_map]; rewrite Fe; reflexivity).
      rewrite ordering_app_r. rewrite (ordering_other f bl [t] bl).
      * rewrite ordering_local by assumption. cbn [app]. now rewrite Hbl.
      * now apply local_in.
      * intros i Hi Hj. apply (Hdis2 i Hi Hj).
    + unfold ordering. cbn [flat_map]. rewrite !flat_map_app. cbn [flat_map]. rewrite Ft, Fe. cbn [app]. rewrite !app_nil_r. cbn [filter].
      unfold ends_at at 1. cbn [snd s_node te]. rewrite N.eqb_refl.
      rewrite (ends_none te (flat_map f bl)); [reflexivity|]. pose proof (local_in f bl Hl') as X. eapply Forall_impl; [|exact X].
      intros m Hm Y. cbn beta in Hm, Y. apply (Hdis (n_id e)); [|cbn; auto]. cbn [s_node te] in Y. rewrite <- Y. rewrite map_app. apply in_or_app. auto.
Qed.
Lemma told_caps src items ss :
  told src items ss ->
  let l := flat_map preorder items in let f := query_at DEFINITIONS src in
  NoDup (ids l) -> Forall (fun x => s_kind x <> "ERROR"%string) l ->
  Forall (fun m => In (n_id (snd m)) (ids l)) (flat_map f l) /\
  concat (map fst (ordering f l l)) = flat_map sign_caps ss.
Proof.
  cbn zeta. induction 1 as [|n b mid e f1 f2 r ms ss Hin Hh _ IH|t r ms ss Hin Hh _ IH]; intros Hn He; [split; [constructor|reflexivity]| |].
  - cbn [flat_map] in *. set (t := SN "statement" n _) in *. unfold ids in Hn. rewrite map_app in Hn.
    destruct (NoDup_app_parts _ _ Hn) as (N1 & N2 & _). apply Forall_app in He. destruct He as (He1 & He2).
    destruct (one_statement src n b mid e f1 f2 Hin N1) as (A1 & A2). fold t in A1, A2. destruct (IH N2 He2) as (B1 & B2).
    assert (S : forall (x y : list stree), Forall (fun m : emb => In (n_id (snd m)) (ids x)) (flat_map (query_at DEFINITIONS src) x) ->
      Forall (fun m : emb => In (n_id (snd m)) (ids (x ++ y))) (flat_map (query_at DEFINITIONS src) x)).
    { intros x y X. eapply Forall_impl; [|exact X]. intros m Hm. unfold ids. rewrite map_app. apply in_or_app. auto. }
    split.
    + rewrite flat_map_app. apply Forall_app. split; [now apply S|]. eapply Forall_impl; [|exact B1]. intros m Hm. cbn beta in Hm. unfold ids. rewrite map_app. apply in_or_app. auto.
    + rewrite ordering_split; [|unfold ids; now rewrite map_app|assumption|assumption].
      rewrite map_app, concat_app. etransitivity; [apply f_equal2; [exact A2|exact B2]|]. rewrite flat_map_app. rewrite (heard_caps src _ ms Hh).
      * cbn [flat_map sign_caps]. now rewrite <- app_assoc.
      * unfold t in He1. cbn [preorder flat_map snd] in He1. inversion He1 as [|? ? _ X]; subst. cbn [app] in X. inversion X as [|? ? _ Y]; subst.
        rewrite flat_map_app in Y. now apply Forall_app in Y.
  - cbn [flat_map] in *. unfold ids in Hn. rewrite map_app in Hn.
    destruct (NoDup_app_parts _ _ Hn) as (N1 & N2 & _). apply Forall_app in He. destruct He as (He1 & He2). destruct (IH N2 He2) as (B1 & B2).
    destruct (inner_local src _ Hin) as (Hl & Hc). pose proof (local_in _ _ Hl) as A1. split.
    + rewrite flat_map_app. apply Forall_app. split.
      * eapply Forall_impl; [|exact A1]. intros m Hm. unfold ids. rewrite map_app. apply in_or_app. auto.
      * eapply Forall_impl; [|exact B1]. intros m Hm. unfold ids. rewrite map_app. apply in_or_app. auto.
    + rewrite ordering_split; [|unfold ids; now rewrite map_app|assumption|assumption].
      rewrite map_app, concat_app, flat_map_app. f_equal; [|exact B2]. rewrite ordering_local by assumption. etransitivity; [exact Hc|]. now apply heard_caps.
Qed.
Definition sign_captures (s : sign) : list capture := map to_cap (sign_caps s).
Lemma definitions_signs src k n ch ss :
  let t := SN k n ch in
  root_kind k -> told_apart t -> no_error t -> told src (map snd ch) ss ->
  concat (captured DEFINITIONS src t) = flat_map sign_captures ss.
Proof.
  intros t Hk Hn He Ht. rewrite captured_concat, matches_ordering.
  assert (Ep : preorder t = [t] ++ flat_map preorder (map snd ch)).
  { unfold t at 1. cbn [preorder app]. f_equal. clear. induction ch as [|c ch IH]; [reflexivity|]. cbn [map flat_map]. now f_equal. }
  unfold told_apart in Hn. unfold no_error in He. rewrite Ep in *. rewrite map_app in Hn. destruct (NoDup_app_parts _ _ Hn) as (_ & Hn2 & _).
  apply Forall_app in He. destruct He as (_ & He2).
  destruct (told_caps src _ ss Ht Hn2 He2) as (A1 & A2).
  assert (Ft : query_at DEFINITIONS src t = []).
  { rewrite definitions_at; unfold t; cbn [s_kind].
    - unfold dcap; cbn [s_kind s_node].
      repeat (match goal with |- context [String.eqb k ?x] => destruct (String.eqb_spec k x) as [->|]; [elim Hk; cbn; tauto|] end). reflexivity.
    - intros ->. apply Hk. cbn. tauto. }
  rewrite ordering_split.
  - rewrite map_app, concat_app, map_app. etransitivity; [apply f_equal2; [reflexivity|apply f_equal; exact A2]|]. unfold ordering at 1. cbn [flat_map]. rewrite Ft. cbn [app filter map concat].
    clear. induction ss as [|s ss IH]; [reflexivity|]. cbn [flat_map]. rewrite map_app. now f_equal.
  - unfold ids. now rewrite map_app.
  - cbn [flat_map]. rewrite Ft. constructor.
  - exact A1.
Qed.
Lemma signs_captures tp : flat_map sign_captures (signs tp) = captures_of tp.
Proof.
  assert (N : forall es, flat_map sign_captures (map noise_sign es) = map cap_noise es).
  { induction es as [|e es IH]; [reflexivity|]. cbn [map flat_map]. rewrite IH. destruct e; reflexivity. }
  assert (I : forall ts : list tok, flat_map sign_captures (map (fun t => SgWord DkId (fst t)) ts) = map (fun t => cap CId (fst t)) ts).
  { induction ts as [|e es IH]; [reflexivity|]. cbn [map flat_map]. rewrite IH. reflexivity. }
  assert (B : forall bs, flat_map sign_captures (flat_map bind_signs bs) = flat_map cap_bind bs).
  { induction bs as [|(x, es) bs IH]; [reflexivity|]. cbn [flat_map]. rewrite flat_map_app, IH. f_equal. unfold bind_signs, cap_bind. cbn [flat_map fst snd]. rewrite N. reflexivity. }
  assert (H : forall h, flat_map sign_captures (header_signs h) = cap_header h).
  { intros [| | | |]; cbn [header_signs cap_header flat_map]; rewrite ?flat_map_app, ?N, ?I, ?B; reflexivity. }
  assert (E : forall et, flat_map sign_captures (end_signs et) = cap_end et).
  { intros et. unfold end_signs, cap_end. cbn [flat_map]. rewrite flat_map_app, N. reflexivity. }
  induction tp; cbn [signs captures_of flat_map]; rewrite ?flat_map_app; cbn [flat_map]; rewrite ?flat_map_app, ?N, ?H, ?E; cbn [flat_map]; rewrite ?flat_map_app, ?E; try congruence.
  all: repeat match goal with X : flat_map _ (signs _) = _ |- _ => rewrite X; clear X end; reflexivity.
Qed.
Lemma definitions_tpl src k n ch tp :
  let t := SN k n ch in
  root_kind k -> told_apart t -> no_error t -> told src (map snd ch) (signs tp) ->
  concat (captured DEFINITIONS src t) = captures_of tp.
Proof. intros t Hk Hn He Ht. unfold t. rewrite (definitions_signs src k n ch _ Hk Hn He Ht). apply signs_captures. Qed.

(** ** Template references *)
Fixpoint sel (kind : string) (ch : kids) : list (stree * kids) :=
  match ch with
  | [] => []
  | c :: r => (if String.eqb kind (s_kind (snd c)) then [(snd c, r)] else []) ++ sel kind r
  end.
Definition with_caps (caps : list string) (n : node) (m : emb) : emb := (map (fun c => (c, n)) caps ++ fst m, snd m).
Lemma pick_sel kind caps k ch :
  pick (fun c => if field_ok "" (fst c) then flat_map (fun p' => embed p' (snd c)) [QN kind [] caps] else []) k ch =
  flat_map (fun p => map (with_caps caps (s_node (fst p))) (k (s_node (fst p)) (snd p))) (sel kind ch).
Proof.
  induction ch as [|c r IH]; [reflexivity|]. cbn [pick sel]. rewrite IH, flat_map_app. f_equal.
  change (field_ok "" (fst c)) with true. cbn [flat_map]. rewrite app_nil_r, embed_node.
  destruct (String.eqb kind (s_kind (snd c))); [|reflexivity].
  change (embed_steps [] (s_node (snd c)) (s_children (snd c))) with [(@nil qcap, s_node (snd c))].
  cbn [map flat_map fst snd]. rewrite !app_nil_r. reflexivity.
Qed.
Lemma steps_one kind caps ss last ch :
  embed_steps (step kind caps :: ss) last ch =
  flat_map (fun p => map (with_caps caps (s_node (fst p))) (embed_steps ss (s_node (fst p)) (snd p))) (sel kind ch).
Proof. exact (pick_sel kind caps (embed_steps ss) ch). Qed.
Lemma steps_opt kind caps ss last ch :
  embed_steps (QS Opt "" [QN kind [] caps] :: ss) last ch =
  flat_map (fun p => map (with_caps caps (s_node (fst p))) (embed_steps ss (s_node (fst p)) (snd p))) (sel kind ch) ++
  embed_steps ss last ch.
Proof. rewrite <- (pick_sel kind caps (embed_steps ss) ch). reflexivity. Qed.
Lemma sel_app kind a b : sel kind (a ++ b) = map (fun p => (fst p, snd p ++ b)) (sel kind a) ++ sel kind b.
Proof.
  induction a as [|c a IH]; [reflexivity|]. cbn [app sel]. rewrite IH, map_app, app_assoc. f_equal.
  destruct (String.eqb kind (s_kind (snd c))); reflexivity.
Qed.
Lemma sel_nodes kind a : map (fun p => s_node (fst p)) (sel kind a) = of_kind kind a.
Proof.
  induction a as [|c a IH]; [reflexivity|]. unfold of_kind. cbn [sel flat_map]. rewrite map_app. f_equal; [|exact IH].
  rewrite String.eqb_sym. destruct (String.eqb (s_kind (snd c)) kind); reflexivity.
Qed.
Lemma sel_none kind a : of_kind kind a = [] -> sel kind a = [].
Proof. rewrite <- sel_nodes. destruct (sel kind a); [reflexivity|discriminate]. Qed.
Lemma of_kind_app kind a b : of_kind kind (a ++ b) = of_kind kind a ++ of_kind kind b.
Proof. apply flat_map_app. Qed.
(** Suffixes of the children of a statement. *)
Definition ending (f : string) (e : node) : kids := [(f, SN "statement_end" e [])].
Lemma steps_end f e : forall last a, of_kind "statement_end" a = [] -> embed_steps [step "statement_end" []] last (a ++ ending f e) = [([], e)].
Proof.
  intros last a Ha. rewrite steps_one, sel_app, (sel_none _ _ Ha). reflexivity.
Qed.
Lemma inner_no_end l :
  inner (flat_map (fun c : string * stree => preorder (snd c)) l) ->
  of_kind "statement_end" l = [] /\ of_kind "statement_begin" l = [].
Proof.
  intros H. apply inner_children in H. unfold of_kind. induction H as [|c l Hc _ (IH1 & IH2)]; [split; reflexivity|].
  cbn [flat_map]. rewrite IH1, IH2.
  destruct (String.eqb_spec (s_kind (snd c)) "statement_end") as [E|]; [elim Hc; rewrite E; cbn; auto|].
  destruct (String.eqb_spec (s_kind (snd c)) "statement_begin") as [E|]; [elim Hc; rewrite E; cbn; auto|]. auto.
Qed.

(** Predicates, one capture at a time. *)
Definition pred1 (src : string) (c : qcap) (p : pred) : bool :=
  let x := text_of src (snd c) in
  let on cap (b : bool) := if String.eqb (fst c) cap then b else true in
  match p with
  | PEq c s => on c (String.eqb s x)
  | PNotEq c s => on c (negb (String.eqb s x))
  | PAnyOf c ss => on c (existsb (String.eqb x) ss)
  | PMatch c r => on c (regex_matches r x)
  | PNotMatch c r => on c (negb (regex_matches r x))
  end.
Lemma forallb_swap {A B} (f : A -> B -> bool) la lb :
  forallb (fun a => forallb (f a) lb) la = forallb (fun b => forallb (fun a => f a b) la) lb.
Proof.
  apply eq_true_iff_eq. rewrite !forallb_forall. split; intros H x Hx; apply forallb_forall; intros y Hy; specialize (H y Hy); rewrite forallb_forall in H; auto.
Qed.
Lemma preds_swap src m ps : forallb (pred_holds src m) ps = forallb (fun c => forallb (pred1 src c) ps) m.
Proof.
  rewrite <- forallb_swap. clear. induction ps as [|p ps IH]; [reflexivity|]. cbn [forallb]. rewrite IH. f_equal. destruct p; reflexivity.
Qed.
(** The choices all captures of which pass. *)
Section Fine.
Variable fine : qcap -> bool.
Definition fit (m : emb) : bool := forallb fine (fst m).
Definition fsteps (ss : list qstep) (last : node) (ch : kids) : list emb := filter fit (embed_steps ss last ch).
Definition ok_caps (caps : list string) (n : node) : bool := forallb fine (map (fun c => (c, n)) caps).
Lemma fit_with caps n l : filter fit (map (with_caps caps n) l) = if ok_caps caps n then map (with_caps caps n) (filter fit l) else [].
Proof.
  induction l as [|m l IH]; [destruct (ok_caps caps n); reflexivity|]. cbn [map filter]. rewrite IH.
  assert (E : fit (with_caps caps n m) = ok_caps caps n && fit m) by (unfold fit, with_caps; cbn [fst]; apply forallb_app).
  rewrite E. destruct (ok_caps caps n), (fit m); reflexivity.
Qed.
Definition fsel (kind : string) (caps : list string) (ss : list qstep) (ch : kids) : list emb :=
  flat_map (fun p => if ok_caps caps (s_node (fst p)) then map (with_caps caps (s_node (fst p))) (fsteps ss (s_node (fst p)) (snd p)) else [])
    (sel kind ch).
Lemma fsteps_one kind caps ss last ch : fsteps (step kind caps :: ss) last ch = fsel kind caps ss ch.
Proof.
  unfold fsteps at 1, fsel. rewrite steps_one, filter_flat_map. apply flat_map_ext. intros p. apply fit_with.
Qed.
Lemma fsteps_opt kind caps ss last ch :
  fsteps (QS Opt "" [QN kind [] caps] :: ss) last ch = fsel kind caps ss ch ++ fsteps ss last ch.
Proof.
  unfold fsteps at 1, fsel. rewrite steps_opt, filter_app, filter_flat_map. f_equal. apply flat_map_ext. intros p. apply fit_with.
Qed.
Lemma fsel_skip kind caps ss a r :
  Forall (fun n => ok_caps caps n = false) (of_kind kind a) -> fsel kind caps ss (a ++ r) = fsel kind caps ss r.
Proof.
  unfold fsel. rewrite sel_app, flat_map_app. intros H.
  match goal with |- ?x ++ _ = _ => enough (E : x = []) by (now rewrite E) end.
  rewrite <- sel_nodes in H. induction (sel kind a) as [|(p1, p2) l IH]; [reflexivity|]. cbn [map flat_map fst snd] in *. inversion H as [|? ? E H']; subst.
  rewrite E. cbn [app]. auto.
Qed.
Lemma fsel_here kind caps ss f n g r :
  fsel kind caps ss ((f, SN kind n g) :: r) = (if ok_caps caps n then map (with_caps caps n) (fsteps ss n r) else []) ++ fsel kind caps ss r.
Proof. unfold fsel at 1. cbn [sel snd s_kind]. rewrite String.eqb_refl. reflexivity. Qed.
Lemma fsel_other kind caps ss c r : s_kind (snd c) <> kind -> fsel kind caps ss (c :: r) = fsel kind caps ss r.
Proof. intros H. unfold fsel at 1. cbn [sel]. destruct (String.eqb_spec kind (s_kind (snd c))); [congruence|reflexivity]. Qed.
Lemma fsel_ending kind caps ss f e : kind <> "statement_end"%string -> fsel kind caps ss (ending f e) = [].
Proof. intros H. unfold ending. rewrite fsel_other by (cbn; congruence). reflexivity. Qed.
Lemma fsteps_end f e last a : of_kind "statement_end" a = [] -> fsteps [step "statement_end" []] last (a ++ ending f e) = [([], e)].
Proof. intros H. unfold fsteps. rewrite steps_end by exact H. reflexivity. Qed.
(** The last captured step. *)
Lemma fsel_last kind cap f e : kind <> "statement_end"%string -> forall a,
  of_kind "statement_end" a = [] ->
  fsel kind [cap] [step "statement_end" []] (a ++ ending f e) =
  map (fun n => ([(cap, n)], e)) (filter (fun n => fine (cap, n)) (of_kind kind a)).
Proof.
  intros Hk a. unfold fsel. rewrite sel_app, flat_map_app.
  change (flat_map _ (sel kind (ending f e))) with (fsel kind [cap] [step "statement_end" []] (ending f e)). rewrite fsel_ending, app_nil_r by exact Hk.
  induction a as [|c a IH]; intros Ha; [reflexivity|]. unfold of_kind in Ha |- *. cbn [flat_map] in Ha |- *.
  destruct (String.eqb_spec (s_kind (snd c)) "statement_end"); [discriminate|]. cbn [app] in Ha. cbn [sel].
  rewrite !map_app, flat_map_app, filter_app, map_app. f_equal; [|exact (IH Ha)].
  rewrite String.eqb_sym. destruct (String.eqb (s_kind (snd c)) kind); [|reflexivity]. cbn [map flat_map fst snd filter].
  unfold ok_caps. cbn [map forallb]. rewrite andb_true_r. destruct (fine (cap, s_node (snd c))); [|reflexivity].
  rewrite fsteps_end by exact Ha. reflexivity.
Qed.
End Fine.

(** How many captures a choice can have. *)
Fixpoint room (ss : list qstep) (ch : kids) : nat :=
  match ss with
  | [] => 0
  | QS _ _ [QN kind [] caps] :: r => (match of_kind kind ch with [] => 0 | _ => length caps end) + room r ch
  | _ :: r => room r ch
  end%nat.
Definition simple_step (s : qstep) : Prop := exists q kind caps, (q = One \/ q = Opt) /\ s = QS q "" [QN kind [] caps].
Lemma sel_split kind p ch : In p (sel kind ch) -> exists a f g, ch = a ++ (f, SN kind (s_node (fst p)) g) :: snd p.
Proof.
  induction ch as [|c r IH]; intros H; [destruct H|]. cbn [sel] in H. apply in_app_or in H. destruct H as [H|H].
  - destruct (String.eqb_spec kind (s_kind (snd c))); [|destruct H]. destruct H as [<-|[]]. destruct c as (f & [k n g]). cbn in *. subst. now exists [], f, g.
  - destruct (IH H) as (a & f & g & ->). now exists (c :: a), f, g.
Qed.
Lemma room_suffix ss a b : Forall simple_step ss -> (room ss b <= room ss (a ++ b))%nat.
Proof.
  induction 1 as [|s ss (q & kind & caps & _ & ->) _ IH]; [cbn; lia|]. cbn [room]. rewrite of_kind_app.
  destruct (of_kind kind b); [lia|]. destruct (of_kind kind a); cbn [app]; lia.
Qed.
Lemma room_ok ss : Forall simple_step ss -> forall last ch m, In m (embed_steps ss last ch) -> (length (fst m) <= room ss ch)%nat.
Proof.
  induction 1 as [|s ss (q & kind & caps & Hq & ->) Hss IH]; intros last ch m Hm; [cbn in Hm; destruct Hm as [<-|[]]; cbn; lia|].
  assert (S : In m (flat_map (fun p => map (with_caps caps (s_node (fst p))) (embed_steps ss (s_node (fst p)) (snd p))) (sel kind ch)) ->
    (length (fst m) <= room (QS q "" [QN kind [] caps] :: ss) ch)%nat).
  { intros H. apply in_flat_map in H. destruct H as (p & Hp & H). apply in_map_iff in H. destruct H as (m' & <- & Hm').
    destruct (sel_split _ _ _ Hp) as (a & f & g & E). apply IH in Hm'. unfold with_caps. cbn [fst]. rewrite app_length, map_length. cbn [room].
    assert (X : (room ss (snd p) <= room ss ch)%nat).
    { rewrite E. change (a ++ (f, SN kind (s_node (fst p)) g) :: snd p) with (a ++ [(f, SN kind (s_node (fst p)) g)] ++ snd p).
      rewrite app_assoc. now apply room_suffix. }
    destruct (of_kind kind ch) eqn:Ek; [|apply Nat.add_le_mono_l; exact (Nat.le_trans _ _ _ Hm' X)]. rewrite E, of_kind_app in Ek. apply app_eq_nil in Ek. destruct Ek as (_ & Ek).
    unfold of_kind in Ek. cbn [flat_map snd s_kind s_node] in Ek. rewrite String.eqb_refl in Ek. discriminate. }
  destruct Hq; subst q.
  - change (QS One "" [QN kind [] caps]) with (step kind caps) in Hm. rewrite steps_one in Hm. auto.
  - rewrite steps_opt in Hm. apply in_app_or in Hm. destruct Hm as [Hm|Hm]; [auto|]. apply IH in Hm. cbn [room]. destruct (of_kind kind ch); lia.
Qed.
Lemma filter_comm {A} (p q : A -> bool) l : filter p (filter q l) = filter q (filter p l).
Proof. induction l as [|a l IH]; [reflexivity|]. cbn [filter]. destruct (p a) eqn:Ep, (q a) eqn:Eq; cbn [filter]; rewrite ?Ep, ?Eq, ?IH; reflexivity. Qed.
Lemma filter_all {A} (p : A -> bool) l : Forall (fun x => p x = true) l -> filter p l = l.
Proof. induction 1 as [|a l H _ IH]; [reflexivity|]. cbn [filter]. now rewrite H, IH. Qed.
Lemma filter_none {A} (p : A -> bool) l : Forall (fun x => p x = false) l -> filter p l = [].
Proof. induction 1 as [|a l H _ IH]; [reflexivity|]. cbn [filter]. now rewrite H, IH. Qed.
(** Nothing is longer. *)
Lemma longest k (E : list emb) m : Forall (fun x => (length (fst x) <= k)%nat) E -> length (fst m) = k -> negb (existsb (smaller m) E) = true.
Proof.
  intros H Hm. apply negb_true_iff. apply not_true_iff_false. intros X. apply existsb_exists in X. destruct X as (x & Hx & X).
  rewrite Forall_forall in H. specialize (H x Hx). unfold smaller in X. apply andb_true_iff in X. destruct X as (X & _). apply Nat.ltb_lt in X. lia.
Qed.
Lemma not_longest (E : list emb) m x : In x E -> smaller m x = true -> negb (existsb (smaller m) E) = false.
Proof. intros Hx H. apply negb_false_iff. apply existsb_exists. eauto. Qed.

Definition iok (src : string) (c : qcap) : bool := forallb (pred1 src c) (flat_map p_preds JINJA_IMPORTS).
Lemma iok_kw src K w n :
  In (K, w) [("extends_keyword", "extends"); ("include_keyword", "include"); ("from_keyword", "from"); ("import_keyword", "import"); ("as_keyword", "as")]%string ->
  iok src (K, n) = String.eqb w (text_of src n).
Proof.
  intros H. unfold iok. cbn [JINJA_IMPORTS flat_map p_preds app forallb].
  cbn [In] in H. repeat destruct H as [H|H]; try (inversion H; subst; cbn [pred1 fst snd]; lits; cbn [andb]; rewrite ?andb_true_r, ?andb_diag; reflexivity).
Qed.
Lemma iok_other src K n : In K ["extends"; "include"; "from"; "import"; "template_name"]%string -> iok src (K, n) = true.
Proof.
  intros H. unfold iok. cbn [JINJA_IMPORTS flat_map p_preds app forallb].
  cbn [In] in H. repeat destruct H as [H|H]; try (subst; cbn [pred1 fst snd]; lits; reflexivity). destruct H.
Qed.
Lemma iok_id src n : ~ digit_first (text_of src n) -> iok src ("import_identifier"%string, n) = true.
Proof.
  intros H. unfold iok. cbn [JINJA_IMPORTS flat_map p_preds app forallb]. cbn [pred1 fst snd]. lits. cbn [andb regex_matches].
  destruct (text_of src n) as [|c r] eqn:E; [reflexivity|]. destruct (is_digit c) eqn:Ed; [|reflexivity].
  elim H. exists c, r. split; [reflexivity|]. now apply digit_is.
Qed.
Definition kw_steps (K : string) (ss : list qstep) : list qstep := step "keyword" [K] :: ss.
(** Statements without such a keyword, or with another one. *)
Definition key (K w : string) : Prop :=
  In (K, w) [("extends_keyword", "extends"); ("include_keyword", "include"); ("from_keyword", "from"); ("import_keyword", "import")]%string.
Lemma key_link K w : key K w -> In w linking.
Proof. unfold key. intros H. cbn [In] in H. repeat destruct H as [H|H]; try (inversion H; cbn; tauto). Qed.
Lemma key_iok src K w n : key K w -> ok_caps (iok src) [K] n = String.eqb w (text_of src n).
Proof.
  intros H. unfold ok_caps. cbn [map forallb]. rewrite andb_true_r. apply iok_kw. unfold key in H. cbn [In] in *. tauto.
Qed.
Lemma kw_skip src K w ss a r : key K w -> no_link src a ->
  fsel (iok src) "keyword" [K] ss (a ++ r) = fsel (iok src) "keyword" [K] ss r.
Proof.
  intros Hk Ha. apply fsel_skip. eapply Forall_impl; [|exact Ha]. intros n Hn. cbn beta in Hn. rewrite (key_iok src K w) by exact Hk.
  apply String.eqb_neq. intros E. apply Hn. rewrite <- E. now apply key_link with K.
Qed.
Lemma kw_found src K w ss a f kw g z f2 e : key K w -> no_link src a -> no_link src z ->
  fsel (iok src) "keyword" [K] ss (a ++ (f, SN "keyword" kw g) :: z ++ ending f2 e) =
  if String.eqb w (text_of src kw) then map (with_caps [K] kw) (fsteps (iok src) ss kw (z ++ ending f2 e)) else [].
Proof.
  intros Hk Ha Hz. rewrite (kw_skip src K w) by assumption. rewrite fsel_here, (key_iok src K w) by assumption.
  rewrite (kw_skip src K w) by assumption. rewrite fsel_ending by discriminate. now rewrite app_nil_r.
Qed.
Lemma kw_none src K w ss l f2 e : key K w -> no_link src l -> fsel (iok src) "keyword" [K] ss (l ++ ending f2 e) = [].
Proof. intros Hk Hl. rewrite (kw_skip src K w) by assumption. now rewrite fsel_ending. Qed.

(** The alternatives of the query at a statement. *)
Definition imp_steps (K : string) (r : list qstep) : list qstep := step "keyword" [K] :: step "string" ["template_name"%string] :: r.
Definition opt (kind cap : string) : qstep := QS Opt "" [QN kind [] [cap]].
Definition fin : qstep := step "statement_end" [].
Lemma imports_at src n b mid e f1 f2 :
  of_kind "statement_begin" mid = [] ->
  let alt C K r :=
    filter (fit (iok src)) (largest (map (with_caps [C] n) (embed_steps (imp_steps K r) b (mid ++ ending f2 e)))) in
  query_at JINJA_IMPORTS src (SN "statement" n ((f1, SN "statement_begin" b []) :: mid ++ ending f2 e)) =
  alt "import"%string "import_keyword"%string [opt "identifier" "as_keyword"; opt "identifier" "import_identifier"; fin] ++
  alt "from"%string "from_keyword"%string [opt "keyword" "import_keyword"; opt "identifier" "import_identifier"; fin] ++
  alt "include"%string "include_keyword"%string [fin] ++ alt "extends"%string "extends_keyword"%string [fin].
Proof.
  intros Hb alt. set (ch := (f1, SN "statement_begin" b []) :: mid ++ ending f2 e).
  assert (Hs : sel "statement_begin" ch = [(SN "statement_begin" b [], mid ++ ending f2 e)]).
  { unfold ch. cbn [sel snd s_kind]. lits. rewrite sel_app, (sel_none _ _ Hb). reflexivity. }
  assert (E : forall C ss, largest (embed_root (RNode (QN "statement" (step "statement_begin" [] :: ss) [C])) (SN "statement" n ch)) =
    largest (map (with_caps [C] n) (embed_steps ss b (mid ++ ending f2 e)))).
  { intros C ss. f_equal. cbn [embed_root]. rewrite embed_node. cbn [s_kind s_node s_children]. lits. rewrite steps_one, Hs. cbn [flat_map fst snd s_node].
    rewrite app_nil_r. rewrite map_ext with (g := fun m => m) (f := with_caps [] b) by (intros (x, y); reflexivity). rewrite map_id. reflexivity. }
  unfold query_at, JINJA_IMPORTS. cbn [flat_map]. rewrite app_nil_r. unfold pattern_at. cbn [p_alts p_preds rev app flat_map]. rewrite !E.
  rewrite largest_leaf, embed_leaf. cbn [s_kind]. lits. cbn [app]. rewrite app_nil_r.
  rewrite (filter_ext _ (fit (iok src))).
  - rewrite !filter_app. reflexivity.
  - intros m. rewrite preds_swap. reflexivity.
Qed.

Section Alt.
Variables (src : string) (n b : node) (mid : kids) (e : node) (f2 C K w : string) (r : list qstep).
Hypothesis Hkey : key K w.
Hypothesis HC : In C ["extends"; "include"; "from"; "import"]%string.
Let E : list emb := map (with_caps [C] n) (embed_steps (imp_steps K r) b (mid ++ ending f2 e)).
Lemma alt_max :
  filter (fit (iok src)) (largest E) =
  filter (fun m => negb (existsb (smaller m) E))
    (map (with_caps [C] n) (fsel (iok src) "keyword" [K] (step "string" ["template_name"%string] :: r) (mid ++ ending f2 e))).
Proof using HC.
  unfold largest. rewrite filter_comm. f_equal. unfold E. rewrite fit_with.
  unfold ok_caps. cbn [map forallb]. rewrite iok_other by (cbn [In] in *; tauto). cbn [andb]. f_equal.
  fold (fsteps (iok src) (imp_steps K r) b (mid ++ ending f2 e)). unfold imp_steps. apply fsteps_one.
Qed.
Lemma alt_off :
  fsel (iok src) "keyword" [K] (step "string" ["template_name"%string] :: r) (mid ++ ending f2 e) = [] ->
  filter (fit (iok src)) (largest E) = [].
Proof using HC Hkey. intros H. rewrite alt_max, H. reflexivity. Qed.
Lemma alt_bound k : Forall simple_step r -> (room (imp_steps K r) (mid ++ ending f2 e) <= k)%nat -> Forall (fun x : emb => (length (fst x) <= S k)%nat) E.
Proof using HC.
  intros Hr Hk. apply Forall_forall. intros m Hm. unfold E in Hm. apply in_map_iff in Hm. destruct Hm as (m' & <- & Hm').
  apply room_ok in Hm'.
  - unfold with_caps. cbn [fst map app length]. apply le_n_S. exact (Nat.le_trans _ _ _ Hm' Hk).
  - unfold imp_steps. constructor; [do 3 eexists; split; [now left|reflexivity]|]. constructor; [do 3 eexists; split; [now left|reflexivity]|exact Hr].
Qed.
End Alt.

Lemma room_fin ch : room [fin] ch = 0%nat.
Proof. unfold fin, step, one. cbn [room]. destruct (of_kind "statement_end" ch); reflexivity. Qed.
Lemma simple_fin : simple_step fin.
Proof. do 3 eexists. split; [now left|reflexivity]. Qed.
Lemma simple_opt k c : simple_step (opt k c).
Proof. do 3 eexists. split; [now right|reflexivity]. Qed.
Lemma room_one k c ss ch : (room (step k [c] :: ss) ch <= S (room ss ch))%nat.
Proof. unfold step, one. cbn [room]. destruct (of_kind k ch); cbn; lia. Qed.
Lemma room_opt k c ss ch : (room (opt k c :: ss) ch <= S (room ss ch))%nat.
Proof. unfold opt. cbn [room]. destruct (of_kind k ch); cbn; lia. Qed.
Lemma room_opt0 k c ss ch : of_kind k ch = [] -> room (opt k c :: ss) ch = room ss ch.
Proof. intros H. unfold opt. cbn [room]. now rewrite H. Qed.
Lemma room_imp K r ch k : (room r ch <= k)%nat -> (room (imp_steps K r) ch <= S (S k))%nat.
Proof.
  intros H. unfold imp_steps. eapply Nat.le_trans; [apply room_one|]. apply le_n_S. eapply Nat.le_trans; [apply room_one|]. now apply le_n_S.
Qed.
Lemma alt_simple src n b e f2 C K w a f kw g z :
  key K w -> In C ["extends"; "include"; "from"; "import"]%string -> no_link src a -> no_link src z -> text_of src kw = w ->
  of_kind "statement_end" z = [] ->
  filter (fit (iok src)) (largest (map (with_caps [C] n) (embed_steps (imp_steps K [fin]) b ((a ++ (f, SN "keyword" kw g) :: z) ++ ending f2 e)))) =
  map (fun s => ([(C, n); (K, kw); ("template_name"%string, s)], e)) (of_kind "string" z).
Proof.
  intros Hk HC Ha Hz Hw He. rewrite alt_max by assumption.
  assert (X : fsel (iok src) "keyword" [K] [step "string" ["template_name"%string]; fin] ((a ++ (f, SN "keyword" kw g) :: z) ++ ending f2 e) =
    map (fun s => ([(K, kw); ("template_name"%string, s)], e)) (of_kind "string" z)).
  { rewrite <- app_assoc. cbn [app]. rewrite (kw_found src K w) by assumption. rewrite Hw, String.eqb_refl, fsteps_one.
    unfold fin. rewrite fsel_last by (try discriminate; assumption). rewrite filter_all.
    - rewrite map_map. reflexivity.
    - apply Forall_forall. intros x _. apply iok_other. cbn. tauto. }
  rewrite X, map_map. cbn [with_caps map app fst snd]. apply filter_all. apply Forall_forall. intros m Hm.
  apply in_map_iff in Hm. destruct Hm as (s0 & <- & _). apply longest with 3%nat; [|reflexivity].
  apply alt_bound; [exact HC|repeat constructor; apply simple_fin|]. apply room_imp. rewrite room_fin. lia.
Qed.
Definition imported (C K : string) (n kw t : node) (l : list qcap) : list qcap := [(C, n); (K, kw); ("template_name"%string, t)] ++ l.
Definition stmt_qcaps (o : option istmt) : list (list qcap) :=
  match o with
  | None => []
  | Some (SExtends n kw t) => [imported "extends" "extends_keyword" n kw (fst t) []]
  | Some (SInclude n kw ts) => map (fun t => imported "include" "include_keyword" n kw (fst t) []) ts
  | Some (SFrom n kw t imp ids) =>
      map (fun i => imported "from" "from_keyword" n kw (fst t)
             ((("import_keyword"%string, imp) :: match i with Some i => [("import_identifier"%string, fst i)] | None => [] end))) ids
  | Some (SImport n kw t als) =>
      map (fun a => imported "import" "import_keyword" n kw (fst t)
             (match fst a with Some k => [("as_keyword"%string, k)] | None => [] end ++
              match snd a with Some i => [("import_identifier"%string, fst i)] | None => [] end)) als
  end.
Lemma stmt_qcaps_ok s : map (map to_cap) (stmt_qcaps (Some s)) = cap_stmt s.
Proof.
  destruct s; cbn [stmt_qcaps cap_stmt].
  - reflexivity.
  - rewrite map_map. reflexivity.
  - rewrite map_map. apply map_ext. intros [i|]; reflexivity.
  - rewrite map_map. apply map_ext. intros ([k|] & [i|]); reflexivity.
Qed.
(** Other keywords than the one that is there. *)
Lemma alt_other src n b e f2 C K w r a f kw g z :
  key K w -> In C ["extends"; "include"; "from"; "import"]%string -> no_link src a -> no_link src z -> text_of src kw <> w ->
  filter (fit (iok src)) (largest (map (with_caps [C] n) (embed_steps (imp_steps K r) b ((a ++ (f, SN "keyword" kw g) :: z) ++ ending f2 e)))) = [].
Proof.
  intros Hk HC Ha Hz Hw. apply alt_off with w; try assumption. rewrite <- app_assoc. cbn [app].
  rewrite (kw_found src K w) by assumption. destruct (String.eqb_spec w (text_of src kw)); [congruence|reflexivity].
Qed.
Lemma smaller_app (p a c : list qcap) e e' :
  (length a < length c)%nat -> sub_captures a c = true -> smaller (p ++ a, e) (p ++ c, e') = true.
Proof.
  intros Hl Hs. unfold smaller. cbn [fst]. apply andb_true_iff. split.
  - apply Nat.ltb_lt. rewrite !app_length. apply Nat.add_lt_mono_l. exact Hl.
  - clear Hl. induction p as [|x p IH]; [exact Hs|]. cbn [app sub_captures]. unfold qcap_eqb. rewrite String.eqb_refl, N.eqb_refl. exact IH.
Qed.
Lemma no_end_app a z : of_kind "statement_end" (a ++ z) = [] -> of_kind "statement_end" a = [] /\ of_kind "statement_end" z = [].
Proof. rewrite of_kind_app. apply app_eq_nil. Qed.
Lemma of_kind_cons kind f k n g r : of_kind kind ((f, SN k n g) :: r) = (if String.eqb k kind then [n] else []) ++ of_kind kind r.
Proof. reflexivity. Qed.
Lemma opt_id src f2 e last l :
  of_kind "statement_end" l = [] -> Forall (fun x => ~ digit_first (text_of src x)) (of_kind "identifier" l) ->
  fsteps (iok src) [opt "identifier" "import_identifier"; fin] last (l ++ ending f2 e) =
  map (fun i => ([("import_identifier"%string, i)], e)) (of_kind "identifier" l) ++ [([], e)].
Proof.
  intros He Hd. unfold opt. rewrite fsteps_opt. unfold fin. rewrite fsteps_end by exact He. rewrite fsel_last by (try discriminate; exact He).
  rewrite filter_all; [reflexivity|]. eapply Forall_impl; [|exact Hd]. intros x Hx. now apply iok_id.
Qed.
Lemma only_string src r last a f t g z f2 e :
  of_kind "string" a = [] -> of_kind "string" z = [] ->
  fsteps (iok src) (step "string" ["template_name"%string] :: r) last (a ++ (f, SN "string" t g) :: z ++ ending f2 e) =
  map (with_caps ["template_name"%string] t) (fsteps (iok src) r t (z ++ ending f2 e)).
Proof.
  intros Ha Hz. rewrite fsteps_one. rewrite fsel_skip by (rewrite Ha; constructor). rewrite fsel_here.
  unfold ok_caps. cbn [map forallb]. rewrite iok_other by (cbn; tauto). cbn [andb].
  rewrite fsel_skip by (rewrite Hz; constructor). rewrite fsel_ending by discriminate. now rewrite app_nil_r.
Qed.
Lemma no_string src r last z f2 e :
  of_kind "string" z = [] -> fsteps (iok src) (step "string" ["template_name"%string] :: r) last (z ++ ending f2 e) = [].
Proof. intros Hz. rewrite fsteps_one. rewrite fsel_skip by (rewrite Hz; constructor). now rewrite fsel_ending by discriminate. Qed.

(** The choices that pass are choices. *)
Lemma alt_in src n b ch C K r x :
  In C ["extends"; "include"; "from"; "import"]%string ->
  In x (map (with_caps [C] n) (fsel (iok src) "keyword" [K] (step "string" ["template_name"%string] :: r) ch)) ->
  In x (map (with_caps [C] n) (embed_steps (imp_steps K r) b ch)).
Proof.
  intros HC Hx. apply in_map_iff in Hx. destruct Hx as (m & <- & Hm). apply in_map. rewrite <- fsteps_one with (last := b) in Hm.
  unfold fsteps in Hm. apply filter_In in Hm. exact (proj1 Hm).
Qed.
Lemma alt_from src n b e f2 a f kw g b0 f1 t g1 c f3 imp g3 z :
  let mid := a ++ (f, SN "keyword" kw g) :: b0 ++ (f1, SN "string" t g1) :: c ++ (f3, SN "keyword" imp g3) :: z in
  no_link src a -> no_link src b0 -> no_link src c -> no_link src z ->
  text_of src kw = "from"%string -> text_of src imp = "import"%string ->
  of_kind "string" (b0 ++ c ++ z) = [] -> of_kind "identifier" (a ++ b0 ++ c) = [] ->
  Forall (fun x => ~ digit_first (text_of src x)) (of_kind "identifier" z) -> of_kind "statement_end" mid = [] ->
  filter (fit (iok src)) (largest (map (with_caps ["from"%string] n)
    (embed_steps (imp_steps "from_keyword" [opt "keyword" "import_keyword"; opt "identifier" "import_identifier"; fin]) b (mid ++ ending f2 e)))) =
  map (fun l => (imported "from" "from_keyword" n kw t (("import_keyword"%string, imp) :: l), e))
    (match of_kind "identifier" z with [] => [[]] | zs => map (fun i => [("import_identifier"%string, i)]) zs end).
Proof.
  intros mid Ha Hb Hc Hz Hkw Himp Hs Hi Hd He.
  set (r := [opt "keyword" "import_keyword"; opt "identifier" "import_identifier"; fin]).
  assert (HC : In "from"%string ["extends"; "include"; "from"; "import"]%string) by (cbn; tauto).
  assert (K1 : key "from_keyword" "from") by (unfold key; cbn; tauto).
  assert (K2 : key "import_keyword" "import") by (unfold key; cbn; tauto).
  set (zs := of_kind "identifier" z) in *.
  assert (He' : of_kind "statement_end" z = [] /\ of_kind "statement_end" (c ++ (f3, SN "keyword" imp g3) :: z) = []).
  { unfold mid in He. apply no_end_app in He. destruct He as (_ & He). rewrite of_kind_cons in He. apply app_eq_nil in He. destruct He as (_ & He).
    apply no_end_app in He. destruct He as (_ & He). rewrite of_kind_cons in He. apply app_eq_nil in He. destruct He as (_ & He). split; [|exact He].
    apply no_end_app in He. destruct He as (_ & He). rewrite of_kind_cons in He. apply app_eq_nil in He. exact (proj2 He). }
  destruct He' as (Hez & Hecz). rewrite !of_kind_app in Hs, Hi.
  apply app_eq_nil in Hs. destruct Hs as (Hsb & Hs). apply app_eq_nil in Hs. destruct Hs as (Hsc & Hsz).
  apply app_eq_nil in Hi. destruct Hi as (Hia & Hi). apply app_eq_nil in Hi. destruct Hi as (Hib & Hic).
  assert (Eid : of_kind "identifier" (c ++ (f3, SN "keyword" imp g3) :: z) = zs) by (rewrite of_kind_app, Hic, of_kind_cons; reflexivity).
  set (L := map (fun i => [("import_keyword"%string, imp); ("import_identifier"%string, i)]) zs ++ [[("import_keyword"%string, imp)]] ++
            map (fun i => [("import_identifier"%string, i)]) zs ++ [[]]).
  assert (X : map (with_caps ["from"%string] n) (fsel (iok src) "keyword" ["from_keyword"%string] (step "string" ["template_name"%string] :: r) (mid ++ ending f2 e)) =
    map (fun l => (imported "from" "from_keyword" n kw t l, e)) L).
  { unfold mid. rewrite <- app_assoc. cbn [app]. rewrite (kw_skip src _ _ _ _ _ K1 Ha), fsel_here, (key_iok src _ _ _ K1), Hkw. lits.
    rewrite <- app_assoc. cbn [app]. rewrite <- app_assoc. cbn [app].
    rewrite (kw_skip src _ _ _ _ _ K1 Hb), fsel_other by (cbn; discriminate).
    rewrite (kw_found src _ _ _ _ _ _ _ _ _ _ K1 Hc Hz), Himp. lits. rewrite app_nil_r.
    change (c ++ (f3, SN "keyword" imp g3) :: z ++ ending f2 e) with (c ++ ((f3, SN "keyword" imp g3) :: z) ++ ending f2 e). rewrite app_assoc.
    rewrite only_string by (try exact Hsb; rewrite of_kind_app, Hsc, of_kind_cons; exact Hsz).
    unfold r. unfold opt at 1. rewrite fsteps_opt. rewrite opt_id by (rewrite ?Eid; assumption). rewrite Eid.
    rewrite <- app_assoc. cbn [app]. rewrite (kw_found src _ _ _ _ _ _ _ _ _ _ K2 Hc Hz), Himp. lits. rewrite opt_id by assumption. fold zs.
    unfold L. rewrite !map_app, !map_map, <- !app_assoc. reflexivity. }
  rewrite alt_max by exact HC.
  assert (Lin : forall l, In l L -> In (imported "from" "from_keyword" n kw t l, e)
     (map (with_caps ["from"%string] n) (embed_steps (imp_steps "from_keyword" r) b (mid ++ ending f2 e)))).
  { intros l Hl. apply alt_in with src; [exact HC|]. rewrite X. apply (in_map (fun l => (imported "from" "from_keyword" n kw t l, e))), Hl. }
  set (E := map (with_caps ["from"%string] n) (embed_steps (imp_steps "from_keyword" r) b (mid ++ ending f2 e))) in *.
  rewrite X.
  assert (Sr : Forall simple_step r) by (unfold r; repeat constructor; auto using simple_opt, simple_fin).
  assert (M5 : Forall (fun x : emb => (length (fst x) <= 5)%nat) E).
  { apply alt_bound; [exact HC|exact Sr|]. apply room_imp. unfold r. eapply Nat.le_trans; [apply room_opt|]. apply le_n_S. eapply Nat.le_trans; [apply room_opt|]. rewrite room_fin. lia. }
  destruct zs as [|i0 zs'] eqn:Ez.
  - assert (M4 : Forall (fun x : emb => (length (fst x) <= 4)%nat) E).
    { apply alt_bound; [exact HC|exact Sr|]. apply room_imp. unfold r. eapply Nat.le_trans; [apply room_opt|]. apply le_n_S.
      rewrite room_opt0; [rewrite room_fin; lia|].
      unfold mid. rewrite of_kind_app, of_kind_app, Hia, of_kind_cons, of_kind_app, Hib, of_kind_cons. lits. cbn [app]. rewrite Eid. reflexivity. }
    unfold L. cbn [map app]. change (fun m : emb => negb (existsb (smaller m) E)) with (fun m : list qcap * node => negb (existsb (smaller m) E)).
    match goal with |- filter ?p [?x; ?y] = _ => change (filter p ([x] ++ [y]) = [x]) end. rewrite filter_app.
    rewrite filter_all, filter_none; [reflexivity| |].
    + constructor; [|constructor]. apply not_longest with (imported "from" "from_keyword" n kw t [("import_keyword"%string, imp)], e).
      * apply Lin. unfold L. cbn. auto.
      * apply smaller_app; [cbn; lia|reflexivity].
    + constructor; [|constructor]. apply (longest 4 E); [exact M4|reflexivity].
  - unfold L. rewrite !map_app, !filter_app.
    rewrite (filter_all _ (map _ (map (fun i => [("import_keyword"%string, imp); ("import_identifier"%string, i)]) (i0 :: zs')))).
    2: { apply Forall_forall. intros m Hm. rewrite map_map in Hm. apply in_map_iff in Hm. destruct Hm as (i & <- & _). apply (longest 5 E); [exact M5|reflexivity]. }
    rewrite (filter_none _ (map _ [[("import_keyword"%string, imp)]])).
    2: { constructor; [|constructor]. apply not_longest with (imported "from" "from_keyword" n kw t [("import_keyword"%string, imp); ("import_identifier"%string, i0)], e).
         - apply Lin. unfold L. cbn. auto.
         - apply smaller_app; [cbn; lia|]. cbn [sub_captures]. unfold qcap_eqb. cbn [fst snd]. lits. now rewrite N.eqb_refl. }
    rewrite (filter_none _ (map _ (map (fun i => [("import_identifier"%string, i)]) (i0 :: zs')))).
    2: { apply Forall_forall. intros m Hm. rewrite map_map in Hm. apply in_map_iff in Hm. destruct Hm as (i & <- & Hi').
         apply not_longest with (imported "from" "from_keyword" n kw t [("import_keyword"%string, imp); ("import_identifier"%string, i)], e).
         - apply Lin. unfold L. apply in_or_app. left. apply (in_map (fun i => [("import_keyword"%string, imp); ("import_identifier"%string, i)])), Hi'.
         - apply smaller_app; [cbn; lia|]. cbn [sub_captures]. unfold qcap_eqb. cbn [fst snd]. lits. cbn [andb]. now rewrite N.eqb_refl. }
    rewrite (filter_none _ (map _ [[]])).
    2: { constructor; [|constructor]. apply not_longest with (imported "from" "from_keyword" n kw t [("import_keyword"%string, imp)], e).
         - apply Lin. unfold L. apply in_or_app. right. cbn. auto.
         - apply smaller_app; [cbn; lia|reflexivity]. }
    rewrite !app_nil_r, !map_map. reflexivity.
Qed.

Definition as_steps : list qstep := [opt "identifier" "as_keyword"; opt "identifier" "import_identifier"; fin].
Lemma import_head src n e f2 a f kw g b0 f1 t g1 z :
  no_link src a -> no_link src b0 -> no_link src z -> text_of src kw = "import"%string ->
  of_kind "string" b0 = [] -> of_kind "string" z = [] ->
  map (with_caps ["import"%string] n) (fsel (iok src) "keyword" ["import_keyword"%string] (step "string" ["template_name"%string] :: as_steps)
    ((a ++ (f, SN "keyword" kw g) :: b0 ++ (f1, SN "string" t g1) :: z) ++ ending f2 e)) =
  map (fun m => (imported "import" "import_keyword" n kw t (fst m), snd m)) (fsteps (iok src) as_steps t (z ++ ending f2 e)).
Proof.
  intros Ha Hb Hz Hkw Hsb Hsz.
  assert (K2 : key "import_keyword" "import") by (unfold key; cbn; tauto).
  rewrite <- app_assoc. cbn [app]. rewrite (kw_skip src _ _ _ _ _ K2 Ha), fsel_here, (key_iok src _ _ _ K2), Hkw. lits.
  rewrite <- app_assoc. cbn [app].
  rewrite (kw_skip src _ _ _ _ _ K2 Hb), fsel_other by (cbn; discriminate). rewrite (kw_none src _ _ _ _ _ _ K2 Hz), app_nil_r.
  rewrite only_string by assumption. rewrite !map_map. reflexivity.
Qed.
Lemma simple_as : Forall simple_step as_steps.
Proof. unfold as_steps. repeat constructor; auto using simple_opt, simple_fin. Qed.
Lemma alt_import src n b e f2 a f kw g b0 f1 t g1 z :
  let mid := a ++ (f, SN "keyword" kw g) :: b0 ++ (f1, SN "string" t g1) :: z in
  no_link src a -> no_link src b0 -> no_link src z -> text_of src kw = "import"%string ->
  of_kind "string" (b0 ++ z) = [] -> of_kind "identifier" (a ++ b0 ++ z) = [] -> of_kind "statement_end" mid = [] ->
  filter (fit (iok src)) (largest (map (with_caps ["import"%string] n) (embed_steps (imp_steps "import_keyword" as_steps) b (mid ++ ending f2 e)))) =
  [(imported "import" "import_keyword" n kw t [], e)].
Proof.
  intros mid Ha Hb Hz Hkw Hs Hi He.
  assert (HC : In "import"%string ["extends"; "include"; "from"; "import"]%string) by (cbn; tauto).
  rewrite !of_kind_app in Hs, Hi.
  apply app_eq_nil in Hs. destruct Hs as (Hsb & Hsz). rewrite ?of_kind_app in Hi.
  apply app_eq_nil in Hi. destruct Hi as (Hia & Hi). apply app_eq_nil in Hi. destruct Hi as (Hib & Hiz).
  assert (Hez : of_kind "statement_end" z = []).
  { unfold mid in He. apply no_end_app in He. destruct He as (_ & He). rewrite of_kind_cons in He. apply app_eq_nil in He. destruct He as (_ & He).
    apply no_end_app in He. destruct He as (_ & He). rewrite of_kind_cons in He. apply app_eq_nil in He. exact (proj2 He). }
  rewrite alt_max by exact HC.
  assert (M : Forall (fun x : emb => (length (fst x) <= 3)%nat) (map (with_caps ["import"%string] n) (embed_steps (imp_steps "import_keyword" as_steps) b (mid ++ ending f2 e)))).
  { apply alt_bound; [exact HC|exact simple_as|]. apply room_imp. unfold as_steps. rewrite !room_opt0, room_fin; [lia| |];
      unfold mid; rewrite of_kind_app, of_kind_app, Hia, of_kind_cons, of_kind_app, Hib, of_kind_cons, Hiz; reflexivity. }
  unfold mid at 2. rewrite import_head by assumption.
  assert (X : fsteps (iok src) as_steps t (z ++ ending f2 e) = [([], e)]).
  { unfold as_steps, opt. rewrite fsteps_opt. fold (opt "identifier" "import_identifier"). rewrite opt_id by (rewrite ?Hiz; auto). rewrite Hiz. cbn [map app].
    rewrite fsel_skip by (rewrite Hiz; constructor). now rewrite fsel_ending by discriminate. }
  rewrite X. cbn [map fst snd]. apply filter_all. constructor; [|constructor]. eapply longest; [exact M|reflexivity].
Qed.
Lemma later_one (w : node) zs pre x q y : w :: zs = pre ++ x :: q -> In y q -> In y zs.
Proof.
  destruct pre as [|p pre]; cbn; intros E Hy; inversion E; subst; [exact Hy|]. apply in_or_app. cbn. auto.
Qed.
Lemma as_choices last ch m : In m (embed_steps as_steps last ch) ->
  (length (fst m) <= 1)%nat \/
  exists a f x g r y, ch = a ++ (f, SN "identifier" x g) :: r /\ In y (of_kind "identifier" r) /\
    fst m = [("as_keyword"%string, x); ("import_identifier"%string, y)].
Proof.
  intros H. unfold as_steps, opt in H. rewrite steps_opt in H.
  assert (F : forall last ch (m : emb), In m (embed_steps [opt "identifier" "import_identifier"; fin] last ch) ->
    fst m = [] \/ exists y, In y (of_kind "identifier" ch) /\ fst m = [("import_identifier"%string, y)]).
  { clear. intros last ch m H. unfold opt in H. rewrite steps_opt in H. apply in_app_or in H.
    assert (Z : forall last ch (m : emb), In m (embed_steps [fin] last ch) -> fst m = []).
    { clear. intros last ch m H. apply room_ok in H; [|repeat constructor; apply simple_fin]. rewrite room_fin in H. destruct (fst m); [reflexivity|cbn in H; lia]. }
    destruct H as [H|H]; [|left; eauto]. apply in_flat_map in H. destruct H as (p & Hp & H). apply in_map_iff in H. destruct H as (m' & <- & Hm').
    apply Z in Hm'. right. exists (s_node (fst p)). rewrite <- sel_nodes. split; [apply (in_map (fun p => s_node (fst p))), Hp|]. unfold with_caps. cbn [fst]. rewrite Hm'. reflexivity. }
  apply in_app_or in H. destruct H as [H|H].
  - apply in_flat_map in H. destruct H as (p & Hp & H). apply in_map_iff in H. destruct H as (m' & <- & Hm'). unfold with_caps. cbn [fst map].
    destruct (F _ _ _ Hm') as [->|(y & Hy & ->)]; [left; cbn; lia|]. right. destruct (sel_split _ _ _ Hp) as (a & f & g & ->).
    exists a, f, (s_node (fst p)), g, (snd p), y. auto.
  - left. destruct (F _ _ _ H) as [->|(y & _ & ->)]; cbn; lia.
Qed.
Lemma alt_import_as src n b e f2 a f kw g b0 f1 t g1 c f3 w g3 z i0 :
  let mid := a ++ (f, SN "keyword" kw g) :: b0 ++ (f1, SN "string" t g1) :: c ++ (f3, SN "identifier" w g3) :: z in
  let zs := of_kind "identifier" z in
  no_link src a -> no_link src b0 -> no_link src c -> no_link src z -> text_of src kw = "import"%string -> text_of src w = "as"%string ->
  of_kind "string" (b0 ++ c ++ z) = [] -> of_kind "identifier" (a ++ b0 ++ c) = [] ->
  Forall (fun x => text_of src x <> "as"%string /\ ~ digit_first (text_of src x)) zs -> In i0 zs ->
  ~ In (n_id w) (map n_id zs) -> of_kind "statement_end" mid = [] ->
  filter (fit (iok src)) (largest (map (with_caps ["import"%string] n) (embed_steps (imp_steps "import_keyword" as_steps) b (mid ++ ending f2 e)))) =
  map (fun i => (imported "import" "import_keyword" n kw t [("as_keyword"%string, w); ("import_identifier"%string, i)], e)) zs ++
  [(imported "import" "import_keyword" n kw t [("import_identifier"%string, w)], e)].
Proof.
  intros mid zs Ha Hb Hc Hz Hkw Hw Hs Hi Hd Hi0 Hnd He.
  assert (HC : In "import"%string ["extends"; "include"; "from"; "import"]%string) by (cbn; tauto).
  rewrite !of_kind_app in Hs, Hi.
  apply app_eq_nil in Hs. destruct Hs as (Hsb & Hs). apply app_eq_nil in Hs. destruct Hs as (Hsc & Hsz).
  apply app_eq_nil in Hi. destruct Hi as (Hia & Hi). apply app_eq_nil in Hi. destruct Hi as (Hib & Hic).
  assert (He' : of_kind "statement_end" z = [] /\ of_kind "statement_end" (c ++ (f3, SN "identifier" w g3) :: z) = []).
  { unfold mid in He. apply no_end_app in He. destruct He as (_ & He). rewrite of_kind_cons in He. apply app_eq_nil in He. destruct He as (_ & He).
    apply no_end_app in He. destruct He as (_ & He). rewrite of_kind_cons in He. apply app_eq_nil in He. destruct He as (_ & He). split; [|exact He].
    apply no_end_app in He. destruct He as (_ & He). rewrite of_kind_cons in He. apply app_eq_nil in He. exact (proj2 He). }
  destruct He' as (Hez & Hecz).
  assert (Eid : of_kind "identifier" (c ++ (f3, SN "identifier" w g3) :: z) = w :: zs) by (rewrite of_kind_app, Hic, of_kind_cons; reflexivity).
  assert (Nas : ~ digit_first (text_of src w)).
  { rewrite Hw. intros (x & r & E & Dx). inversion E; subst. vm_compute in Dx. repeat destruct Dx as [Dx|Dx]; try discriminate Dx; exact Dx. }
  assert (Hdz : Forall (fun x => ~ digit_first (text_of src x)) zs) by (eapply Forall_impl; [|exact Hd]; intros x Hx; apply Hx).
  set (L := map (fun i => [("as_keyword"%string, w); ("import_identifier"%string, i)]) zs ++ [[("as_keyword"%string, w)]] ++
            [[("import_identifier"%string, w)]] ++ map (fun i => [("import_identifier"%string, i)]) zs ++ [[]]).
  assert (X : map (with_caps ["import"%string] n) (fsel (iok src) "keyword" ["import_keyword"%string] (step "string" ["template_name"%string] :: as_steps) (mid ++ ending f2 e)) =
    map (fun l => (imported "import" "import_keyword" n kw t l, e)) L).
  { unfold mid. rewrite import_head; try assumption.
    2: { unfold no_link. rewrite of_kind_app, of_kind_cons. lits. cbn [app]. apply Forall_app. split; assumption. }
    2: { rewrite of_kind_app, Hsc, of_kind_cons. exact Hsz. }
    unfold as_steps. unfold opt at 1. rewrite fsteps_opt. rewrite opt_id.
    2: exact Hecz.
    2: { rewrite Eid. constructor; assumption. }
    rewrite Eid. rewrite <- app_assoc. cbn [app]. rewrite fsel_skip by (rewrite Hic; constructor). rewrite fsel_here.
    assert (Ok1 : forall x, ok_caps (iok src) ["as_keyword"%string] x = String.eqb "as" (text_of src x)).
    { intros x. unfold ok_caps. cbn [map forallb]. rewrite andb_true_r. apply iok_kw. cbn. tauto. }
    rewrite Ok1, Hw. lits. rewrite opt_id by assumption. fold zs.
    rewrite fsel_skip.
    2: { eapply Forall_impl; [|exact Hd]. intros x (Hx & _). rewrite Ok1. apply String.eqb_neq. congruence. }
    rewrite fsel_ending by discriminate. rewrite app_nil_r.
    unfold L. cbn [map app]. rewrite !map_app, !map_map, <- !app_assoc. cbn [map app]. rewrite !map_app, !map_map. reflexivity. }
  rewrite alt_max by exact HC.
  assert (Lin : forall l, In l L -> In (imported "import" "import_keyword" n kw t l, e)
     (map (with_caps ["import"%string] n) (embed_steps (imp_steps "import_keyword" as_steps) b (mid ++ ending f2 e)))).
  { intros l Hl. apply alt_in with src; [exact HC|]. rewrite X. apply (in_map (fun l => (imported "import" "import_keyword" n kw t l, e))), Hl. }
  assert (Top : forall x, In x (map (with_caps ["import"%string] n) (embed_steps (imp_steps "import_keyword" as_steps) b (mid ++ ending f2 e))) ->
    smaller (imported "import" "import_keyword" n kw t [("import_identifier"%string, w)], e) x = false).
  { intros x Hx. apply in_map_iff in Hx. destruct Hx as (m & <- & Hm). unfold imp_steps in Hm. rewrite steps_one in Hm.
    apply in_flat_map in Hm. destruct Hm as (p1 & Hp1 & Hm). apply in_map_iff in Hm. destruct Hm as (m1 & <- & Hm).
    rewrite steps_one in Hm. apply in_flat_map in Hm. destruct Hm as (p2 & Hp2 & Hm). apply in_map_iff in Hm. destruct Hm as (m2 & <- & Hm).
    destruct (sel_split _ _ _ Hp1) as (a1 & h1 & k1 & E1). destruct (sel_split _ _ _ Hp2) as (a2 & h2 & k2 & E2).
    unfold smaller, imported, with_caps. cbn [fst snd map app].
    destruct (as_choices _ _ _ Hm) as [Hl|(a3 & h3 & x & k3 & r3 & y & E3 & Hy & ->)].
    - cbn [length]. apply andb_false_iff. left. apply Nat.ltb_ge. cbn [length]. do 3 apply le_n_S. exact Hl.
    - apply andb_false_iff. right. cbn [sub_captures]. unfold qcap_eqb. cbn [fst snd]. lits. cbn [andb].
      rewrite N.eqb_refl. destruct (n_id kw =? n_id (s_node (fst p1))); [|reflexivity].
      destruct (n_id t =? n_id (s_node (fst p2))); [|reflexivity].
      destruct (n_id w =? n_id y) eqn:Ew; [|reflexivity]. exfalso. apply Hnd. apply N.eqb_eq in Ew. rewrite Ew. apply in_map.
      apply later_one with w (of_kind "identifier" (a1 ++ a2 ++ a3)) x (of_kind "identifier" r3); [|exact Hy].
      assert (Eall : of_kind "identifier" (mid ++ ending f2 e) = w :: zs).
      { unfold mid. rewrite of_kind_app, of_kind_app, Hia, of_kind_cons, of_kind_app, Hib, of_kind_cons, Eid. lits. cbn [app]. now rewrite app_nil_r. }
      etransitivity; [symmetry; exact Eall|]. etransitivity; [exact (f_equal (of_kind "identifier") E1)|]. rewrite !of_kind_app, <- !app_assoc. f_equal.
      etransitivity; [exact (f_equal (of_kind "identifier") E2)|]. rewrite !of_kind_app. f_equal.
      etransitivity; [exact (f_equal (of_kind "identifier") E3)|]. rewrite !of_kind_app. f_equal. }
  set (E := map (with_caps ["import"%string] n) (embed_steps (imp_steps "import_keyword" as_steps) b (mid ++ ending f2 e))) in *.
  rewrite X.
  assert (M5 : Forall (fun x : emb => (length (fst x) <= 5)%nat) E).
  { apply alt_bound; [exact HC|exact simple_as|]. apply room_imp. unfold as_steps. eapply Nat.le_trans; [apply room_opt|]. apply le_n_S. eapply Nat.le_trans; [apply room_opt|]. rewrite room_fin. lia. }
  unfold L. rewrite !map_app, !filter_app.
  rewrite (filter_all _ (map _ (map (fun i => [("as_keyword"%string, w); ("import_identifier"%string, i)]) zs))).
  2: { apply Forall_forall. intros m Hm. rewrite map_map in Hm. apply in_map_iff in Hm. destruct Hm as (i & <- & _). apply (longest 5 E); [exact M5|reflexivity]. }
  rewrite (filter_none _ (map _ [[("as_keyword"%string, w)]])).
  2: { constructor; [|constructor]. apply not_longest with (imported "import" "import_keyword" n kw t [("as_keyword"%string, w); ("import_identifier"%string, i0)], e).
       - apply Lin. unfold L. apply in_or_app. left. apply (in_map (fun i => [("as_keyword"%string, w); ("import_identifier"%string, i)])), Hi0.
       - apply smaller_app; [cbn; lia|]. cbn [sub_captures]. unfold qcap_eqb. cbn [fst snd]. lits. now rewrite N.eqb_refl. }
  rewrite (filter_all _ (map _ [[("import_identifier"%string, w)]])).
  2: { constructor; [|constructor]. apply negb_true_iff. apply not_true_iff_false. intros Y. apply existsb_exists in Y. destruct Y as (x & Hx & Y). rewrite (Top x Hx) in Y. discriminate. }
  rewrite (filter_none _ (map _ (map (fun i => [("import_identifier"%string, i)]) zs))).
  2: { apply Forall_forall. intros m Hm. rewrite map_map in Hm. apply in_map_iff in Hm. destruct Hm as (i & <- & Hi').
       apply not_longest with (imported "import" "import_keyword" n kw t [("as_keyword"%string, w); ("import_identifier"%string, i)], e).
       - apply Lin. unfold L. apply in_or_app. left. apply (in_map (fun i => [("as_keyword"%string, w); ("import_identifier"%string, i)])), Hi'.
       - apply smaller_app; [cbn; lia|]. cbn [sub_captures]. unfold qcap_eqb. cbn [fst snd]. lits. cbn [andb]. now rewrite N.eqb_refl. }
  rewrite (filter_none _ (map _ [[]])).
  2: { constructor; [|constructor]. apply not_longest with (imported "import" "import_keyword" n kw t [("as_keyword"%string, w)], e).
       - apply Lin. unfold L. apply in_or_app. right. cbn. auto.
       - apply smaller_app; [cbn; lia|reflexivity]. }
  cbn [app]. rewrite !app_nil_r, !map_map. reflexivity.
Qed.

Lemma kid_node kind l x : In x (of_kind kind l) -> In (n_id x) (ids (flat_map (fun c => preorder (snd c)) l)).
Proof.
  unfold of_kind. intros H. apply in_flat_map in H. destruct H as (c & Hc & H). destruct (String.eqb (s_kind (snd c)) kind); [|destruct H].
  destruct H as [<-|[]]. unfold ids. apply (in_map (fun x => n_id (s_node x))). apply in_flat_map. exists c. split; [exact Hc|].
  destruct (snd c). cbn. auto.
Qed.
Lemma ids_app a b : ids (a ++ b) = ids a ++ ids b.
Proof. apply map_app. Qed.
Lemma apart_kids a f k w g z kind :
  NoDup (ids (flat_map (fun c => preorder (snd c)) (a ++ (f, SN k w g) :: z))) -> ~ In (n_id w) (map n_id (of_kind kind z)).
Proof.
  intros H X. rewrite flat_map_app in H. cbn [flat_map snd preorder] in H. rewrite ids_app in H. apply NoDup_app_parts in H. destruct H as (_ & H & _).
  cbn [app] in H. unfold ids in H. cbn [map s_node] in H. apply NoDup_cons_iff in H. destruct H as (H & _). apply H.
  apply in_map_iff in X. destruct X as (x & <- & Hx). rewrite map_app. apply in_or_app. right. now apply kid_node in Hx.
Qed.
Lemma no_link_app src a z : no_link src a -> no_link src z -> no_link src (a ++ z).
Proof. intros. unfold no_link. rewrite of_kind_app. apply Forall_app. now split. Qed.
Lemma no_link_cons src f k n g z : k <> "keyword"%string -> no_link src z -> no_link src ((f, SN k n g) :: z).
Proof. intros Hk Hz. unfold no_link. rewrite of_kind_cons. destruct (String.eqb_spec k "keyword"); [contradiction|exact Hz]. Qed.
(** [from]: the keyword [import] is not one that starts a statement. *)
Lemma alt_from_other src n b e f2 C K w r a f kw g b0 f1 t g1 c f3 imp g3 z :
  key K w -> In C ["extends"; "include"; "from"; "import"]%string ->
  no_link src a -> no_link src b0 -> no_link src c -> no_link src z -> text_of src kw <> w -> of_kind "string" z = [] ->
  filter (fit (iok src)) (largest (map (with_caps [C] n) (embed_steps (imp_steps K r) b
    ((a ++ (f, SN "keyword" kw g) :: b0 ++ (f1, SN "string" t g1) :: c ++ (f3, SN "keyword" imp g3) :: z) ++ ending f2 e)))) = [].
Proof.
  intros Hk HC Ha Hb Hc Hz Hw Hs. apply alt_off with w; try assumption. rewrite <- app_assoc. cbn [app].
  rewrite (kw_skip src _ _ _ _ _ Hk Ha), fsel_here, (key_iok src _ _ _ Hk). destruct (String.eqb_spec w (text_of src kw)); [congruence|]. cbn [app].
  rewrite <- app_assoc. cbn [app]. rewrite (kw_skip src _ _ _ _ _ Hk Hb), fsel_other by (cbn; discriminate). rewrite <- app_assoc. cbn [app].
  rewrite (kw_found src _ _ _ _ _ _ _ _ _ _ Hk Hc Hz). rewrite no_string by exact Hs. destruct (String.eqb w (text_of src imp)); reflexivity.
Qed.
Lemma links_at src n b mid e f1 f2 o :
  links src n mid o -> inner (flat_map (fun c => preorder (snd c)) mid) -> NoDup (ids (flat_map (fun c => preorder (snd c)) mid)) ->
  query_at JINJA_IMPORTS src (SN "statement" n ((f1, SN "statement_begin" b []) :: mid ++ ending f2 e)) = map (fun l => (l, e)) (stmt_qcaps o).
Proof.
  intros Hl Hin Hnd. destruct (inner_no_end _ Hin) as (He & Hb). rewrite imports_at by exact Hb. cbn zeta.
  assert (KE : key "extends_keyword" "extends") by (unfold key; cbn; tauto).
  assert (KN : key "include_keyword" "include") by (unfold key; cbn; tauto).
  assert (KF : key "from_keyword" "from") by (unfold key; cbn; tauto).
  assert (KI : key "import_keyword" "import") by (unfold key; cbn; tauto).
  assert (C1 : In "extends"%string ["extends"; "include"; "from"; "import"]%string) by (cbn; tauto).
  assert (C2 : In "include"%string ["extends"; "include"; "from"; "import"]%string) by (cbn; tauto).
  assert (C3 : In "from"%string ["extends"; "include"; "from"; "import"]%string) by (cbn; tauto).
  assert (C4 : In "import"%string ["extends"; "include"; "from"; "import"]%string) by (cbn; tauto).
  destruct Hl as [l Hl|a f kw g z t Ha Hz Hkw Hs|a f kw g z ts Ha Hz Hkw Hs|a f kw g b0 h1 t g1 c f3 imp g3 z is Ha Hb0 Hc Hz Hkw Himp Hs Hi Hiz Hd
    |a f kw g b0 h1 t g1 z Ha Hb0 Hz Hkw Hs Hi|a f kw g b0 h1 t g1 c f3 w g3 z i is Ha Hb0 Hc Hz Hkw Hs Hi Hiz Hw Hd].
  - rewrite (alt_off src n b l e f2 "import" _ _ _ KI C4), (alt_off src n b l e f2 "from" _ _ _ KF C3), (alt_off src n b l e f2 "include" _ _ _ KN C2),
      (alt_off src n b l e f2 "extends" _ _ _ KE C1); [reflexivity| | | |]; eapply kw_none; eassumption.
  - apply no_end_app in He. destruct He as (_ & He). rewrite of_kind_cons in He. apply app_eq_nil in He. destruct He as (_ & He).
    rewrite (alt_other src n b e f2 _ _ _ _ a f kw g z KI C4), (alt_other src n b e f2 _ _ _ _ a f kw g z KF C3), (alt_other src n b e f2 _ _ _ _ a f kw g z KN C2),
      (alt_simple src n b e f2 _ _ _ a f kw g z KE C1) by (assumption || rewrite Hkw; discriminate).
    rewrite Hs. reflexivity.
  - apply no_end_app in He. destruct He as (_ & He). rewrite of_kind_cons in He. apply app_eq_nil in He. destruct He as (_ & He).
    rewrite (alt_other src n b e f2 _ _ _ _ a f kw g z KI C4), (alt_other src n b e f2 _ _ _ _ a f kw g z KF C3), (alt_other src n b e f2 _ _ _ _ a f kw g z KE C1),
      (alt_simple src n b e f2 _ _ _ a f kw g z KN C2) by (assumption || rewrite Hkw; discriminate).
    rewrite Hs. cbn [app stmt_qcaps]. rewrite app_nil_r, !map_map. reflexivity.
  - assert (Hsz : of_kind "string" z = []).
    { rewrite app_assoc, of_kind_app in Hs. apply app_eq_nil in Hs. apply Hs. }
    rewrite (alt_from_other src n b e f2 _ _ _ _ a f kw g b0 h1 (fst t) g1 c f3 imp g3 z KI C4), (alt_from_other src n b e f2 _ _ _ _ a f kw g b0 h1 (fst t) g1 c f3 imp g3 z KN C2),
      (alt_from_other src n b e f2 _ _ _ _ a f kw g b0 h1 (fst t) g1 c f3 imp g3 z KE C1) by (assumption || rewrite Hkw; discriminate).
    rewrite alt_from; try assumption.
    2: { rewrite Hiz. clear - Hd. induction Hd; constructor; auto. }
    cbn [app]. rewrite app_nil_r, Hiz. destruct is as [|i is]; [reflexivity|]. cbn [map stmt_qcaps]. f_equal. rewrite !map_map. reflexivity.
  - assert (Hn : no_link src (b0 ++ (h1, SN "string" (fst t) g1) :: z)) by (apply no_link_app; [assumption|apply no_link_cons; [discriminate|assumption]]).
    rewrite (alt_other src n b e f2 _ _ _ _ a f kw g _ KF C3), (alt_other src n b e f2 _ _ _ _ a f kw g _ KN C2), (alt_other src n b e f2 _ _ _ _ a f kw g _ KE C1)
      by (assumption || rewrite Hkw; discriminate).
    rewrite !app_nil_r. now apply alt_import.
  - assert (Hn : no_link src (b0 ++ (h1, SN "string" (fst t) g1) :: c ++ (f3, SN "identifier" w g3) :: z)).
    { apply no_link_app; [assumption|]. apply no_link_cons; [discriminate|]. apply no_link_app; [assumption|]. apply no_link_cons; [discriminate|assumption]. }
    rewrite (alt_other src n b e f2 _ _ _ _ a f kw g _ KF C3), (alt_other src n b e f2 _ _ _ _ a f kw g _ KN C2), (alt_other src n b e f2 _ _ _ _ a f kw g _ KE C1)
      by (assumption || rewrite Hkw; discriminate).
    rewrite !app_nil_r. fold as_steps.
    etransitivity; [apply (alt_import_as src n b e f2 a f kw g b0 h1 (fst t) g1 c f3 w g3 z (fst i)); try assumption|].
    + rewrite Hiz. clear - Hd. induction Hd; constructor; auto.
    + rewrite Hiz. cbn. auto.
    + apply (apart_kids (a ++ (f, SN "keyword" kw g) :: b0 ++ (h1, SN "string" (fst t) g1) :: c) f3 "identifier" w g3 z).
      rewrite <- app_assoc. cbn [app]. rewrite <- app_assoc. cbn [app]. exact Hnd.
    + rewrite Hiz. cbn [stmt_qcaps]. rewrite !map_app, !map_map. reflexivity.
Qed.
Lemma imports_other src t : s_kind t <> "statement"%string -> s_kind t <> "ERROR"%string -> query_at JINJA_IMPORTS src t = [].
Proof.
  intros Hs He. unfold query_at, JINJA_IMPORTS. cbn [flat_map]. rewrite app_nil_r. unfold pattern_at. cbn [p_alts p_preds rev app flat_map].
  rewrite largest_leaf, embed_leaf. cbn [embed_root]. rewrite !embed_node. rewrite !(String.eqb_sym _ (s_kind t)).
  rewrite (proj2 (String.eqb_neq _ _) Hs), (proj2 (String.eqb_neq _ _) He). reflexivity.
Qed.
Lemma ends_nowhere (L : list (list qcap)) e ys :
  ~ In (n_id e) (ids ys) -> flat_map (fun y => filter (ends_at y) (map (fun l => (l, e)) L)) ys = [].
Proof.
  induction ys as [|y ys IH]; intros H; [reflexivity|]. cbn [flat_map]. rewrite IH by (intros X; apply H; cbn; auto). rewrite app_nil_r.
  apply ends_none. apply Forall_forall. intros m Hm. apply in_map_iff in Hm. destruct Hm as (l & <- & _). cbn [snd]. intros X. apply H. cbn. auto.
Qed.
Lemma ordering_nil f xs ys : flat_map f xs = [] -> ordering f xs ys = [].
Proof. intros H. unfold ordering. rewrite H. induction ys; auto. Qed.
Lemma linked_caps src items sts :
  linked src items sts ->
  let l := flat_map preorder items in let f := query_at JINJA_IMPORTS src in
  NoDup (ids l) -> Forall (fun x => s_kind x <> "ERROR"%string) l ->
  Forall (fun m => In (n_id (snd m)) (ids l)) (flat_map f l) /\
  map fst (ordering f l l) = flat_map (fun s => stmt_qcaps (Some s)) sts.
Proof.
  cbn zeta. induction 1 as [|n b mid e f1 f2 r o sts Hin Hl _ IH|t r sts Hin _ IH]; intros Hn He; [split; [constructor|reflexivity]| |].
  - cbn [flat_map] in *. set (t := SN "statement" n _) in *. unfold ids in Hn. rewrite map_app in Hn.
    destruct (NoDup_app_parts _ _ Hn) as (N1 & N2 & _). apply Forall_app in He. destruct He as (He1 & He2). destruct (IH N2 He2) as (B1 & B2).
    assert (Et : preorder t = (t :: SN "statement_begin" b [] :: flat_map (fun c => preorder (snd c)) mid) ++ [SN "statement_end" e []]).
    { unfold t at 1. cbn [preorder flat_map snd app]. rewrite flat_map_app. reflexivity. }
    assert (Ft : query_at JINJA_IMPORTS src t = map (fun l => (l, e)) (stmt_qcaps o)).
    { apply links_at; [exact Hl|exact Hin|]. fold (ids (preorder t)) in N1. rewrite Et, ids_app in N1. apply NoDup_app_parts in N1. destruct N1 as (N1 & _).
      cbn in N1. apply NoDup_cons_iff in N1. destruct N1 as (_ & N1). apply NoDup_cons_iff in N1. apply N1. }
    assert (Fr : flat_map (query_at JINJA_IMPORTS src) (SN "statement_begin" b [] :: flat_map (fun c => preorder (snd c)) mid ++ [SN "statement_end" e []]) = []).
    { cbn [flat_map]. rewrite imports_other by discriminate. cbn [app]. rewrite flat_map_app. cbn [flat_map]. rewrite imports_other by discriminate. rewrite !app_nil_r.
      assert (He3 : Forall (fun x => s_kind x <> "ERROR"%string) (flat_map (fun c => preorder (snd c)) mid)).
      { rewrite Et in He1. apply Forall_app in He1. destruct He1 as (He1 & _). inversion He1 as [|? ? _ X]; subst. now inversion X. }
      clear - Hin He3. induction (flat_map _ mid) as [|x l IH]; [reflexivity|]. inversion Hin as [|? ? A Hin']; inversion He3; subst. cbn [flat_map].
      rewrite imports_other; [now apply IH| |assumption]. intros X. apply A. rewrite X. cbn. auto. }
    assert (Ff : flat_map (query_at JINJA_IMPORTS src) (preorder t) = map (fun l => (l, e)) (stmt_qcaps o)).
    { rewrite Et. cbn [app]. change (t :: ?x) with ([t] ++ x). rewrite flat_map_app, Fr. cbn [flat_map]. now rewrite !app_nil_r. }
    assert (A1 : Forall (fun m => In (n_id (snd m)) (ids (preorder t))) (flat_map (query_at JINJA_IMPORTS src) (preorder t))).
    { rewrite Ff. apply Forall_forall. intros m Hm. apply in_map_iff in Hm. destruct Hm as (l & <- & _). cbn [snd]. rewrite Et, ids_app. apply in_or_app. right. cbn. auto. }
    split.
    + rewrite flat_map_app. apply Forall_app. split.
      * eapply Forall_impl; [|exact A1]. intros m Hm. cbn beta in Hm. rewrite ids_app. apply in_or_app. auto.
      * eapply Forall_impl; [|exact B1]. intros m Hm. cbn beta in Hm. rewrite ids_app. apply in_or_app. auto.
    + rewrite ordering_split; [|unfold ids; now rewrite map_app|assumption|assumption]. rewrite map_app. etransitivity; [apply f_equal2; [|exact B2]|].
      * instantiate (1 := stmt_qcaps o). unfold ordering. rewrite Ff.
        fold (ids (preorder t)) in N1. rewrite Et in *. rewrite ids_app in N1. apply NoDup_app_parts in N1. destruct N1 as (_ & _ & N1).
        set (pre := t :: _) in *. rewrite flat_map_app, map_app. rewrite ends_nowhere.
        -- cbn [flat_map map app]. rewrite app_nil_r, ends_all; [rewrite map_map; apply map_id|]. apply Forall_forall. intros m Hm.
           apply in_map_iff in Hm. destruct Hm as (l & <- & _). reflexivity.
        -- intros X. apply (N1 _ X). cbn. auto.
      * destruct o; reflexivity.
  - cbn [flat_map] in *. unfold ids in Hn. rewrite map_app in Hn.
    destruct (NoDup_app_parts _ _ Hn) as (N1 & N2 & _). apply Forall_app in He. destruct He as (He1 & He2). destruct (IH N2 He2) as (B1 & B2).
    assert (Ff : flat_map (query_at JINJA_IMPORTS src) (preorder t) = []).
    { clear - Hin He1. induction (preorder t) as [|x l IH]; [reflexivity|]. inversion Hin as [|? ? A Hin']; inversion He1; subst. cbn [flat_map].
      rewrite imports_other; [now apply IH| |assumption]. intros X. apply A. rewrite X. cbn. auto. }
    split.
    + rewrite flat_map_app, Ff. cbn [app]. eapply Forall_impl; [|exact B1]. intros m Hm. cbn beta in Hm. rewrite ids_app. apply in_or_app. auto.
    + assert (A1 : Forall (fun m => In (n_id (snd m)) (ids (preorder t))) (flat_map (query_at JINJA_IMPORTS src) (preorder t))) by (rewrite Ff; constructor).
      rewrite ordering_split; [|unfold ids; now rewrite map_app|exact A1|assumption].
      rewrite map_app. rewrite (ordering_nil _ _ _ Ff). exact B2.
Qed.
Lemma imports_stmts src k n ch sts :
  let t := SN k n ch in
  root_kind k -> told_apart t -> no_error t -> linked src (map snd ch) sts ->
  captured JINJA_IMPORTS src t = flat_map cap_stmt sts.
Proof.
  intros t Hk Hn He Ht. unfold captured. rewrite matches_ordering.
  assert (Ep : preorder t = [t] ++ flat_map preorder (map snd ch)).
  { unfold t at 1. cbn [preorder app]. f_equal. clear. induction ch as [|c ch IH]; [reflexivity|]. cbn [map flat_map]. now f_equal. }
  unfold told_apart in Hn. unfold no_error in He. rewrite Ep in *. rewrite map_app in Hn. destruct (NoDup_app_parts _ _ Hn) as (_ & Hn2 & _).
  apply Forall_app in He. destruct He as (_ & He2).
  destruct (linked_caps src _ sts Ht Hn2 He2) as (A1 & A2).
  assert (Ft : query_at JINJA_IMPORTS src t = []).
  { apply imports_other; unfold t; cbn [s_kind]; intros ->; apply Hk; cbn; tauto. }
  rewrite ordering_split.
  - rewrite map_app. unfold ordering at 1. cbn [flat_map]. rewrite Ft. cbn [app filter map].
    etransitivity; [apply f_equal; exact A2|].
    clear. induction sts as [|s sts IH]; [reflexivity|]. cbn [flat_map]. rewrite map_app. f_equal; [|exact IH]. apply stmt_qcaps_ok.
  - unfold ids. now rewrite map_app.
  - cbn [flat_map]. rewrite Ft. constructor.
  - exact A1.
Qed.
