(** * PObjects3: the cursor on an attribute (C61, C68). *)
From Verif Require Import Base RString Utf8 Rope Types Captures MObjects MTemplates MSearchErrors MLspFiles SpecScope SpecObjects SpecObjects2.
From Verif Require Import PText PFiles PScope PObjects.

(** What comes behind the cursor is readable. *)
Definition token (src : string) (i : point) (c : capture) : Prop :=
  match c_name c with
  | CPipe => (exists v, utf8_text (c_node c) src = Ok (Some v)) /\ pt_lt i (n_end (c_node c))
  | CJustId | CExpr | CDot | CIs => True
  | _ => False
  end.
(** Where the look-ahead leaves the selected object. *)
Definition led (ahead : bool) (s : jobjects) (os : list jobject) (o : jobject) (s' : jobjects) : Prop :=
  if ahead then os_ident s' = o_loc o else os_ident s' = os_ident s /\ os_objects s' = os ++ [o].

Lemma lookahead_exact b src tp os o : forall rest s cont id e,
  Forall (rest_ok src tp) rest -> Forall (token src (fst (os_ident s))) rest -> os_objects s = os ++ [o] ->
  pt_le (fst (os_ident s)) tp -> pt_le tp (snd (os_ident s)) ->
  (cont = true -> id = N.of_nat (length os)) -> snd (os_pipe s) <> fst (os_ident s) ->
  exists l', run (obj_step b src tp false) (mkol s cont id e) rest = Ok l' /\
    led (name_ahead tp cont rest) s os o (l_objs l').
Proof.
  induction rest as [|c rest IH]; intros s cont id e HF HK Eo Hi1 Hi2 Hc Hp.
  { eexists. split; [reflexivity|]. cbn. auto. }
  inversion HF as [|? ? (Ht & Hb & Hle) HF']; subst. inversion HK as [|? ? Hk HK']; subst.
  assert (Hq : c_name c <> CJustId -> c_name c <> CExpr ->
     exists s1 a, obj_check src s c = Ok (s1, Some a) /\ a <> AExpression /\ a <> ANewObject /\ a <> AInvalid /\
       os_objects s1 = os_objects s /\ os_ident s1 = os_ident s /\ snd (os_pipe s1) <> fst (os_ident s1)).
  { intros N1 N2. unfold token in Hk. unfold obj_check. destruct (c_name c) eqn:Ek; try easy.
    - eexists _, _. split; [reflexivity|]. cbn. repeat split; auto; discriminate.
    - destruct Hk as ((v & Hv) & Hl). rewrite Hv. cbn [bind]. eexists _, _. split; [reflexivity|].
      destruct (starts_with v "|"); cbn; repeat split; auto; try discriminate. intros X. rewrite X in Hl. pts.
    - eexists _, _. split; [reflexivity|]. cbn. repeat split; auto; discriminate. }
  assert (Hlift : forall s1 cont' id' e', os_objects s1 = os_objects s -> os_ident s1 = os_ident s -> snd (os_pipe s1) <> fst (os_ident s1) ->
     (cont' = true -> id' = N.of_nat (length os)) ->
     exists l', run (obj_step b src tp false) (mkol s1 cont' id' e') rest = Ok l' /\ led (name_ahead tp cont' rest) s os o (l_objs l')).
  { intros s1 cont' id' e' A1 A2 A3 A4. destruct (IH s1 cont' id' e' HF') as (l' & R & L); rewrite ?A1, ?A2; auto; try (now rewrite <- A2).
    exists l'. split; [exact R|]. unfold led in *. now rewrite A2 in L. }
  cbn [run name_ahead]. unfold obj_step at 1. cbn [l_objs l_continued l_my_id l_my_expr orb].
  destruct (pt_leb (n_start (c_node c)) tp) eqn:En.
  - assert (N1 : c_name c <> CJustId).
    { intros X. unfold behind in Hb. rewrite X in Hb. apply pt_lt_leb in Hb. congruence. }
    assert (N2 : c_name c <> CExpr).
    { intros X. unfold behind in Hb. rewrite X in Hb. apply pt_lt_leb in Hb. congruence. }
    destruct (Hq N1 N2) as (s1 & a & Ec & _ & _ & _ & A1 & A2 & A3). rewrite Ec. cbn [bind fst snd is_some is_none negb].
    now apply Hlift.
  - destruct (pt_leb tp (n_start (c_node c))) eqn:Ele; [|pts].
    assert (Hif : is_filter s = false).
    { unfold is_filter. destruct (pt_eqb (snd (os_pipe s)) (fst (os_ident s))) eqn:X; [|reflexivity].
      exfalso. apply Hp. unfold pt_eqb in X. apply andb_prop in X. apply pt_eq; lia. }
    rewrite Hif. cbn [orb].
    destruct (match c_name c with CExpr => true | _ => false end) eqn:Ef.
    { assert (Ek : c_name c = CExpr) by (destruct (c_name c); easy). rewrite Ek.
      eexists. split; [reflexivity|]. cbn. auto. }
    assert (N2 : c_name c <> CExpr) by (intros X; now rewrite X in Ef).
    destruct cont; cbn [negb].
    + rewrite (Hc eq_refl).
      destruct (match c_name c with CJustId => true | _ => false end) eqn:Ej.
      * assert (Ek : c_name c = CJustId) by (destruct (c_name c); easy). rewrite Ek.
        set (l0 := mkol s true (N.of_nat (length os)) e).
        unfold obj_check. rewrite Ek. unfold build_object. unfold text_ok in Ht. rewrite Ek in Ht.
        assert (Hnew : forall v,
           let r := new_object s v (n_start (c_node c)) (n_end (c_node c)) in
           exists l', (match (match snd r with
                     | ANewObject | AInvalid | AExpression =>
                         s' <- finish_lookahead b l0 (fst r);; Ok (mkol s' true (N.of_nat (length os)) e, false)
                     | _ => Ok (mkol (fst r) true (N.of_nat (length os)) e, true) end) with
             | Ok (s', true) => run (obj_step b src tp false) s' rest
             | Ok (s', false) => Ok s'
             | Panic => Panic end) = Ok l' /\ led true s os o (l_objs l')).
        { intros v r. unfold r, new_object. destruct (str_mem v valid_identifiers); cbn [fst snd].
          - rewrite (finish_same b l0 s os o Eo eq_refl). cbn [bind]. eexists. split; reflexivity.
          - set (s2 := mkobjs _ _ _ _ _ _).
            rewrite (finish_new b l0 s2 os o _ ltac:(unfold s2; cbn; rewrite Eo; reflexivity) eq_refl). cbn [bind].
            eexists. split; reflexivity. }
        destruct (utf8_text (c_node c) src) as [[v|]|] eqn:Eu; [| |congruence]; cbn [bind].
        -- destruct ((_ =? _) && (_ =? _)).
           ++ destruct (os_objects s) as [|x l] eqn:Es; [now destruct os|]. rewrite <- Es.
              cbn [bind fst snd]. set (s2 := mkobjs _ _ _ _ _ _).
              rewrite (finish_same b l0 s2 os (obj_add_field (v, (n_start (c_node c), n_end (c_node c))) o)
                       ltac:(unfold s2; cbn; rewrite Es, Eo, update_last_snoc; reflexivity) eq_refl).
              cbn [bind]. eexists. split; reflexivity.
           ++ cbn [bind]. destruct (Hnew v) as (l' & R & L). exists l'. split; [|exact L]. exact R.
        -- cbn [fst snd]. rewrite (finish_same b l0 s os o Eo eq_refl). cbn [bind]. eexists. split; reflexivity.
      * assert (N1 : c_name c <> CJustId) by (intros X; now rewrite X in Ej).
        destruct (Hq N1 N2) as (s1 & a & Ec & B1 & B2 & B3 & A1 & A2 & A3). rewrite Ec. cbn [bind fst snd].
        replace (match c_name c with CExpr => false | CJustId => true | _ => name_ahead tp true rest end)
          with (name_ahead tp true rest) by (destruct (c_name c); easy).
        destruct a; try easy; now apply Hlift.
    + replace (match c_name c with CExpr => false | _ => name_ahead tp true rest end)
        with (name_ahead tp true rest) by (destruct (c_name c); easy).
      unfold is_hover. rewrite (pt_le_leb _ _ Hi1), (pt_le_leb _ _ Hi2). cbn [andb orb].
      rewrite usize_sub_nonempty by (rewrite Eo; destruct os; discriminate). cbn [bind].
      apply Hlift; auto. intros _. rewrite Eo, app_length. cbn [length]. lia.
Qed.

Lemma access_token src i a c : access_ok src a -> pt_lt i (n_end (a_dot a)) -> In c (cap_access a) -> token src i c.
Proof.
  intros ((Hd & _) & _) Hl H. unfold cap_access in H. unfold token.
  destruct (a_dot_first a); cbn in H; destruct H as [<-|[<-|[<-|[]]]]; cbn; auto; (split; [eexists; exact Hd|exact Hl]).
Qed.
Lemma piece_token src i p c : piece_ok src p -> In c (cap_piece p) ->
  (forall n, In (MTok n) (marks p) -> pt_lt i (n_end n)) -> token src i c.
Proof.
  intros Hok H Hm. destruct p as [n|h fs|p name|kw nots name|t|t]; cbn [cap_piece marks piece_ok] in *.
  - destruct H as [<-|[]]. exact I.
  - destruct H as [<-|H]; [exact I|]. apply in_flat_map in H. destruct H as (a & Ha & Hc).
    destruct Hok as (_ & _ & Hf). rewrite Forall_forall in Hf. apply (access_token src i a); auto.
    apply Hm. right. apply in_flat_map. exists a. cbn. auto.
  - destruct Hok as ((Hp & _) & _). destruct H as [<-|[<-|[]]]; cbn; auto. split; [eexists; exact Hp|]. apply Hm. now left.
  - destruct H as [<-|H]; [exact I|]. apply in_app_iff in H. destruct H as [H|[<-|[]]]; [|exact I].
    apply in_map_iff in H. destruct H as (t & <- & _). exact I.
  - destruct H as [<-|[]]. exact I.
  - destruct Hok as ((Hp & _) & _). destruct H as [<-|[]]. split; [eexists; exact Hp|]. apply Hm. now left.
Qed.

(** The cursor on a segment: what is selected, exactly. *)
Lemma select_segment b ms tp src pre h fs1 fs2 post :
  pieces_ok src (pre ++ PChain h (fs1 ++ fs2) :: post) ->
  concat ms = cap_pieces (pre ++ PChain h (fs1 ++ fs2) :: post) ->
  on_tok tp (segment h fs1) -> Forall (behind tp) (cap_pieces post) ->
  exists s o, objects_query b ms tp src false = Ok s /\
    os_objects s = flat_map uses pre ++ [o] /\ o_name o = snd h /\ o_loc o = loc h /\
    os_expr s = expr_after pre /\
    if name_ahead tp false (flat_map cap_access fs2 ++ cap_pieces post) then os_ident s = loc h
    else os_ident s = loc (segment h fs1) /\ o_fields o = map field_of fs1.
Proof.
  intros Hps E Hon Hpost.
  destruct (select_chain b ms tp src pre h fs1 fs2 post Hps E Hon Hpost)
    as (s & o & ex & Q & Eo & N1 & N2 & N3 & N4 & N5 & N6 & N7 & N8 & N9).
  exists s, o. do 5 (split; [assumption|]).
  destruct Hps as (HF & p0 & Hp0 & Ho). destruct Hon as (On1 & On2).
  apply Forall_app in HF. destruct HF as (HFpre & HF). inversion HF as [|? ? Hch HFpost]; subst.
  cbn [piece_ok] in Hch. destruct Hch as (Hr & Hb & Hfs). apply Forall_app in Hfs. destruct Hfs as (Hfs1 & Hfs2).
  rewrite flat_map_app in Ho. apply ordered_app in Ho. destruct Ho as (O1 & O2).
  cbn [flat_map marks] in O2. rewrite flat_map_app in O2.
  set (a1 := marks_end p0 (flat_map marks pre)) in *.
  change (ordered a1 (([MTok (fst h)] ++ (flat_map marks_access fs1 ++ flat_map marks_access fs2)) ++ flat_map marks post)) in O2.
  rewrite <- !app_assoc in O2. apply ordered_app in O2. destruct O2 as (Oh & O2).
  cbn [ordered] in Oh. destruct Oh as (Oh1 & Oh2 & _).
  unfold marks_end in O2 at 1; cbn [fold_left mark_end] in O2.
  apply ordered_accesses in O2. destruct O2 as (Of1 & O2 & Ofle).
  set (a2 := end_after (n_end (fst h)) fs1) in *.
  pose proof O2 as O2'. apply ordered_accesses in O2'. destruct O2' as (Of2 & Opost & Ofle2).
  assert (Ea2 : a2 = n_end (fst (segment h fs1))).
  { unfold a2, end_after, segment. destruct (last_opt fs1); reflexivity. }
  destruct (runc_pieces src pre jobjects0 p0 HFpre O1 (settled0 _ Hp0)) as (s0 & R0 & Eo0 & S0 & X0).
  fold a1 in S0. cbn [jobjects0 os_objects app] in Eo0.
  assert (K : exists s1, runc src s0 (cap_piece (PChain h fs1)) = Some s1 /\
     os_objects s1 = flat_map uses pre ++ [mkobj (snd h) (loc h) false false (map field_of fs1) false] /\
     os_ident s1 = loc (segment h fs1) /\ os_pipe s1 = os_pipe s0).
  { cbn [cap_piece runc].
    rewrite (check_id_new src s0 h _ Hr (not_built_in _ Hb) eq_refl Oh2)
      by (destruct S0 as (_ & D & _); pts).
    set (sh := mkobjs _ _ _ _ _ _). destruct S0 as (T1 & T2 & T3).
    assert (Hf : pt_eqb (snd (os_pipe s0)) (n_start (fst h)) = false) by (apply pt_eqb_neq; pts).
    destruct (runc_accesses src fs1 sh (os_objects s0)
       (mkobj (snd h) (loc h) false false [] false)
       (n_end (fst h)) Hfs1 Of1) as (s' & R & Ob & _ & Id & _ & Pi).
    { unfold sh; cbn. now rewrite Hf, T1. }
    { unfold settled, sh; cbn. repeat split; pts. }
    exists s'. split; [exact R|]. split; [rewrite Ob, Eo0; reflexivity|]. split; [|exact Pi].
    rewrite Id. unfold seg_after, segment. cbn. destruct (last_opt fs1); reflexivity. }
  destruct K as (s1 & R1 & Eo1 & Id1 & Pi1).
  assert (Hle1 : pt_le (n_start (fst h)) (n_start (fst (segment h fs1)))) by (eapply segment_start; eauto).
  assert (Ecaps : concat ms = (cap_pieces pre ++ cap_piece (PChain h fs1)) ++ (flat_map cap_access fs2 ++ cap_pieces post)).
  { rewrite E. unfold cap_pieces. rewrite flat_map_app. cbn [flat_map cap_piece]. rewrite flat_map_app.
    cbn [app]. rewrite <- !app_assoc. reflexivity. }
  assert (Hseg : pt_lt (n_start (fst (segment h fs1))) a2).
  { rewrite Ea2. unfold segment. destruct (last_opt fs1) as [a|] eqn:El; [|exact Oh2]. apply last_opt_In in El.
    assert (Hm : In (MTok (fst (a_name a))) (flat_map marks_access fs1)) by (apply in_flat_map; exists a; cbn; auto).
    now destruct (ordered_tok _ _ _ Of1 Hm) as (_ & X2 & _). }
  assert (Hcs1 : Forall (fun c => false = true \/ pt_le (n_start (c_node c)) tp) (cap_pieces pre ++ cap_piece (PChain h fs1))).
  { apply Forall_app. split.
    - eapply Forall_impl; [|apply (pieces_start_before pre p0 tp O1); fold a1; pts]. auto.
    - apply Forall_forall. intros c Hc. right. cbn [cap_piece] in Hc.
      destruct Hc as [<-|Hc]; [cbn; pts|].
      apply in_flat_map in Hc. destruct Hc as (a & Ha & Hc).
      destruct (cap_access_marks a c Hc) as (m & Hm & Em & _ & _). rewrite Em.
      assert (Hin : In (MTok m) (flat_map marks_access fs1)) by (apply in_flat_map; exists a; auto).
      assert (Hlast : pt_le (n_start m) (n_start (fst (segment h fs1)))).
      { clear - Hin Of1 Oh2. unfold segment. revert Of1 Hin. generalize (n_end (fst h)). induction fs1 as [|x l IH]; intros p Ho Hin; [destruct Hin|].
        rewrite last_opt_cons. cbn [flat_map marks_access app ordered] in Ho. destruct Ho as (A & B & C & D & F).
        destruct (last_opt l) as [y|] eqn:El.
        - assert (Hy : In (MTok (fst (a_name y))) (flat_map marks_access l)).
          { apply in_flat_map. exists y. split; [|cbn; auto]. now apply last_opt_In. }
          destruct (ordered_tok _ _ _ F Hy) as (Y1 & Y2 & Y3).
          cbn [flat_map marks_access app] in Hin. destruct Hin as [Hin|[Hin|Hin]].
          + inversion Hin; subst. pts.
          + inversion Hin; subst. pts.
          + eapply IH; eauto.
        - destruct l as [|z l]; [|now apply last_opt_none in El]. cbn in Hin.
          destruct Hin as [Hin|[Hin|[]]]; inversion Hin; subst; pts. }
      pts. }
  destruct (lookahead_exact b src tp (flat_map uses pre) (mkobj (snd h) (loc h) false false (map field_of fs1) false)
              (flat_map cap_access fs2 ++ cap_pieces post) s1 false 0 (pt0, pt0, expr0)) as (l' & Rl & L).
  - exact N7.
  - rewrite Id1. cbn [fst loc]. apply Forall_app. split.
    + apply Forall_forall. intros c Hc. apply in_flat_map in Hc. destruct Hc as (a & Ha & Hc).
      rewrite Forall_forall in Hfs2. apply (access_token src _ a c (Hfs2 a Ha)); [|exact Hc].
      assert (Hm : In (MTok (a_dot a)) (flat_map marks_access fs2)) by (apply in_flat_map; exists a; cbn; auto).
      destruct (ordered_tok _ _ _ Of2 Hm) as (X1 & X2 & _). pts.
    + apply Forall_forall. intros c Hc. unfold cap_pieces in Hc. apply in_flat_map in Hc. destruct Hc as (p & Hp & Hc).
      rewrite Forall_forall in HFpost. apply (piece_token src _ p c (HFpost p Hp) Hc). intros n Hn.
      assert (Hm : In (MTok n) (flat_map marks post)) by (apply in_flat_map; eauto).
      destruct (ordered_tok _ _ _ Opost Hm) as (X1 & X2 & _). pts.
  - exact Eo1.
  - rewrite Id1. exact On1.
  - rewrite Id1. exact On2.
  - discriminate.
  - rewrite Id1, Pi1. destruct S0 as (_ & _ & T3). cbn. intros X. rewrite X in T3. pts.
  - assert (Es : s = l_objs l').
    { unfold objects_query, oloop0 in Q. rewrite Ecaps in Q.
      rewrite (run_runc b src tp false _ false 0 _ _ jobjects0 s1 Hcs1) in Q by (rewrite runc_app, R0; exact R1).
      rewrite Rl in Q. cbn in Q. now inversion Q. }
    subst s. unfold led in L. destruct (name_ahead _ _ _); [exact L|]. destruct L as (L1 & L2).
    split; [now rewrite L1|]. rewrite Eo in L2. apply app_inj_tail in L2. destruct L2 as (_ & ->). reflexivity.
Qed.

(** ** Completion (C61) *)
Lemma last_opt_some {A} (l : list A) : l <> [] -> last_opt l <> None.
Proof. destruct l; [easy|]. intros _ H. now apply last_opt_none in H. Qed.
Lemma split_at (k : nat) : forall s, (k <= String.length s)%nat -> exists p q, s = (p ++ q)%string /\ String.length p = k.
Proof.
  induction k as [|k IH]; intros s H.
  - exists EmptyString, s. auto.
  - destruct s as [|a s]; [cbn in H; lia|]. cbn in H. destruct (IH s ltac:(lia)) as (p & q & -> & E).
    exists (String a p), q. cbn. auto.
Qed.
Definition ascii_name (name : string) : Prop := Forall (fun c => c < 128) (map N_of_ascii (list_ascii_of_string name)).
Lemma ascii_tail p q : ascii_name (p ++ q) -> splits_char q = false.
Proof.
  unfold ascii_name. induction p as [|y p IH]; cbn [append list_ascii_of_string map]; intros H.
  - destruct q as [|x q]; [reflexivity|]. cbn [list_ascii_of_string map] in H. inversion H; subst.
    unfold splits_char, is_cont. destruct (128 <=? N_of_ascii x) eqn:Z; [lia|reflexivity].
  - inversion H; subst. auto.
Qed.
Lemma head_prefix b tp name s e typed more :
  typed <> EmptyString -> name <> EmptyString -> ascii_name name ->
  col e = col s + slen (typed ++ more) -> col tp = col s + slen typed ->
  exists p, cut_by name more p /\ completion_start b tp (id_new name s e) = Ok (Some p).
Proof.
  intros Ht Hn Ha He Hp. rewrite slen_app in He.
  assert (Hpos : 0 < slen typed) by (destruct typed; [easy|unfold slen; cbn [String.length]; lia]).
  assert (Hnpos : 0 < slen name) by (destruct name; [easy|unfold slen; cbn [String.length]; lia]).
  unfold completion_start. cbn [id_new id_name id_end].
  replace (0 <? col tp) with true by lia. replace (slen name =? 0) with false by lia.
  unfold usize_sub. replace (col tp - 1 <=? col e) with true by lia. cbn [bind].
  replace (col e - (col tp - 1)) with (slen more + 1) by lia.
  replace (slen more + 1 =? 0) with false by lia. cbn [orb].
  destruct (slen more + 1 =? 1) eqn:Z.
  { exists name. split; [|reflexivity]. right. split; [exact Hn|]. exists EmptyString. rewrite append_nil_r. split; [reflexivity|].
    change (slen EmptyString) with 0. lia. }
  destruct (slen name <? slen more + 1) eqn:Y.
  { exists name. split; [|reflexivity]. left. split; [lia|reflexivity]. }
  destruct (split_at (N.to_nat (slen name - slen more)) name) as (p & q & E & L); [unfold slen in *; lia|].
  assert (Lp : slen p = slen name - slen more) by (unfold slen at 1; lia).
  exists p. split.
  - right. split; [intros ->; unfold slen in Lp at 1; cbn in Lp; lia|]. exists q. split; [exact E|].
    rewrite E, slen_app in Lp. rewrite E, slen_app in Y. lia.
  - replace (slen name - (slen more + 1) + 1) with (slen p) by lia. rewrite E in Ha |- *.
    rewrite get_to_app; [reflexivity|]. exact (ascii_tail _ _ Ha).
Qed.

Lemma complete_segment b ms tp src pre n p2 h fs1 fs2 post typed more :
  let ps := (pre ++ PExpr n :: p2) ++ PChain h (fs1 ++ fs2) :: post in
  let at_ := segment h fs1 in
  pieces_ok src ps -> concat ms = cap_pieces ps ->
  Forall (fun p => match p with PExpr _ => False | _ => True end) p2 ->
  fs1 <> [] -> pt_lt (n_start (fst at_)) tp -> pt_le tp (n_end (fst at_)) ->
  Forall (fun c => pt_lt tp (n_start (c_node c))) (cap_pieces post) ->
  pt_lt tp (n_end n) -> pt_le (snd (n_first n)) (n_start (fst h)) ->
  ascii_name (snd h) -> snd at_ = (typed ++ more)%string -> typed <> EmptyString ->
  col (n_end (fst at_)) = col (n_start (fst at_)) + slen (snd at_) -> col tp = col (n_start (fst at_)) + slen typed ->
  exists s a, objects_query b ms tp src false = Ok s /\
    if name_ahead tp false (flat_map cap_access fs2 ++ cap_pieces post)
    then obj_completion b s tp = Ok (Some (CtIdentifier, a))
    else exists p, cut_by (snd h) more p /\
      obj_completion b s tp = Ok (Some (CtIncompleteIdentifier p (to_range (n_start (fst h), n_end (fst at_))), a)).
Proof.
  intros ps at_ Hps E Hp2 Hne Hlt Hle Hpost Hin Hfirst Hasc Hty Htn Hce Hct.
  assert (Hb : Forall (behind tp) (cap_pieces post)).
  { eapply Forall_impl; [|exact Hpost]. intros c Hc. unfold behind. destruct (c_name c); auto. }
  destruct (select_segment b ms tp src (pre ++ PExpr n :: p2) h fs1 fs2 post Hps E) as
    (s & o & Q & Eo & N1 & N2 & N8 & N9); auto.
  { split; [fold at_; pts|exact Hle]. }
  exists s, (pt_eqb (fst (n_last n)) (snd (n_last n))). split; [exact Q|].
  rewrite (expr_after_in pre n p2 Hp2) in N8.
  destruct Hps as (HF & p0 & Hp0 & Ho). pose proof Ho as Ho0.
  unfold ps in Ho. rewrite flat_map_app in Ho. apply ordered_app in Ho. destruct Ho as (O1 & O2).
  pose proof (ordered_end_le _ _ O1) as L1.
  cbn [flat_map marks app ordered] in O2. destruct O2 as (O2 & O3 & O4).
  assert (Hseg : pt_lt (n_end (fst h)) (n_start (fst at_))).
  { unfold at_, segment. destruct (last_opt fs1) as [a|] eqn:El; [|exfalso; now apply (last_opt_some fs1)]. apply last_opt_In in El.
    rewrite flat_map_app, <- app_assoc in O4. apply ordered_app in O4. destruct O4 as (O4 & _).
    assert (Hm : In (MTok (a_dot a)) (flat_map marks_access fs1)) by (apply in_flat_map; exists a; cbn; auto).
    destruct (ordered_tok _ _ _ O4 Hm) as (Y1 & Y2 & _).
    unfold ps in HF. apply Forall_app in HF. destruct HF as (_ & HF). inversion HF as [|? ? Hch _]; subst. destruct Hch as (_ & _ & Hf).
    apply Forall_app in Hf. destruct Hf as (Hf & _). rewrite Forall_forall in Hf. destruct (Hf a El) as (_ & _ & Hadj).
    rewrite <- Hadj. pts. }
  assert (P0 : pt_lt pt0 tp) by pts.
  assert (Hin1 : In (MExpr n) (flat_map marks (pre ++ PExpr n :: p2))).
  { rewrite flat_map_app. apply in_or_app. right. cbn. auto. }
  pose proof (ordered_expr _ _ _ O1 Hin1) as X2.
  assert (Hpipe : in_pipe s tp = false).
  { eapply query_pipe_free; [exact Q|exact P0|]. rewrite E. unfold ps, cap_pieces.
    rewrite flat_map_app. apply Forall_app. split.
    - eapply pieces_pipe_ends; [exact O1|]. pts.
    - cbn [flat_map cap_piece app]. constructor; [intros (X & _); discriminate|]. apply Forall_app. split.
      + unfold ps in HF. apply Forall_app in HF. destruct HF as (_ & HF). inversion HF as [|? ? Hch _]; subst.
        destruct Hch as (_ & _ & Hfs). eapply Forall_impl; [|exact (accesses_no_pipe src (fs1 ++ fs2) Hfs)]. intros c Hc Hc'. contradiction.
      + eapply Forall_impl; [|exact Hpost]. intros c Hc _. now left. }
  assert (Hid : fst (os_ident s) = n_start (fst h) \/ fst (os_ident s) = n_start (fst at_)).
  { destruct (name_ahead _ _ _); [left; rewrite N9; reflexivity|right; destruct N9 as (-> & _); reflexivity]. }
  assert (Hexpr : in_expr s tp = true).
  { unfold in_expr. rewrite N8. unfold expr_info; cbn [fst snd].
    assert (A : pt_leb (n_start n) tp = true) by (apply pt_le_leb; pts).
    assert (B : pt_ltb tp (n_end n) = true) by pts.
    assert (C : pt_ltb (fst (os_ident s)) tp = true) by (destruct Hid as [-> | ->]; pts).
    now rewrite A, B, C. }
  unfold obj_completion. rewrite Hpipe, Hexpr, N8. unfold should_autoclose. rewrite N8. unfold expr_info. cbn [snd fst e_begin e_end].
  assert (D : pt_eqb tp (snd (n_first n)) = false) by pts. rewrite D. cbn [andb].
  destruct (name_ahead tp false (flat_map cap_access fs2 ++ cap_pieces post)).
  - rewrite N9. unfold loc; cbn [fst snd]. assert (F : pt_ltb (n_end (fst h)) tp = true) by pts. now rewrite F.
  - destruct N9 as (Id & Ef). fold at_ in Id.
    assert (Hn : snd h <> EmptyString).
    { unfold ps in HF. apply Forall_app in HF. destruct HF as (_ & HF). inversion HF as [|? ? Hch _]; subst. destruct Hch as ((_ & Hne') & _). exact Hne'. }
    rewrite Hty in Hce.
    destruct (head_prefix b tp (snd h) (n_start (fst at_)) (n_end (fst at_)) typed more Htn Hn Hasc Hce Hct) as (p & Hp & Hcs).
    exists p. split; [exact Hp|].
    rewrite Id. unfold loc; cbn [fst snd].
    assert (F : pt_ltb (n_end (fst at_)) tp = false) by pts. rewrite F.
    unfold is_ident. rewrite Id. unfold loc; cbn [fst snd].
    assert (G : pt_leb (n_start (fst at_)) tp = true) by pts. rewrite G, (pt_le_leb _ _ Hle). cbn [andb].
    rewrite Eo, last_opt_snoc, N1, Hcs. cbn [bind].
    unfold os_full_range. rewrite Eo, last_opt_snoc. unfold obj_full_range. rewrite N2. unfold loc; cbn [fst snd].
    unfold last_field_end. rewrite Ef, last_opt_map. unfold at_, segment.
    destruct (last_opt fs1) eqn:El; [|exfalso; now apply (last_opt_some fs1)]. reflexivity.
Qed.
