(** * PObjects4: what the server replaces when a name is completed (C59). *)
From Verif Require Import Base RString Utf8 Rope Types Captures MObjects MTemplates MSearchErrors MLspFiles SpecScope SpecObjects SpecObjects2.
From Verif Require Import PText PFiles PScope PObjects PObjects3.

Definition legible (src : string) (c : capture) : Prop :=
  c_name c = CJustId -> exists v, utf8_text (c_node c) src = Ok (Some v).
Definition dot_is (dot : option point) (s : jobjects) (cs : list capture) : Prop :=
  match dot with
  | Some d => snd (os_dot s) = d
  | None => Forall (fun c => c_name c = CJustId -> n_start (c_node c) <> snd (os_dot s)) cs
  end.
Definition ends (e : option point) (s : jobjects) (os : list jobject) (o : jobject) (s' : jobjects) : Prop :=
  exists o', os_objects s' = os ++ [o'] /\
    last_field_end o' = match e with Some p => p | None => last_field_end o end.

Lemma lookahead_end b src tp os o : forall rest s cont id e dot,
  Forall (rest_ok src tp) rest -> Forall (token src (fst (os_ident s))) rest -> Forall (legible src) rest ->
  os_objects s = os ++ [o] ->
  pt_le (fst (os_ident s)) tp -> pt_le tp (snd (os_ident s)) ->
  (cont = true -> id = N.of_nat (length os)) -> snd (os_pipe s) <> fst (os_ident s) -> dot_is dot s rest ->
  exists l', run (obj_step b src tp false) (mkol s cont id e) rest = Ok l' /\
    ends (attr_ahead tp cont dot rest) s os o (l_objs l').
Proof.
  induction rest as [|c rest IH]; intros s cont id e dot HF HK HL Eo Hi1 Hi2 Hc Hp Hd.
  { eexists. split; [reflexivity|]. exists o. cbn. auto. }
  inversion HF as [|? ? (Ht & Hb & Hle) HF']; subst. inversion HK as [|? ? Hk HK']; subst. inversion HL as [|? ? Hl HL']; subst.
  set (dot' := match c_name c with CDot => Some (n_end (c_node c)) | _ => dot end).
  assert (Hd' : dot_is dot s rest).
  { destruct dot; [exact Hd|]. now inversion Hd. }
  assert (Hq : c_name c <> CJustId -> c_name c <> CExpr ->
     exists s1 a, obj_check src s c = Ok (s1, Some a) /\ a <> AExpression /\ a <> ANewObject /\ a <> AInvalid /\
       os_objects s1 = os_objects s /\ os_ident s1 = os_ident s /\ snd (os_pipe s1) <> fst (os_ident s1) /\
       dot_is dot' s1 rest).
  { intros N1 N2. unfold token in Hk. unfold obj_check. unfold dot'. destruct (c_name c) eqn:Ek; try easy.
    - eexists _, _. split; [reflexivity|]. cbn. repeat split; auto; discriminate.
    - destruct Hk as ((v & Hv) & Hlt). rewrite Hv. cbn [bind]. eexists _, _. split; [reflexivity|].
      destruct (starts_with v "|"); cbn; repeat split; auto; try discriminate. intros X. rewrite X in Hlt. pts.
    - eexists _, _. split; [reflexivity|]. cbn. repeat split; auto; discriminate. }
  assert (Hlift : forall s1 cont' id' e' d1, os_objects s1 = os_objects s -> os_ident s1 = os_ident s -> snd (os_pipe s1) <> fst (os_ident s1) ->
     dot_is d1 s1 rest ->
     (cont' = true -> id' = N.of_nat (length os)) ->
     exists l', run (obj_step b src tp false) (mkol s1 cont' id' e') rest = Ok l' /\ ends (attr_ahead tp cont' d1 rest) s os o (l_objs l')).
  { intros s1 cont' id' e' d1 A1 A2 A3 A4 A5. destruct (IH s1 cont' id' e' d1 HF') as (l' & R & L); rewrite ?A1, ?A2; auto; try (now rewrite <- A2).
    exists l'. split; [exact R|]. exact L. }
  cbn [run attr_ahead]. fold dot'. unfold obj_step at 1. cbn [l_objs l_continued l_my_id l_my_expr orb].
  destruct (pt_leb (n_start (c_node c)) tp) eqn:En.
  - assert (N1 : c_name c <> CJustId).
    { intros X. unfold behind in Hb. rewrite X in Hb. apply pt_lt_leb in Hb. congruence. }
    assert (N2 : c_name c <> CExpr).
    { intros X. unfold behind in Hb. rewrite X in Hb. apply pt_lt_leb in Hb. congruence. }
    destruct (Hq N1 N2) as (s1 & a & Ec & _ & _ & _ & A1 & A2 & A3 & A4). rewrite Ec. cbn [bind fst snd is_some is_none negb].
    now apply Hlift.
  - destruct (pt_leb tp (n_start (c_node c))) eqn:Ele; [|pts].
    assert (Hif : is_filter s = false).
    { unfold is_filter. destruct (pt_eqb (snd (os_pipe s)) (fst (os_ident s))) eqn:X; [|reflexivity].
      exfalso. apply Hp. unfold pt_eqb in X. apply andb_prop in X. apply pt_eq; lia. }
    rewrite Hif. cbn [orb].
    destruct (match c_name c with CExpr => true | _ => false end) eqn:Ef.
    { assert (Ek : c_name c = CExpr) by (destruct (c_name c); easy). rewrite Ek.
      eexists. split; [reflexivity|]. exists o. cbn. auto. }
    assert (N2 : c_name c <> CExpr) by (intros X; now rewrite X in Ef).
    destruct cont; cbn [negb].
    + rewrite (Hc eq_refl).
      destruct (match c_name c with CJustId => true | _ => false end) eqn:Ej.
      * assert (Ek : c_name c = CJustId) by (destruct (c_name c); easy). rewrite Ek.
        set (l0 := mkol s true (N.of_nat (length os)) e).
        unfold obj_check. rewrite Ek. unfold build_object. destruct (Hl Ek) as (v & Hv). rewrite Hv. cbn [bind].
        assert (Hnew :
           let r := new_object s v (n_start (c_node c)) (n_end (c_node c)) in
           exists l', (match (match snd r with
                     | ANewObject | AInvalid | AExpression =>
                         s' <- finish_lookahead b l0 (fst r);; Ok (mkol s' true (N.of_nat (length os)) e, false)
                     | _ => Ok (mkol (fst r) true (N.of_nat (length os)) e, true) end) with
             | Ok (s', true) => run (obj_step b src tp false) s' rest
             | Ok (s', false) => Ok s'
             | Panic => Panic end) = Ok l' /\ ends None s os o (l_objs l')).
        { intros r. unfold r, new_object. destruct (str_mem v valid_identifiers); cbn [fst snd].
          - rewrite (finish_same b l0 s os o Eo eq_refl). cbn [bind]. eexists. split; [reflexivity|].
            exists (obj_capture_first o). split; reflexivity.
          - set (s2 := mkobjs _ _ _ _ _ _).
            rewrite (finish_new b l0 s2 os o _ ltac:(unfold s2; cbn; rewrite Eo; reflexivity) eq_refl). cbn [bind].
            eexists. split; [reflexivity|]. exists (obj_capture_first o). split; reflexivity. }
        assert (Hdot : forall (X : (row (n_start (c_node c)) =? row (snd (os_dot s))) && (col (n_start (c_node c)) =? col (snd (os_dot s))) = false),
            match dot with Some d => if pt_eqb (n_start (c_node c)) d then Some (n_end (c_node c)) else None | None => None end = None).
        { intros X. destruct dot as [d|]; [|reflexivity]. cbn in Hd. subst d. unfold pt_eqb. now rewrite X. }
        destruct ((row (n_start (c_node c)) =? row (snd (os_dot s))) && (col (n_start (c_node c)) =? col (snd (os_dot s)))) eqn:Ed.
        -- assert (Es : n_start (c_node c) = snd (os_dot s)) by (apply andb_prop in Ed; apply pt_eq; lia).
           destruct dot as [d|]; [|cbn in Hd; inversion Hd as [|? ? Xd _]; exfalso; exact (Xd Ek Es)]. cbn in Hd.
           unfold pt_eqb. rewrite <- Hd, Ed.
           destruct (os_objects s) as [|x l] eqn:Es'; [now destruct os|]. rewrite <- Es'.
           cbn [bind fst snd]. set (s2 := mkobjs _ _ _ _ _ _).
           rewrite (finish_same b l0 s2 os (obj_add_field (v, (n_start (c_node c), n_end (c_node c))) o)
                    ltac:(unfold s2; cbn; rewrite Es', Eo, update_last_snoc; reflexivity) eq_refl).
           cbn [bind]. eexists. split; [reflexivity|].
           exists (obj_capture_first (obj_add_field (v, (n_start (c_node c), n_end (c_node c))) o)). split; [reflexivity|].
           unfold last_field_end. destruct o; cbn. rewrite last_opt_snoc. reflexivity.
        -- rewrite (Hdot eq_refl). cbn [bind]. destruct Hnew as (l' & R & L). exists l'. split; [exact R|exact L].
      * assert (N1 : c_name c <> CJustId) by (intros X; now rewrite X in Ej).
        destruct (Hq N1 N2) as (s1 & a & Ec & B1 & B2 & B3 & A1 & A2 & A3 & A4). rewrite Ec. cbn [bind fst snd].
        match goal with |- exists _, _ /\ ends ?x _ _ _ _ => replace x with (attr_ahead tp true dot' rest) by (destruct (c_name c); easy) end.
        destruct a; try easy; now apply Hlift.
    + match goal with |- exists _, _ /\ ends ?x _ _ _ _ => replace x with (attr_ahead tp true dot rest) by (destruct (c_name c); easy) end.
      unfold is_hover. rewrite (pt_le_leb _ _ Hi1), (pt_le_leb _ _ Hi2). cbn [andb orb].
      rewrite usize_sub_nonempty by (rewrite Eo; destruct os; discriminate). cbn [bind].
      apply Hlift; auto. intros _. rewrite Eo, app_length. cbn [length]. lia.
Qed.

Lemma access_legible src a c : access_ok src a -> In c (cap_access a) -> legible src c.
Proof.
  intros (_ & (Hn & _) & _) H. unfold cap_access in H. unfold legible.
  destruct (a_dot_first a); cbn in H; destruct H as [<-|[<-|[<-|[]]]]; cbn; try discriminate; intros _; eexists; exact Hn.
Qed.
Lemma piece_legible src p c : piece_ok src p -> In c (cap_piece p) -> legible src c.
Proof.
  intros Hok H. destruct p as [n|h fs|p name|kw nots name|t|t]; cbn [cap_piece piece_ok] in *.
  - destruct H as [<-|[]]. discriminate.
  - destruct Hok as ((Hr & _) & _ & Hf). destruct H as [<-|H]; [intros _; eexists; exact Hr|].
    apply in_flat_map in H. destruct H as (a & Ha & Hc). rewrite Forall_forall in Hf. now apply (access_legible src a c (Hf a Ha)).
  - destruct H as [<-|[<-|[]]]; [discriminate|]. intros _. cbn. unfold reads in *. intuition eauto.
  - destruct H as [<-|H]; [discriminate|]. apply in_app_iff in H. destruct H as [H|[<-|[]]].
    + apply in_map_iff in H. destruct H as (t & <- & Ht). intros _. cbn. unfold reads in *.
      destruct Hok as (Hn & _). rewrite Forall_forall in Hn. destruct (Hn t Ht). intuition eauto.
    + intros _. cbn. unfold reads in *. intuition eauto.
  - destruct H as [<-|[]]. intros _. cbn. unfold reads in *. intuition eauto.
  - destruct H as [<-|[]]. discriminate.
Qed.

(** The cursor on the first name of a chain: where the selected object ends. *)
Lemma select_end b ms tp src pre h fs post s :
  pieces_ok src (pre ++ PChain h fs :: post) ->
  concat ms = cap_pieces (pre ++ PChain h fs :: post) ->
  on_tok tp h -> Forall (behind tp) (cap_pieces post) -> objects_query b ms tp src false = Ok s ->
  exists o, os_objects s = flat_map uses pre ++ [o] /\
    last_field_end o = match attr_ahead tp false None (flat_map cap_access fs ++ cap_pieces post) with
                       | Some e => e
                       | None => n_end (fst h)
                       end.
Proof.
  intros Hps E Hon Hpost Q.
  destruct (select_chain b ms tp src pre h [] fs post Hps E Hon Hpost)
    as (s' & o & ex & Q' & Eo & N1 & N2 & N3 & N4 & N5 & N6 & N7 & N8 & N9).
  assert (s' = s) by congruence. subst s'. clear Q'.
  destruct Hps as (HF & p0 & Hp0 & Ho). destruct Hon as (On1 & On2).
  apply Forall_app in HF. destruct HF as (HFpre & HF). inversion HF as [|? ? Hch HFpost]; subst.
  cbn [piece_ok] in Hch. destruct Hch as (Hr & Hb & Hfs).
  rewrite flat_map_app in Ho. apply ordered_app in Ho. destruct Ho as (O1 & O2).
  set (a1 := marks_end p0 (flat_map marks pre)) in *.
  cbn [flat_map marks app ordered] in O2. destruct O2 as (Oh1 & Oh2 & O2).
  pose proof O2 as O2'. apply ordered_accesses in O2'. destruct O2' as (Of2 & Opost & Ofle2).
  destruct (runc_pieces src pre jobjects0 p0 HFpre O1 (settled0 _ Hp0)) as (s0 & R0 & Eo0 & S0 & X0).
  fold a1 in S0. cbn [jobjects0 os_objects app] in Eo0.
  assert (K : exists s1, runc src s0 (cap_piece (PChain h [])) = Some s1 /\
     os_objects s1 = flat_map uses pre ++ [mkobj (snd h) (loc h) false false [] false] /\
     os_ident s1 = loc h /\ os_pipe s1 = os_pipe s0 /\ os_dot s1 = os_dot s0).
  { cbn [cap_piece runc flat_map].
    rewrite (check_id_new src s0 h _ Hr (not_built_in _ Hb) eq_refl Oh2)
      by (destruct S0 as (_ & D & _); pts).
    destruct S0 as (T1 & T2 & T3).
    assert (Hf : pt_eqb (snd (os_pipe s0)) (n_start (fst h)) = false) by (apply pt_eqb_neq; pts).
    eexists. split; [reflexivity|]. cbn. rewrite Hf, T1, Eo0. auto. }
  destruct K as (s1 & R1 & Eo1 & Id1 & Pi1 & Dot1).
  assert (Ecaps : concat ms = (cap_pieces pre ++ cap_piece (PChain h [])) ++ (flat_map cap_access fs ++ cap_pieces post)).
  { rewrite E. unfold cap_pieces. rewrite flat_map_app. cbn [flat_map cap_piece app]. rewrite <- !app_assoc. reflexivity. }
  assert (Hcs1 : Forall (fun c => false = true \/ pt_le (n_start (c_node c)) tp) (cap_pieces pre ++ cap_piece (PChain h []))).
  { apply Forall_app. split.
    - eapply Forall_impl; [|apply (pieces_start_before pre p0 tp O1); fold a1; pts]. auto.
    - constructor; [right; cbn; pts|constructor]. }
  destruct (lookahead_end b src tp (flat_map uses pre) (mkobj (snd h) (loc h) false false [] false)
              (flat_map cap_access fs ++ cap_pieces post) s1 false 0 (pt0, pt0, expr0) None) as (l' & Rl & L).
  - exact N7.
  - rewrite Id1. cbn [fst loc]. apply Forall_app. split.
    + apply Forall_forall. intros c Hc. apply in_flat_map in Hc. destruct Hc as (a & Ha & Hc).
      rewrite Forall_forall in Hfs. apply (access_token src _ a c (Hfs a Ha)); [|exact Hc].
      assert (Hm : In (MTok (a_dot a)) (flat_map marks_access fs)) by (apply in_flat_map; exists a; cbn; auto).
      destruct (ordered_tok _ _ _ Of2 Hm) as (X1 & X2 & _). pts.
    + apply Forall_forall. intros c Hc. unfold cap_pieces in Hc. apply in_flat_map in Hc. destruct Hc as (p & Hp & Hc).
      rewrite Forall_forall in HFpost. apply (piece_token src _ p c (HFpost p Hp) Hc). intros n Hn.
      assert (Hm : In (MTok n) (flat_map marks post)) by (apply in_flat_map; eauto).
      destruct (ordered_tok _ _ _ Opost Hm) as (X1 & X2 & _). pts.
  - apply Forall_app. split.
    + apply Forall_forall. intros c Hc. apply in_flat_map in Hc. destruct Hc as (a & Ha & Hc).
      rewrite Forall_forall in Hfs. now apply (access_legible src a c (Hfs a Ha)).
    + apply Forall_forall. intros c Hc. unfold cap_pieces in Hc. apply in_flat_map in Hc. destruct Hc as (p & Hp & Hc).
      rewrite Forall_forall in HFpost. now apply (piece_legible src p c (HFpost p Hp)).
  - exact Eo1.
  - rewrite Id1. exact On1.
  - rewrite Id1. exact On2.
  - discriminate.
  - rewrite Id1, Pi1. destruct S0 as (_ & _ & T3). cbn. intros X. rewrite X in T3. pts.
  - cbn. rewrite Dot1. apply Forall_forall. intros c Hc Ek X.
    assert (B : pt_lt tp (n_start (c_node c))).
    { rewrite Forall_forall in N7. destruct (N7 c Hc) as (_ & B & _). unfold behind in B. now rewrite Ek in B. }
    destruct S0 as (_ & D & _). rewrite X in B. pts.
  - assert (Es : s = l_objs l').
    { unfold objects_query, oloop0 in Q. rewrite Ecaps in Q.
      rewrite (run_runc b src tp false _ false 0 _ _ jobjects0 s1 Hcs1) in Q by (rewrite runc_app, R0; exact R1).
      rewrite Rl in Q. cbn in Q. now inversion Q. }
    subst s. destruct L as (o' & L1 & L2). exists o'. split; [exact L1|]. exact L2.
Qed.

Lemma attr_ahead_first tp f cs :
  a_dot_first f = false -> pt_lt tp (n_start (a_dot f)) -> pt_lt tp (n_start (fst (a_name f))) ->
  n_end (a_dot f) = n_start (fst (a_name f)) ->
  attr_ahead tp false None (cap_access f ++ cs) = Some (n_end (fst (a_name f))).
Proof.
  intros Hd H1 H2 Ha. unfold cap_access. rewrite Hd. cbn [app attr_ahead c_node c_name cap].
  apply pt_lt_leb in H1, H2. rewrite H1, H2, Ha, pt_eqb_refl. reflexivity.
Qed.
