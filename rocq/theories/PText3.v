(** * PText3: when the new end point of an edit description is right (C04). *)
From Verif Require Import Base Utf8 Rope MLspFiles SpecText SpecText2 PUtf8 PText.

Lemma ts_point_row c0 r0 t : ts_point_from (mkpt r0 c0) t =
  mkpt (r0 + row (ts_point t)) (if row (ts_point t) =? 0 then c0 + col (ts_point t) else col (ts_point t)).
Proof.
  unfold ts_point. revert r0 c0. induction t as [|c t IH]; intros r0 c0; cbn [ts_point_from row col].
  - rewrite N.eqb_refl. f_equal; lia.
  - destruct (c =? 10).
    + rewrite (IH (r0 + 1) 0), (IH (0 + 1) 0). set (q := ts_point_from (mkpt 0 0) t). cbn [row col].
      destruct (N.eqb_spec (row q) 0), (N.eqb_spec (0 + 1 + row q) 0); f_equal; lia.
    + rewrite (IH r0 (c0 + utf8_len c)), (IH 0 (0 + utf8_len c)). set (q := ts_point_from (mkpt 0 0) t). cbn [row col].
      destruct (N.eqb_spec (row q) 0), (N.eqb_spec (0 + row q) 0); f_equal; lia.
Qed.
Lemma ts_point_cons c t : ts_point (c :: t) =
  if c =? 10 then mkpt (1 + row (ts_point t)) (col (ts_point t))
  else mkpt (row (ts_point t)) (if row (ts_point t) =? 0 then utf8_len c + col (ts_point t) else col (ts_point t)).
Proof.
  unfold ts_point at 1. cbn [ts_point_from row col]. destruct (c =? 10); rewrite ts_point_row; cbn [row col].
  - destruct (row (ts_point t) =? 0); f_equal; lia.
  - destruct (row (ts_point t) =? 0); f_equal; lia.
Qed.
Lemma line_prefix_S_pos l t p : line_prefix (S l) t = Some p -> 0 < utf8_size p.
Proof.
  destruct t as [|c r]; [discriminate|]. cbn [line_prefix]. destruct (line_prefix _ r) as [q|]; [|discriminate]. intros E. injection E as <-.
  rewrite utf8_size_cons. pose proof (utf8_len_pos c). lia.
Qed.
Lemma plain_len c : plain c -> utf8_len c = 1.
Proof. intros (H & _). unfold utf8_len. destruct (N.ltb_spec c 128); [reflexivity|lia]. Qed.
Lemma plain_break c next : plain c -> c <> 10 -> (c = 13 -> next = Some 10) -> ropey_break c next = false.
Proof.
  intros (H & H1 & H2) H3 H4. destruct (N.eq_dec c 13) as [->|Hc]; [now rewrite (H4 eq_refl)|].
  unfold ropey_break. destruct c as [|p]; [reflexivity|]. do 14 (destruct p as [p|p|]; try reflexivity; try lia).
Qed.
Lemma point_at t : forall k, plain_text t -> no_lone_cr t -> (k <= length t)%nat ->
  position_ok t (N.of_nat k) (mkpos (row (ts_point (firstn k t))) (col (ts_point (firstn k t)))).
Proof.
  induction t as [|c r IH]; intros k Hp Hc Hk.
  - cbn in Hk. assert (k = 0)%nat as -> by lia. cbn. exists []. split; [reflexivity|]. split; [reflexivity|]. intros pre' H. discriminate H.
  - destruct k as [|k].
    + cbn [firstn]. exists []. split; [reflexivity|]. split; [reflexivity|]. intros pre' H. apply line_prefix_S_pos in H. exact H.
    + inversion Hp as [|? ? Hc1 Hr]; subst. destruct Hc as (Hc2 & Hc3). cbn [length] in Hk.
      destruct (IH k Hr Hc3 ltac:(lia)) as (pre & E1 & E2 & E3). cbn [line character] in E1, E2, E3. cbn [firstn].
      rewrite ts_point_cons. set (q := ts_point (firstn k r)) in *.
      destruct (N.eqb_spec c 10) as [->|Hn].
      * cbn [row col]. exists (10 :: pre). cbn [line character]. replace (N.to_nat (1 + row q)) with (S (N.to_nat (row q))) by lia.
        assert (Hs : forall l, line_prefix (S l) (10 :: r) = match line_prefix l r with Some p => Some (10 :: p) | None => None end) by reflexivity.
        rewrite !Hs, E1. split; [reflexivity|]. split; [rewrite utf8_size_cons; change (utf8_len 10) with 1; lia|].
        intros pre' H. rewrite ?Hs in H. destruct (line_prefix (S (N.to_nat (row q))) r) as [q'|]; [|discriminate]. injection H as <-.
        specialize (E3 q' eq_refl). rewrite utf8_size_cons. change (utf8_len 10) with 1. lia.
      * assert (Hb : ropey_break c (hd_error r) = false) by (apply plain_break; assumption).
        assert (Hs : forall l, line_prefix (S l) (c :: r) = match line_prefix (S l) r with Some p => Some (c :: p) | None => None end).
        { intros l. cbn [line_prefix]. now rewrite Hb. }
        cbn [row col]. unfold position_ok. cbn [line character]. destruct (N.eqb_spec (row q) 0) as [E|E].
        -- rewrite E in *. change (N.to_nat 0) with O in *. assert (pre = []) as -> by (destruct r; injection E1 as <-; reflexivity). change (utf8_size []) with 0 in E2. exists []. split; [reflexivity|].
           split; [change (utf8_size []) with 0; rewrite (plain_len c Hc1); lia|]. intros pre' H. rewrite ?Hs in H.
           destruct (line_prefix 1 r) as [q'|]; [|discriminate]. injection H as <-. specialize (E3 q' eq_refl). rewrite utf8_size_cons, (plain_len c Hc1). lia.
        -- destruct (N.to_nat (row q)) as [|l] eqn:El; [lia|]. rewrite Hs, E1. exists (c :: pre). split; [reflexivity|].
           split; [rewrite utf8_size_cons, (plain_len c Hc1); lia|]. intros pre' H. rewrite ?Hs in H.
           destruct (line_prefix (S (S l)) r) as [q'|]; [|discriminate]. injection H as <-. specialize (E3 q' eq_refl). rewrite utf8_size_cons, (plain_len c Hc1). lia.
Qed.

(** Points in terms of the last line. *)
Lemma last_line_exists x : exists z, last_line x z.
Proof.
  induction x as [|c x (z & Hn & Hz)]; [exists []; split; [intros []|now left]|].
  destruct (N.eq_dec c 10) as [->|Hc].
  - destruct Hz as [->|(a & ->)]; [exists z; split; [exact Hn|right; now exists []]|exists z; split; [exact Hn|right; now exists (10 :: a)]].
  - destruct Hz as [->|(a & ->)]; [exists (c :: z); split; [intros [H|H]; [congruence|now apply Hn]|now left]|exists z; split; [exact Hn|right; now exists (c :: a)]].
Qed.
Lemma ts_point_rows x : row (ts_point x) = N.of_nat (count_occ N.eq_dec x 10).
Proof.
  induction x as [|c x IH]; [reflexivity|]. rewrite ts_point_cons. cbn [count_occ]. destruct (N.eqb_spec c 10), (N.eq_dec c 10); try contradiction; cbn [row]; lia.
Qed.
Lemma ts_point_cols x z : plain_text x -> last_line x z -> col (ts_point x) = N.of_nat (length z).
Proof.
  intros Hp (Hn & Hz). assert (Hz0 : forall z, plain_text z -> ~ In 10 z -> ts_point z = mkpt 0 (N.of_nat (length z))).
  { clear. induction z as [|c z IH]; intros Hp Hn; [reflexivity|]. inversion Hp as [|? ? Hc Hz]; subst. rewrite ts_point_cons.
    destruct (N.eqb_spec c 10) as [->|_]; [destruct Hn; now left|]. rewrite IH by (auto; intros H; apply Hn; now right). cbn [row col length]. rewrite N.eqb_refl, (plain_len c Hc), Nat2N.inj_succ. apply (f_equal (mkpt 0)). lia. }
  destruct Hz as [->|(a & ->)]; [now rewrite Hz0|]. apply Forall_app in Hp. destruct Hp as (_ & Hp). inversion Hp as [|? ? _ Hz]; subst.
  unfold ts_point. rewrite ts_point_from_app. cbn [ts_point_from]. change (10 =? 10) with true. cbv iota. rewrite ts_point_row, (Hz0 z Hz Hn). reflexivity.
Qed.
Lemma end_alike_points p x y : plain_text x -> plain_text y -> (ts_point_from p x = ts_point_from p y <-> end_alike x y).
Proof.
  intros Hx Hy. destruct p as [r0 c0]. rewrite !ts_point_row, !ts_point_rows. split.
  - intros E. injection E as E1 E2. assert (Ec : count_occ N.eq_dec x 10 = count_occ N.eq_dec y 10) by lia. split; [exact Ec|].
    intros z z' Hz Hz'. rewrite Ec, (ts_point_cols x z Hx Hz), (ts_point_cols y z' Hy Hz') in E2. destruct (_ =? 0); lia.
  - intros (Ec & H). destruct (last_line_exists x) as (z & Hz), (last_line_exists y) as (z' & Hz').
    rewrite (ts_point_cols x z Hx Hz), (ts_point_cols y z' Hy Hz'), Ec, (H z z' Hz Hz'). reflexivity.
Qed.
Lemma new_point_exact t r x s e ie t' : plain_text t -> plain_text x -> no_lone_cr t -> utf8_size t < two32 ->
  index_of t (rstart r) s -> index_of t (rend r) e -> (s <= e)%nat -> apply_change t r x = Ok (t', ie) ->
  (new_point_truthful (firstn s t) x ie <-> end_alike (firstn (length x) (skipn s t)) x).
Proof.
  intros Ht Hx Hc Hsz Hs He Hse Happ.
  pose proof (index_bounds _ _ _ He) as Hel.
  pose proof (to_byte_index _ _ _ Hs (Forall_firstn _ _ _ Ht)) as Hsb.
  pose proof (to_byte_index _ _ _ He (Forall_firstn _ _ _ Ht)) as Heb.
  destruct (to_input_edit_ok t r x _ _ Hsb Heb) as (np & Hnp & Hie).
  unfold apply_change in Happ. rewrite Hie in Happ. cbn [bind] in Happ.
  rewrite Hsb, Heb in Happ. cbn [bind] in Happ.
  assert (ie = mkie (N.of_nat s) (N.of_nat e) (N.of_nat s + bytes_len x)
                 (rope_to_point (rstart r)) (rope_to_point (rend r)) (rope_to_point np)).
  { destruct (if N.of_nat s <=? N.of_nat e then _ else _) as [t1|]; [|discriminate].
    cbn [bind] in Happ. destruct (match x with [] => Ok t1 | _ => _ end) as [t2|]; [|discriminate].
    cbn [bind] in Happ. congruence. }
  subst ie. unfold new_point_truthful. cbn [new_end_position].
  destruct (to_position_spec t (N.of_nat s + bytes_len x) Hsz) as (np' & Hnp' & Hok & _). assert (np' = np) by congruence. subst np'.
  rewrite <- utf8_size_bytes, (plain_size x Hx), (plain_size t Ht) in Hok.
  set (k := Nat.min (s + length x) (length t)) in *.
  replace (N.min (N.of_nat s + N.of_nat (length x)) (N.of_nat (length t))) with (N.of_nat k) in Hok by lia.
  pose proof (point_at t k Ht Hc ltac:(lia)) as Hk. rewrite (position_unique _ _ _ _ Hok Hk). unfold rope_to_point. cbn [line character].
  assert (Ek : firstn k t = firstn s t ++ firstn (length x) (skipn s t)).
  { rewrite <- (firstn_skipn s t) at 1. rewrite firstn_app, firstn_length_le by lia. rewrite firstn_firstn. f_equal; [f_equal; lia|].
    destruct (Nat.le_gt_cases (s + length x) (length t)); [f_equal; lia|]. rewrite !firstn_all2; [reflexivity| |]; rewrite skipn_length; lia. }
  rewrite Ek. unfold ts_point. rewrite !ts_point_from_app. rewrite <- (end_alike_points (ts_point_from (mkpt 0 0) (firstn s t)));
    [|now apply Forall_firstn, Forall_skipn|exact Hx].
  destruct (ts_point_from (ts_point_from (mkpt 0 0) (firstn s t)) (firstn (length x) (skipn s t))). reflexivity.
Qed.
