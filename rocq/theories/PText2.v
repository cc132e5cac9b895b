(** * PText2: edits of Unicode documents (C02). *)
From Verif Require Import Base Utf8 Rope MLspFiles SpecText PText.

Lemma odd_break_dec c : is_break_char c = true -> c <> 10 -> c <> 13 -> odd_break c.
Proof.
  unfold is_break_char, odd_break. intros H H1 H2.
  destruct (N.eqb_spec c 10), (N.eqb_spec c 11), (N.eqb_spec c 12), (N.eqb_spec c 13),
    (N.eqb_spec c 133), (N.eqb_spec c 8232), (N.eqb_spec c 8233); subst; cbn; auto 10; try lia; discriminate.
Qed.

(** Where ropey's lines start, when the lines above contain only LSP line breaks. *)
Lemma line_starts_common_n n : forall t off l,
  (length t <= n)%nat -> (l < length (lsp_lines t))%nat ->
  (forall c, In c (lines_text (firstn l (lsp_lines t))) -> ~ odd_break c) ->
  nth_error (off :: line_starts_from off t) l
  = Some (off + bytes_len (lines_text (firstn l (lsp_lines t)))).
Proof.
  induction n as [|n IH]; intros t off l Hn Hl Hp.
  - destruct t; simpl in Hn; [|lia]. simpl in Hl. assert (l = O) by lia. subst l.
    cbn. f_equal. lia.
  - destruct l as [|l].
    { cbn. f_equal. lia. }
    destruct t as [|c r]. { simpl in Hl. lia. }
    simpl in Hn. cbn [lsp_lines] in *. cbn [line_starts_from nth_error].
    destruct (N.eqb_spec c 10) as [->|Hc].
    + simpl in Hl. cbn [firstn] in *. rewrite lines_text_cons in *. cbn [fst snd app] in *.
      replace (ends_line 10 r) with true by reflexivity.
      rewrite (IH r (off + utf8_len 10) l) by (auto with datatypes; lia).
      f_equal. cbn [bytes_len fold_right]. fold (bytes_len (lines_text (firstn l (lsp_lines r)))). lia.
    + destruct (N.eqb_spec c 13) as [->|Hc'].
      * destruct r as [|d r'].
        { simpl in Hl. assert (l = O) by lia. subst l. reflexivity. }
        destruct (N.eqb_spec d 10) as [->|Hd].
        -- simpl in Hl. cbn [firstn] in *. rewrite lines_text_cons in *. cbn [fst snd app] in *.
           replace (ends_line 13 (10 :: r')) with false by reflexivity.
           cbn [line_starts_from]. replace (ends_line 10 r') with true by reflexivity.
           simpl in Hn.
           rewrite (IH r' _ l) by (auto with datatypes; lia).
           f_equal. cbn [bytes_len fold_right]. fold (bytes_len (lines_text (firstn l (lsp_lines r')))). lia.
        -- cbn [length] in Hl. cbn [firstn] in *. rewrite lines_text_cons in *. cbn [fst snd app] in *.
           assert (He : ends_line 13 (d :: r') = true).
           { unfold ends_line, CR, LF. destruct (N.eqb_spec d 10); [congruence|reflexivity]. }
           rewrite He.
           rewrite (IH (d :: r') _ l) by (auto with datatypes; simpl in *; lia).
           f_equal. cbn [bytes_len fold_right]. fold (bytes_len (lines_text (firstn l (lsp_lines (d :: r'))))). lia.
      * destruct (lsp_lines r) as [|[b e] ls] eqn:E; [simpl in Hl; lia|].
        simpl in Hl. cbn [firstn] in *. rewrite lines_text_cons in *. cbn [fst snd app] in *.
        assert (He : ends_line c r = false).
        { unfold ends_line. destruct (is_break_char c) eqn:Eb; [|reflexivity].
          destruct (Hp c (or_introl eq_refl)). now apply odd_break_dec. }
        rewrite He.
        specialize (IH r (off + utf8_len c) (S l)). rewrite E in IH. cbn [nth_error firstn length] in IH.
        rewrite IH; [| lia | lia | rewrite lines_text_cons; auto with datatypes ].
        f_equal. rewrite lines_text_cons. cbn [fst snd bytes_len fold_right]. fold (bytes_len (b ++ e ++ lines_text (firstn l ls))). lia.
Qed.

Lemma bytes_len_ge t : N.of_nat (length t) <= bytes_len t.
Proof. induction t as [|c t IH]; cbn; [lia|]. fold (bytes_len t). pose proof (utf8_len_pos c). lia. Qed.
Lemma bytes_len_eq t : bytes_len t = N.of_nat (length t) <-> Forall (fun c => c < 128) t.
Proof.
  induction t as [|c t IH]; [split; [constructor|reflexivity]|].
  cbn [bytes_len fold_right length]. fold (bytes_len t). pose proof (bytes_len_ge t) as G. pose proof (utf8_len_pos c) as P. split.
  - intros H. constructor; [|apply IH; lia]. unfold utf8_len in *. destruct (N.ltb_spec c 128); [assumption|].
    destruct (c <? 2048), (c <? 65536); lia.
  - intros H. inversion H as [|? ? H1 H2]; subst. apply IH in H2. rewrite H2. unfold utf8_len. destruct (N.ltb_spec c 128); lia.
Qed.
Lemma utf16_ge t : N.of_nat (length t) <= utf16_width t.
Proof. induction t as [|c t IH]; cbn; [lia|]. fold (utf16_width t). unfold utf16_len. destruct (c <? 65536); lia. Qed.
Lemma utf16_eq t : utf16_width t = N.of_nat (length t) <-> Forall (fun c => c < 65536) t.
Proof.
  induction t as [|c t IH]; [split; [constructor|reflexivity]|].
  cbn [utf16_width fold_right length]. fold (utf16_width t). pose proof (utf16_ge t) as G. split.
  - intros H. unfold utf16_len in H. destruct (N.ltb_spec c 65536); [|lia]. constructor; [assumption|apply IH; lia].
  - intros H. inversion H as [|? ? H1 H2]; subst. apply IH in H2. rewrite H2. unfold utf16_len. destruct (N.ltb_spec c 65536); lia.
Qed.

(** The server's index is never too small, and right exactly at easy positions. *)
Lemma to_byte_exact t p i :
  index_of t p i -> (forall c, In c (text_above t p) -> ~ odd_break c) ->
  exists n, to_byte t p = Ok n /\ N.of_nat i <= n /\ (n = N.of_nat i <-> easy t p i).
Proof.
  intros (body & eol & k & Hn & Hk & Hw & Hi) Hc.
  assert (Hl : (N.to_nat (line p) < length (lsp_lines t))%nat) by (apply nth_error_Some; congruence).
  pose proof (line_starts_common_n (length t) t 0 (N.to_nat (line p)) (le_n _) Hl Hc) as H.
  unfold to_byte, line_to_byte, line_starts. rewrite (nth_error_app_Some _ _ _ _ H). cbn [bind].
  eexists. split; [reflexivity|].
  unfold easy. rewrite (firstn_index _ _ _ _ _ _ Hn Hk Hi). unfold text_above in *.
  set (above := lines_text _) in *.
  rewrite skipn_app, skipn_all, Nat.sub_diag. cbn [skipn app].
  rewrite <- bytes_len_eq, <- utf16_eq, Hw, firstn_length_le by lia.
  pose proof (bytes_len_ge above). pose proof (utf16_ge (firstn k body)) as G. rewrite Hw, firstn_length_le in G by lia. lia.
Qed.

(** Inserting one character: where it ends up. *)
Lemma apply_one t r c s e t' ie :
  to_byte t (rstart r) = Ok s -> to_byte t (rend r) = Ok e -> apply_change t r [c] = Ok (t', ie) ->
  exists t1, t' = firstn (N.to_nat s) t1 ++ c :: skipn (N.to_nat s) t1 /\ s <= len_chars t1 /\
    (if s <=? e then rope_remove t s e else rope_remove t e s) = Ok t1.
Proof.
  intros Hs He H. unfold apply_change in H. destruct (to_input_edit t r [c]); [|discriminate]. cbn [bind] in H.
  rewrite Hs, He in H. cbn [bind] in H. destruct (if s <=? e then _ else _) as [t1|]; [|discriminate]. cbn [bind] in H.
  unfold rope_insert in H. destruct (N.leb_spec s (len_chars t1)); [|discriminate]. cbn [bind] in H.
  inversion H. exists t1. auto.
Qed.

Lemma apply_change_at t r x s e :
  to_byte t (rstart r) = Ok (N.of_nat s) -> to_byte t (rend r) = Ok (N.of_nat e) -> (s <= e)%nat -> (e <= length t)%nat ->
  exists ie, apply_change t r x = Ok (firstn s t ++ x ++ skipn e t, ie).
Proof.
  intros Hsb Heb Hse Hel. unfold apply_change.
  destruct (to_input_edit_ok t r x _ _ Hsb Heb) as (np & _ & Hie). rewrite Hie. cbn [bind].
  rewrite Hsb, Heb. cbn [bind].
  destruct (N.leb_spec (N.of_nat s) (N.of_nat e)); [|lia].
  unfold rope_remove, len_chars.
  destruct (N.leb_spec (N.of_nat s) (N.of_nat e)); [|lia].
  destruct (N.leb_spec (N.of_nat e) (N.of_nat (length t))); [|lia]. cbn [andb bind].
  rewrite !Nat2N.id.
  destruct x as [|c x].
  - cbn [bind]. eexists. reflexivity.
  - unfold rope_insert, len_chars.
    destruct (N.leb_spec (N.of_nat s) (N.of_nat (length (firstn s t ++ skipn e t)))) as [H3|H3].
    2:{ rewrite app_length, firstn_length_le, skipn_length in H3 by lia. lia. }
    cbn [bind]. rewrite Nat2N.id. eexists. f_equal. f_equal.
    rewrite firstn_app, firstn_firstn, Nat.min_id, firstn_length_le, Nat.sub_diag by lia.
    cbn [firstn]. rewrite app_nil_r. f_equal. f_equal.
    rewrite skipn_app, firstn_length_le, Nat.sub_diag by lia.
    rewrite skipn_all2 by (rewrite firstn_length_le; lia). reflexivity.
Qed.

Lemma nth_error_insert {A} (l : list A) i c : (i <= length l)%nat ->
  nth_error (firstn i l ++ c :: skipn i l) i = Some c.
Proof.
  intros H. rewrite nth_error_app2; rewrite firstn_length_le by lia; [|lia]. now rewrite Nat.sub_diag.
Qed.
Lemma nth_error_before {A} (l : list A) i j c z : (i < j)%nat -> (j <= length l)%nat ->
  nth_error (firstn j l ++ c :: z) i = nth_error l i.
Proof.
  intros H1 H2. rewrite nth_error_app1 by (rewrite firstn_length_le; lia).
  rewrite <- (firstn_skipn j l) at 2. rewrite nth_error_app1; [reflexivity|rewrite firstn_length_le; lia].
Qed.

Lemma unicode_edit_exact t r s e :
  index_of t (rstart r) s -> index_of t (rend r) e -> (s <= e)%nat ->
  (forall c, In c (text_above t (rstart r) ++ text_above t (rend r)) -> ~ odd_break c) ->
  ((forall x, Forall (fun c => is_scalar c = true) x ->
      exists ie, apply_change t r x = Ok (firstn s t ++ x ++ skipn e t, ie)) <->
   easy t (rstart r) s /\ easy t (rend r) e).
Proof.
  intros Hs He Hse Hc.
  destruct (to_byte_exact t (rstart r) s Hs) as (S' & Es & Ls & Xs); [auto with datatypes|].
  destruct (to_byte_exact t (rend r) e He) as (E' & Ee & Le & Xe); [auto with datatypes|].
  pose proof (index_bounds _ _ _ He) as Hel. pose proof (index_bounds _ _ _ Hs) as Hsl.
  split.
  - intros H.
    destruct (H [97]) as (i1 & H1); [repeat constructor|]. destruct (H [98]) as (i2 & H2); [repeat constructor|].
    destruct (apply_one _ _ _ _ _ _ _ Es Ee H1) as (t1 & A1 & B1 & C1).
    destruct (apply_one _ _ _ _ _ _ _ Es Ee H2) as (t2 & A2 & _ & C2).
    rewrite C1 in C2. inversion C2; subst t2. clear C2. unfold len_chars in B1.
    assert (S' = N.of_nat s) as ->.
    { destruct (N.eq_dec S' (N.of_nat s)) as [?|Hne]; [assumption|exfalso].
      apply (f_equal (fun l => nth_error l s)) in A1. apply (f_equal (fun l => nth_error l s)) in A2.
      rewrite nth_error_before in A1 by lia. rewrite nth_error_before in A2 by lia.
      rewrite <- A1 in A2. cbn [app] in A2.
      rewrite !nth_error_app2 in A2 by (rewrite firstn_length_le; lia). rewrite firstn_length_le, Nat.sub_diag in A2 by lia.
      discriminate. }
    split; [now apply Xs|]. apply Xe. destruct (N.leb_spec (N.of_nat s) E'); [|lia].
    unfold rope_remove, len_chars in C1. destruct (N.leb_spec (N.of_nat s) E'); [|lia].
    destruct (N.leb_spec E' (N.of_nat (length t))); [|discriminate]. cbn [andb] in C1. inversion C1; subst t1.
    apply (f_equal (@length N)) in A1. rewrite !app_length in A1. cbn [length] in A1.
    rewrite !skipn_length, !firstn_length, !app_length, !firstn_length, !skipn_length in A1. lia.
  - intros (K1 & K2) x _. apply Xs in K1. apply Xe in K2. subst. now apply apply_change_at.
Qed.

Lemma easy_edit_applied t r x t' : easy_edit t r x t' -> exists ie, apply_change t r x = Ok (t', ie).
Proof.
  intros (s & e & Hs & He & Hse & -> & Hc & K1 & K2).
  destruct (to_byte_exact t (rstart r) s Hs) as (S' & Es & Ls & Xs); [auto with datatypes|].
  destruct (to_byte_exact t (rend r) e He) as (E' & Ee & Le & Xe); [auto with datatypes|].
  pose proof (index_bounds _ _ _ He) as Hel. apply Xs in K1. apply Xe in K2. subst. now apply apply_change_at.
Qed.
Lemma easy_changes_applied t cs t' : easy_changes t cs t' -> exists edits, apply_changes t cs = Ok (t', false, edits).
Proof.
  induction 1 as [t|t r x t1 cs t2 H _ (edits & IH)]; [now exists []|]. cbn [apply_changes ch_range ch_text].
  destruct (easy_edit_applied _ _ _ _ H) as (ie & ->). cbn [bind fst snd]. rewrite IH. cbn [bind]. eauto.
Qed.
Lemma easy_session_text T uri : forall ns tid (s : lsp_files T) t t',
  sget uri (ls_docs s) = Some t -> easy_session t ns t' ->
  exists s', server_session uri tid ns s = Ok s' /\ sget uri (ls_docs s') = Some t'.
Proof.
  induction ns as [|cs ns IH]; intros tid s t t' Hs Hl; inversion Hl; subst.
  - exists s. auto.
  - cbn [server_session]. unfold did_change. rewrite Hs.
    destruct (easy_changes_applied t cs t1) as (edits & ->); [assumption|].
    cbn [bind]. eapply IH; eauto. unfold set_task. cbn [ls_docs].
    rewrite apply_edits_docs. cbn [ls_docs set_docs]. apply sget_sinsert_same.
Qed.

(** ** Byte offsets (C04) *)
Lemma bytes_len_app a b : bytes_len (a ++ b) = bytes_len a + bytes_len b.
Proof. rewrite <- !utf8_size_bytes. apply utf8_size_app. Qed.
Lemma utf16_bytes t : utf16_width t <= bytes_len t /\ (utf16_width t = bytes_len t <-> Forall (fun c => c < 128) t).
Proof.
  induction t as [|c t (IH1 & IH2)]; [split; [cbn; lia|split; [constructor|reflexivity]]|].
  assert (Hc : utf16_len c <= utf8_len c /\ (utf16_len c = utf8_len c <-> c < 128)).
  { unfold utf16_len, utf8_len. destruct (N.ltb_spec c 128), (N.ltb_spec c 2048), (N.ltb_spec c 65536); lia. }
  destruct Hc as (H1 & H2). change (utf16_width (c :: t)) with (utf16_len c + utf16_width t).
  rewrite <- utf8_size_bytes, utf8_size_cons, utf8_size_bytes. split; [lia|].
  rewrite Forall_cons_iff, <- IH2, <- H2. lia.
Qed.
Lemma text_above_firstn t p i : index_of t p i ->
  firstn i t = text_above t p ++ skipn (length (text_above t p)) (firstn i t).
Proof.
  intros (body & eol & k & Hn & Hk & Hw & Hi). rewrite (firstn_index _ _ _ _ _ _ Hn Hk Hi). unfold text_above.
  rewrite skipn_app, skipn_all, Nat.sub_diag. reflexivity.
Qed.
Lemma to_byte_bytes t p i :
  index_of t p i -> (forall c, In c (text_above t p) -> ~ odd_break c) ->
  exists n, to_byte t p = Ok n /\ n <= utf8_size (firstn i t) /\ (n = utf8_size (firstn i t) <-> ascii_on_line t p i).
Proof.
  intros Hx Hc. pose proof Hx as (body & eol & k & Hn & Hk & Hw & Hi).
  assert (Hl : (N.to_nat (line p) < length (lsp_lines t))%nat) by (apply nth_error_Some; congruence).
  pose proof (line_starts_common_n (length t) t 0 (N.to_nat (line p)) (le_n _) Hl Hc) as H.
  unfold to_byte, line_to_byte, line_starts. rewrite (nth_error_app_Some _ _ _ _ H). cbn [bind].
  eexists. split; [reflexivity|]. unfold ascii_on_line.
  rewrite (firstn_index _ _ _ _ _ _ Hn Hk Hi). unfold text_above in *. set (above := lines_text _) in *.
  rewrite skipn_app, skipn_all, Nat.sub_diag. cbn [skipn app].
  rewrite utf8_size_bytes, bytes_len_app. destruct (utf16_bytes (firstn k body)) as (H1 & H2). rewrite <- H2. lia.
Qed.
Lemma apply_change_ie t r x t' ie a e :
  to_byte t (rstart r) = Ok a -> to_byte t (rend r) = Ok e -> apply_change t r x = Ok (t', ie) ->
  start_byte ie = a /\ old_end_byte ie = e /\ new_end_byte ie = a + bytes_len x.
Proof.
  intros Ha He H. unfold apply_change in H. destruct (to_input_edit_ok t r x _ _ Ha He) as (np & _ & Hie).
  rewrite Hie in H. cbn [bind] in H. rewrite Ha, He in H. cbn [bind] in H.
  destruct (if a <=? e then _ else _) as [t1|]; [|discriminate]. cbn [bind] in H.
  destruct (match x with [] => Ok t1 | _ => _ end) as [t2|]; [|discriminate]. cbn [bind] in H. inversion H; subst. auto.
Qed.
Lemma firstn_mid {A} (t : list A) s e : (s <= e)%nat -> firstn s t ++ firstn (e - s) (skipn s t) = firstn e t.
Proof.
  intros H. revert e t H. induction s as [|s IH]; intros e t H; [now rewrite Nat.sub_0_r|].
  destruct e as [|e]; [lia|]. destruct t as [|c t]; [cbn; now rewrite firstn_nil|]. cbn [firstn skipn app Nat.sub]. f_equal. apply IH. lia.
Qed.
(** Exactly when the byte part of the description is right. *)
Lemma edit_bytes_exact t r x s e ie t' :
  index_of t (rstart r) s -> index_of t (rend r) e -> (s <= e)%nat ->
  (forall c, In c (text_above t (rstart r) ++ text_above t (rend r)) -> ~ odd_break c) ->
  apply_change t r x = Ok (t', ie) ->
  (bytes_truthful (firstn s t) (firstn (e - s) (skipn s t)) x ie <->
   ascii_on_line t (rstart r) s /\ ascii_on_line t (rend r) e).
Proof.
  intros Hs He Hse Hc H.
  destruct (to_byte_bytes t (rstart r) s Hs) as (S' & Es & Ls & Xs); [auto with datatypes|].
  destruct (to_byte_bytes t (rend r) e He) as (E' & Ee & Le & Xe); [auto with datatypes|].
  destruct (apply_change_ie _ _ _ _ _ _ _ Es Ee H) as (H1 & H2 & H3).
  unfold bytes_truthful. rewrite (firstn_mid t s e Hse), H1, H2, H3, utf8_size_app, <- utf8_size_bytes, <- Xs, <- Xe. lia.
Qed.
Lemma honest_edit_applied t r x t' : honest_edit t r x t' ->
  exists a old z ie, apply_change t r x = Ok (t', ie) /\ t = a ++ old ++ z /\ t' = a ++ x ++ z /\ bytes_truthful a old x ie.
Proof.
  intros (s & e & Hs & He & Hse & Ht' & Hc & Ha).
  assert (Hes : Forall (fun c => c < 128) (firstn s t)).
  { rewrite <- (firstn_mid t s e Hse) in Ha. apply Forall_app in Ha. apply Ha. }
  assert (Kz : forall p i, index_of t p i -> Forall (fun c => c < 128) (firstn i t) -> easy t p i /\ ascii_on_line t p i).
  { intros p i Hi Hf. pose proof (text_above_firstn _ _ _ Hi) as E. rewrite E in Hf. apply Forall_app in Hf. destruct Hf as (F1 & F2).
    split; [split; [exact F1|]|exact F2]. eapply Forall_impl; [|exact F2]. cbn. lia. }
  destruct (Kz _ _ Hs Hes) as (K1 & K2). destruct (Kz _ _ He Ha) as (K3 & K4).
  destruct (easy_edit_applied t r x t') as (ie & E).
  { exists s, e. repeat (split; [assumption|]). assumption. }
  exists (firstn s t), (firstn (e - s) (skipn s t)), (skipn e t), ie. split; [exact E|].
  split; [rewrite app_assoc, (firstn_mid t s e Hse); symmetry; apply firstn_skipn|]. split; [exact Ht'|].
  apply (edit_bytes_exact _ _ _ _ _ _ _ Hs He Hse Hc E). auto.
Qed.
(** Exactly when both the new text and the bytes of its description are right. *)
Lemma edit_text_and_bytes_exact t r s e :
  index_of t (rstart r) s -> index_of t (rend r) e -> (s <= e)%nat ->
  (forall c, In c (text_above t (rstart r) ++ text_above t (rend r)) -> ~ odd_break c) ->
  ((forall x, Forall (fun c => is_scalar c = true) x -> exists ie, apply_change t r x = Ok (firstn s t ++ x ++ skipn e t, ie) /\
      bytes_truthful (firstn s t) (firstn (e - s) (skipn s t)) x ie) <->
   Forall (fun c => c < 128) (firstn e t)).
Proof.
  intros Hs He Hse Hc. split.
  - intros H. assert (He' : easy t (rstart r) s /\ easy t (rend r) e).
    { apply (unicode_edit_exact t r s e Hs He Hse Hc). intros x Hx. destruct (H x Hx) as (ie & E & _). eauto. }
    destruct (H [] (Forall_nil _)) as (ie & E & Hb). apply (edit_bytes_exact _ _ _ _ _ _ _ Hs He Hse Hc E) in Hb.
    rewrite (text_above_firstn _ _ _ He). apply Forall_app. destruct He' as (_ & (K & _)). destruct Hb as (_ & Hb). auto.
  - intros Ha x _. destruct (honest_edit_applied t r x (firstn s t ++ x ++ skipn e t)) as (a & old & z & ie & E & _).
    { exists s, e. repeat (split; [assumption || reflexivity|]). assumption. }
    exists ie. split; [exact E|]. apply (edit_bytes_exact _ _ _ _ _ _ _ Hs He Hse Hc E).
    assert (Hes : Forall (fun c => c < 128) (firstn s t)).
    { rewrite <- (firstn_mid t s e Hse) in Ha. apply Forall_app in Ha. apply Ha. }
    rewrite (text_above_firstn _ _ _ He) in Ha. rewrite (text_above_firstn _ _ _ Hs) in Hes.
    apply Forall_app in Ha. apply Forall_app in Hes. split; tauto.
Qed.
