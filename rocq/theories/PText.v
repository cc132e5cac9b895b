(** * PText: proofs about text, positions and edits. *)
From Verif Require Import Base Utf8 Rope MLspFiles SpecText.

Arguments N.add : simpl never.
Arguments N.sub : simpl never.
Arguments N.mul : simpl never.
Arguments N.div : simpl never.
Arguments N.modulo : simpl never.
Arguments N.leb : simpl never.
Arguments N.ltb : simpl never.
Arguments N.eqb : simpl never.

Lemma sget_sinsert_same {V} k (v : V) m : sget k (sinsert k v m) = Some v.
Proof.
  unfold sget, sinsert. induction m as [|[k' v'] m IH]; simpl.
  - now rewrite String.eqb_refl.
  - destruct (String.eqb k k') eqn:E; simpl.
    + now rewrite String.eqb_refl.
    + now rewrite E.
Qed.
Lemma sget_sinsert_other {V} k k' (v : V) m : k <> k' -> sget k (sinsert k' v m) = sget k m.
Proof.
  intros H. unfold sget, sinsert. induction m as [|[k2 v2] m IH]; simpl.
  - destruct (String.eqb_spec k k'); congruence.
  - destruct (String.eqb_spec k' k2); simpl.
    + subst k2. destruct (String.eqb_spec k k'); congruence.
    + destruct (String.eqb k k2); auto.
Qed.

(** ** Plain prefixes: rope offsets and LSP indices coincide. *)

Lemma lsp_lines_nonempty t : lsp_lines t <> [].
Proof.
  induction t as [|c r IH]; cbn [lsp_lines]; [discriminate|].
  destruct (c =? 10); [discriminate|]. destruct (c =? 13).
  - destruct r as [|d r']; [discriminate|]. destruct (d =? 10); discriminate.
  - destruct (lsp_lines r) as [|[b e] ls]; [congruence|discriminate].
Qed.

(** The lines of a document, put together, are the document. *)
Lemma lines_text_all_n n : forall t, (length t <= n)%nat -> lines_text (lsp_lines t) = t.
Proof.
  induction n as [|n IH]; intros t Hn.
  - destruct t; simpl in Hn; [reflexivity|lia].
  - destruct t as [|c r]; [reflexivity|]. simpl in Hn.
    assert (IHr : lines_text (lsp_lines r) = r) by (apply IH; lia).
    cbn [lsp_lines]. destruct (N.eqb_spec c 10) as [->|Hc].
    + unfold lines_text in *; cbn. now rewrite IHr.
    + destruct (N.eqb_spec c 13) as [->|Hc'].
      * destruct r as [|d r']; [reflexivity|].
        destruct (N.eqb_spec d 10) as [->|Hd].
        -- assert (IHr' : lines_text (lsp_lines r') = r') by (apply IH; simpl in Hn; lia).
           unfold lines_text in *; cbn [flat_map fst snd app] in *. now rewrite IHr'.
        -- unfold lines_text in *; cbn [flat_map fst snd app] in *. now rewrite IHr.
      * pose proof (lsp_lines_nonempty r). destruct (lsp_lines r) as [|[b e] ls]; [congruence|].
        unfold lines_text in *; cbn in *. now rewrite IHr.
Qed.
Lemma lines_text_all t : lines_text (lsp_lines t) = t.
Proof. apply (lines_text_all_n (length t)); lia. Qed.

Lemma lines_text_app a b : lines_text (a ++ b) = lines_text a ++ lines_text b.
Proof. unfold lines_text. apply flat_map_app. Qed.
Lemma lines_text_cons l ls : lines_text (l :: ls) = fst l ++ snd l ++ lines_text ls.
Proof. unfold lines_text; simpl. now rewrite app_assoc. Qed.

Lemma plain_width c : plain c -> utf16_len c = 1 /\ utf8_len c = 1.
Proof.
  intros [H _]. unfold utf16_len, utf8_len.
  destruct (N.ltb_spec c 65536); [|lia]. destruct (N.ltb_spec c 128); [auto|lia].
Qed.
Lemma plain_utf16 t : Forall plain t -> utf16_width t = N.of_nat (length t).
Proof.
  induction 1 as [|c t Hc Ht IH]; simpl; [reflexivity|].
  destruct (plain_width c Hc) as [-> _]. fold (utf16_width t). lia.
Qed.

Lemma line_starts_lsp_n n : forall t off l,
  (length t <= n)%nat -> (l < length (lsp_lines t))%nat ->
  Forall plain (lines_text (firstn l (lsp_lines t))) ->
  nth_error (off :: line_starts_from off t) l
  = Some (off + N.of_nat (length (lines_text (firstn l (lsp_lines t))))).
Proof.
  induction n as [|n IH]; intros t off l Hn Hl Hp.
  - destruct t; simpl in Hn; [|lia]. simpl in Hl. assert (l = O) by lia. subst l.
    simpl. f_equal. lia.
  - destruct l as [|l].
    { simpl. f_equal. lia. }
    destruct t as [|c r]. { simpl in Hl. lia. }
    simpl in Hn. cbn [lsp_lines] in *. cbn [line_starts_from nth_error].
    destruct (N.eqb_spec c 10) as [->|Hc].
    + simpl in Hl. cbn [firstn] in *. rewrite lines_text_cons in *. cbn [fst snd app] in *.
      inversion Hp as [|? ? _ Hp']; subst.
      replace (ends_line 10 r) with true by reflexivity.
      rewrite (IH r (off + utf8_len 10) l) by (auto; lia).
      f_equal. cbn [length]. change (utf8_len 10) with 1. lia.
    + destruct (N.eqb_spec c 13) as [->|Hc'].
      * destruct r as [|d r'].
        { simpl in Hl. assert (l = O) by lia. subst l. reflexivity. }
        destruct (N.eqb_spec d 10) as [->|Hd].
        -- simpl in Hl. cbn [firstn] in *. rewrite lines_text_cons in *. cbn [fst snd app] in *.
           inversion Hp as [|? ? _ Hp']; subst. inversion Hp' as [|? ? _ Hp'']; subst.
           replace (ends_line 13 (10 :: r')) with false by reflexivity.
           cbn [line_starts_from]. replace (ends_line 10 r') with true by reflexivity.
           simpl in Hn.
           rewrite (IH r' _ l) by (auto; lia).
           f_equal. cbn [length]. change (utf8_len 13) with 1. change (utf8_len 10) with 1. lia.
        -- cbn [length] in Hl. cbn [firstn] in *. rewrite lines_text_cons in *. cbn [fst snd app] in *.
           inversion Hp as [|? ? _ Hp']; subst.
           assert (He : ends_line 13 (d :: r') = true).
           { unfold ends_line, CR, LF. destruct (N.eqb_spec d 10); [congruence|reflexivity]. }
           rewrite He.
           rewrite (IH (d :: r') _ l) by (auto; simpl in *; lia).
           f_equal. cbn [length]. change (utf8_len 13) with 1. lia.
      * destruct (lsp_lines r) as [|[b e] ls] eqn:E; [simpl in Hl; lia|].
        simpl in Hl. cbn [firstn] in *. rewrite lines_text_cons in *. cbn [fst snd app] in *.
        inversion Hp as [|? ? Hcp Hp']; subst.
        assert (He : ends_line c r = false).
        { destruct Hcp as (H1 & H2 & H3). unfold ends_line, is_break_char.
          destruct (N.eqb_spec c 10), (N.eqb_spec c 11), (N.eqb_spec c 12), (N.eqb_spec c 13),
            (N.eqb_spec c 133), (N.eqb_spec c 8232), (N.eqb_spec c 8233); try lia. }
        rewrite He. destruct (plain_width c Hcp) as [_ Hw]. rewrite Hw.
        specialize (IH r (off + 1) (S l)). rewrite E in IH. cbn [nth_error firstn length] in IH.
        rewrite IH; [| lia | lia | rewrite lines_text_cons; exact Hp' ].
        f_equal. rewrite lines_text_cons. cbn [fst snd length]. lia.
Qed.

Lemma nth_error_app_Some {A} (l l' : list A) n x :
  nth_error l n = Some x -> nth_error (l ++ l') n = Some x.
Proof.
  intros H. rewrite nth_error_app1; auto. apply nth_error_Some. congruence.
Qed.

Lemma index_bounds t p i : index_of t p i -> (i <= length t)%nat.
Proof.
  intros (body & eol & k & Hn & Hk & _ & ->).
  rewrite <- (lines_text_all t) at 2.
  destruct (nth_error_split _ _ Hn) as (l1 & l2 & Hs & Hl). rewrite Hs, <- Hl.
  rewrite firstn_app, Nat.sub_diag, firstn_all. cbn [firstn]. rewrite app_nil_r.
  rewrite lines_text_app, lines_text_cons, !app_length. cbn [fst snd]. lia.
Qed.

Lemma firstn_index t p i body eol k :
  nth_error (lsp_lines t) (N.to_nat (line p)) = Some (body, eol) ->
  (k <= length body)%nat ->
  i = (length (lines_text (firstn (N.to_nat (line p)) (lsp_lines t))) + k)%nat ->
  firstn i t = lines_text (firstn (N.to_nat (line p)) (lsp_lines t)) ++ firstn k body.
Proof.
  intros Hn Hk ->.
  rewrite <- (lines_text_all t) at 2.
  destruct (nth_error_split _ _ Hn) as (l1 & l2 & Hs & Hl). rewrite Hs, <- Hl.
  rewrite firstn_app, Nat.sub_diag, firstn_all. cbn [firstn]. rewrite app_nil_r.
  rewrite lines_text_app, lines_text_cons. cbn [fst snd].
  rewrite firstn_app. rewrite firstn_all2 by lia. f_equal.
  replace (length (lines_text l1) + k - length (lines_text l1))%nat with k by lia.
  rewrite firstn_app. replace (k - length body)%nat with O by lia. cbn [firstn]. now rewrite app_nil_r.
Qed.

(** The server's offset of an LSP position is its character index, provided
    everything before it is plain. *)
Lemma to_byte_index t p i :
  index_of t p i -> Forall plain (firstn i t) -> to_byte t p = Ok (N.of_nat i).
Proof.
  intros (body & eol & k & Hn & Hk & Hw & Hi) Hp.
  rewrite (firstn_index _ _ _ _ _ _ Hn Hk Hi) in Hp. apply Forall_app in Hp as [Hp1 Hp2].
  rewrite plain_utf16 in Hw by assumption.
  unfold to_byte, line_to_byte.
  assert (Hl : (N.to_nat (line p) < length (lsp_lines t))%nat)
    by (apply nth_error_Some; congruence).
  pose proof (line_starts_lsp_n (length t) t 0 (N.to_nat (line p)) (le_n _) Hl Hp1) as H.
  unfold line_starts. rewrite (nth_error_app_Some _ _ _ _ H). cbn [bind]. f_equal.
  rewrite firstn_length_le in Hw by lia. lia.
Qed.

(** ** [to_position] (C03) *)

Lemma utf8_len_pos c : 1 <= utf8_len c.
Proof. unfold utf8_len. destruct (c <? 128), (c <? 2048), (c <? 65536); lia. Qed.

Lemma line_starts_from_bounds off t x :
  In x (line_starts_from off t) -> off < x <= off + bytes_len t.
Proof.
  revert off. induction t as [|c t IH]; intros off; cbn [line_starts_from bytes_len fold_right]; [easy|].
  pose proof (utf8_len_pos c). fold (bytes_len t).
  destruct (ends_line c t).
  - intros [<-|H1]; [lia|]. apply IH in H1. lia.
  - intros H1. apply IH in H1. lia.
Qed.

(** Strictly increasing lists of offsets. *)
Inductive sorted : list N -> Prop :=
| sorted_nil : sorted []
| sorted_cons x l : (forall y, In y l -> x < y) -> sorted l -> sorted (x :: l).

Lemma line_starts_from_sorted t : forall off, sorted (line_starts_from off t).
Proof.
  induction t as [|c t IH]; intros off; cbn [line_starts_from]; [constructor|].
  destruct (ends_line c t); [|apply IH].
  constructor; [|apply IH]. intros y Hy. apply line_starts_from_bounds in Hy. lia.
Qed.
Lemma line_starts_sorted t : sorted (line_starts t).
Proof.
  constructor; [|apply line_starts_from_sorted]. intros y Hy.
  apply line_starts_from_bounds in Hy. lia.
Qed.
Lemma sorted_nth l : sorted l -> forall i j x y, (i < j)%nat ->
  nth_error l i = Some x -> nth_error l j = Some y -> x < y.
Proof.
  induction 1 as [|x0 l Hx Hs IH]; intros i j x y Hij Hi Hj.
  - destruct i; discriminate.
  - destruct j as [|j]; [lia|]. destruct i as [|i]; simpl in *.
    + inversion Hi; subst. apply Hx. eapply nth_error_In; eauto.
    + eapply (IH i j); eauto; lia.
Qed.

Lemma line_to_byte_lt t l : (N.to_nat l < length (line_starts t))%nat ->
  exists b, nth_error (line_starts t) (N.to_nat l) = Some b /\ line_to_byte t l = Ok b.
Proof.
  intros H. destruct (nth_error (line_starts t) (N.to_nat l)) as [b|] eqn:E.
  - exists b. split; auto. unfold line_to_byte. now rewrite (nth_error_app_Some _ _ _ _ E).
  - apply nth_error_None in E. lia.
Qed.

Lemma bsearch_spec t offset : forall fuel low high,
  (N.to_nat (high - low) <= fuel)%nat -> low <= high -> high <= len_lines t ->
  (forall i x, (i < N.to_nat low)%nat -> nth_error (line_starts t) i = Some x -> x <= offset) ->
  (forall i x, (N.to_nat high <= i)%nat -> nth_error (line_starts t) i = Some x -> offset < x) ->
  exists k, bsearch fuel t offset low high = Ok k /\ low <= k <= high /\
    (forall i x, (i < N.to_nat k)%nat -> nth_error (line_starts t) i = Some x -> x <= offset) /\
    (forall i x, (N.to_nat k <= i)%nat -> nth_error (line_starts t) i = Some x -> offset < x).
Proof.
  induction fuel as [|fuel IH]; intros low high Hf Hlh Hh Hlow Hhigh.
  - assert (low = high) by lia. subst high. cbn [bsearch]. rewrite N.ltb_irrefl.
    exists low. repeat split; auto; lia.
  - cbn [bsearch]. destruct (N.ltb_spec low high) as [Hlt|Hge].
    2:{ assert (low = high) by lia. subst high. exists low. repeat split; auto; lia. }
    set (mid := low + (high - low) / 2).
    assert (Hmid : low <= mid < high).
    { unfold mid. pose proof (N.div_lt (high - low) 2). lia. }
    destruct (line_to_byte_lt t mid) as (b & Hb & ->).
    { unfold len_lines in Hh. lia. }
    cbn [bind]. destruct (N.ltb_spec offset b) as [Hob|Hob].
    + destruct (IH low mid) as (k & -> & Hk & H1 & H2); auto; try lia.
      * intros i x Hi Hx. destruct (Nat.eq_dec i (N.to_nat mid)) as [->|Hne].
        { congruence. }
        assert (b < x); [|lia].
        apply (sorted_nth _ (line_starts_sorted t) (N.to_nat mid) i b x); auto; lia.
      * exists k. repeat split; auto; lia.
    + destruct (IH (mid + 1) high) as (k & -> & Hk & H1 & H2); auto; try lia.
      * intros i x Hi Hx. destruct (Nat.eq_dec i (N.to_nat mid)) as [->|Hne].
        { assert (x = b) by congruence. lia. }
        assert (x < b); [|lia].
        apply (sorted_nth _ (line_starts_sorted t) i (N.to_nat mid) x b); auto; lia.
      * exists k. repeat split; auto; lia.
Qed.

(** *** Line starts and [line_prefix] *)
Lemma ropey_break_ends c r : ropey_break c (hd_error r) = ends_line c r.
Proof.
  unfold ends_line, is_break_char, CR, LF.
  destruct (N.eq_dec c 10) as [->|]; [reflexivity|].
  destruct (N.eq_dec c 11) as [->|]; [reflexivity|].
  destruct (N.eq_dec c 12) as [->|]; [reflexivity|].
  destruct (N.eq_dec c 133) as [->|]; [reflexivity|].
  destruct (N.eq_dec c 8232) as [->|]; [reflexivity|].
  destruct (N.eq_dec c 8233) as [->|]; [reflexivity|].
  destruct (N.eq_dec c 13) as [->|].
  - destruct r as [|d r]; [reflexivity|]. cbn [hd_error ropey_break].
    destruct (N.eq_dec d 10) as [->|]; [reflexivity|].
    destruct (N.eqb_spec d 10); [congruence|].
    change (ropey_break 13 (Some d)) with (match d with 10 => false | _ => true end).
    destruct d as [|p]; [reflexivity|].
    do 4 (destruct p as [p|p|]; try reflexivity). congruence.
  - replace (c =? 10) with false by lia. replace (c =? 11) with false by lia.
    replace (c =? 12) with false by lia. replace (c =? 13) with false by lia.
    replace (c =? 133) with false by lia. replace (c =? 8232) with false by lia.
    replace (c =? 8233) with false by lia.
    cbn [orb andb]. unfold ropey_break.
    destruct c as [|p]; [reflexivity|].
    repeat (destruct p as [p|p|]; try reflexivity; try congruence).
Qed.

Lemma encode_char_len c : N.of_nat (length (encode_char c)) = utf8_len c.
Proof. unfold encode_char, utf8_len. destruct (c <? 128), (c <? 2048), (c <? 65536); reflexivity. Qed.
Lemma utf8_size_cons c t : utf8_size (c :: t) = utf8_len c + utf8_size t.
Proof.
  unfold utf8_size, encode_bytes. cbn [flat_map]. rewrite app_length, Nat2N.inj_add, encode_char_len.
  reflexivity.
Qed.
Lemma utf8_size_bytes t : utf8_size t = bytes_len t.
Proof.
  induction t as [|c t IH]; [reflexivity|]. rewrite utf8_size_cons. cbn [bytes_len fold_right].
  now rewrite IH.
Qed.
Lemma utf8_size_app a b : utf8_size (a ++ b) = utf8_size a + utf8_size b.
Proof. unfold utf8_size, encode_bytes. rewrite flat_map_app, app_length. lia. Qed.

Lemma line_prefix_starts t : forall l off,
  match line_prefix l t with
  | Some p => nth_error (off :: line_starts_from off t) l = Some (off + utf8_size p)
  | None => nth_error (off :: line_starts_from off t) l = None
  end.
Proof.
  induction t as [|c r IH]; intros l off.
  - destruct l as [|l]; simpl; [f_equal; unfold utf8_size; simpl; lia|]. destruct l; reflexivity.
  - destruct l as [|l]; [simpl; f_equal; unfold utf8_size; simpl; lia|].
    cbn [line_prefix line_starts_from nth_error]. rewrite ropey_break_ends.
    destruct (ends_line c r).
    + specialize (IH l (off + utf8_len c)). destruct (line_prefix l r) as [p|].
      * rewrite IH. rewrite utf8_size_cons. f_equal. lia.
      * exact IH.
    + specialize (IH (S l) (off + utf8_len c)). cbn [nth_error] in IH.
      destruct (line_prefix (S l) r) as [p|].
      * rewrite IH. rewrite utf8_size_cons. f_equal. lia.
      * exact IH.
Qed.
Lemma line_prefix_some l t p :
  line_prefix l t = Some p -> nth_error (line_starts t) l = Some (utf8_size p).
Proof.
  intros H. pose proof (line_prefix_starts t l 0) as H1. rewrite H in H1.
  unfold line_starts. rewrite H1. f_equal.
Qed.
Lemma line_prefix_none l t :
  line_prefix l t = None -> (length (line_starts t) <= l)%nat.
Proof.
  intros H. pose proof (line_prefix_starts t l 0) as H1. rewrite H in H1.
  now apply nth_error_None in H1.
Qed.
Lemma line_prefix_exists l t :
  (l < length (line_starts t))%nat -> exists p, line_prefix l t = Some p.
Proof.
  intros H. destruct (line_prefix l t) eqn:E; eauto. apply line_prefix_none in E. lia.
Qed.

Definition position_ok (t : text) (off : N) (p : position) : Prop :=
  exists pre, line_prefix (N.to_nat (line p)) t = Some pre /\
    utf8_size pre + character p = off /\
    forall pre', line_prefix (S (N.to_nat (line p))) t = Some pre' -> off < utf8_size pre'.

Lemma line_starts_length t : (1 <= length (line_starts t))%nat.
Proof. unfold line_starts; simpl; lia. Qed.
Lemma line_starts_bound t : forall off, N.of_nat (length (line_starts_from off t)) <= bytes_len t.
Proof.
  induction t as [|c t IH]; intros off; cbn [line_starts_from bytes_len fold_right length]; [lia|].
  fold (bytes_len t). pose proof (utf8_len_pos c). specialize (IH (off + utf8_len c)).
  destruct (ends_line c t); cbn [length]; lia.
Qed.

Lemma to_position_spec t off0 :
  utf8_size t < two32 ->
  exists p, to_position t off0 = Ok p /\ position_ok t (N.min off0 (utf8_size t)) p /\
            to_byte t p = Ok (N.min off0 (utf8_size t)).
Proof.
  intros Hsz. rewrite utf8_size_bytes in *. unfold to_position, len_bytes.
  set (off := N.min off0 (bytes_len t)).
  assert (Hlen : 1 <= len_lines t) by (unfold len_lines; pose proof (line_starts_length t); lia).
  destruct (N.eqb_spec (len_lines t) 0); [lia|].
  destruct (bsearch_spec t off (N.to_nat (len_lines t)) 0 (len_lines t)) as (k & -> & Hk & H1 & H2);
    try lia.
  { intros i x Hi Hx. assert (nth_error (line_starts t) i <> None) by congruence.
    apply nth_error_Some in H. unfold len_lines in Hi. lia. }
  cbn [bind].
  assert (Hk1 : 1 <= k).
  { destruct (N.eq_dec k 0) as [->|]; [|lia]. specialize (H2 O 0). cbn in H2.
    specialize (H2 (le_n _) eq_refl). lia. }
  unfold usize_sub. destruct (N.leb_spec 1 k); [|lia]. cbn [bind].
  assert (Hkl : (N.to_nat (k - 1) < length (line_starts t))%nat) by (unfold len_lines in Hk; lia).
  destruct (line_to_byte_lt t (k - 1) Hkl) as (b & Hb & Hb'). rewrite Hb'. cbn [bind].
  assert (Hbo : b <= off) by (apply (H1 (N.to_nat (k - 1))); auto; lia).
  destruct (N.leb_spec b off); [|lia]. cbn [bind].
  assert (Hoff : off <= bytes_len t) by (unfold off; lia).
  assert (Hkb : k - 1 <= bytes_len t).
  { pose proof (line_starts_bound t 0). unfold len_lines, line_starts in Hk. simpl in Hk. lia. }
  assert (Hm1 : as_u32 (k - 1) = k - 1) by (unfold as_u32; apply N.mod_small; lia).
  assert (Hm2 : as_u32 (off - b) = off - b) by (unfold as_u32; apply N.mod_small; lia).
  rewrite Hm1, Hm2. eexists. split; [reflexivity|]. split.
  - destruct (line_prefix_exists _ _ Hkl) as (pre & Hpre). exists pre. cbn [line character].
    split; [exact Hpre|]. apply line_prefix_some in Hpre.
    assert (b = utf8_size pre) by congruence. subst b. split; [lia|].
    intros pre' Hpre'. apply line_prefix_some in Hpre'.
    apply (H2 (S (N.to_nat (k - 1)))); auto. lia.
  - unfold to_byte. cbn [line character]. rewrite Hb'. cbn [bind]. f_equal. lia.
Qed.

Lemma to_position_never_panics t off0 : to_position t off0 <> Panic.
Proof.
  unfold to_position, len_bytes.
  set (off := N.min off0 (bytes_len t)).
  assert (Hlen : 1 <= len_lines t) by (unfold len_lines; pose proof (line_starts_length t); lia).
  destruct (N.eqb_spec (len_lines t) 0); [lia|].
  destruct (bsearch_spec t off (N.to_nat (len_lines t)) 0 (len_lines t)) as (k & -> & Hk & H1 & H2);
    try lia.
  { intros i x Hi Hx. assert (nth_error (line_starts t) i <> None) by congruence.
    apply nth_error_Some in H. unfold len_lines in Hi. lia. }
  cbn [bind].
  assert (Hk1 : 1 <= k).
  { destruct (N.eq_dec k 0) as [->|]; [|lia]. specialize (H2 O 0). cbn in H2.
    specialize (H2 (le_n _) eq_refl). lia. }
  unfold usize_sub. destruct (N.leb_spec 1 k); [|lia]. cbn [bind].
  assert (Hkl : (N.to_nat (k - 1) < length (line_starts t))%nat) by (unfold len_lines in Hk; lia).
  destruct (line_to_byte_lt t (k - 1) Hkl) as (b & Hb & Hb'). rewrite Hb'. cbn [bind].
  assert (Hbo : b <= off) by (apply (H1 (N.to_nat (k - 1))); auto; lia).
  destruct (N.leb_spec b off); [|lia]. discriminate.
Qed.

(** ** Applying one change *)

Lemma to_input_edit_ok t r x s e :
  to_byte t (rstart r) = Ok s -> to_byte t (rend r) = Ok e ->
  exists np, to_position t (s + bytes_len x) = Ok np /\
    to_input_edit t r x
    = Ok (mkie s e (s + bytes_len x) (rope_to_point (rstart r)) (rope_to_point (rend r))
            (rope_to_point np)).
Proof.
  intros Hs He. unfold to_input_edit. rewrite Hs. cbn [bind].
  destruct (to_position t (s + bytes_len x)) as [np|] eqn:E.
  - exists np. split; auto. cbn [bind]. rewrite He. reflexivity.
  - now apply to_position_never_panics in E.
Qed.

Lemma apply_change_lsp t r x s e :
  index_of t (rstart r) s -> index_of t (rend r) e -> (s <= e)%nat ->
  plain_text (firstn e t) ->
  exists ie, apply_change t r x = Ok (firstn s t ++ x ++ skipn e t, ie).
Proof.
  intros Hs He Hse Hp.
  assert (Hps : Forall plain (firstn s t)).
  { replace (firstn s t) with (firstn s (firstn e t)) by (rewrite firstn_firstn; f_equal; lia).
    rewrite <- (firstn_skipn s (firstn e t)) in Hp. apply Forall_app in Hp. tauto. }
  pose proof (index_bounds _ _ _ He) as Hel.
  pose proof (to_byte_index _ _ _ Hs Hps) as Hsb.
  pose proof (to_byte_index _ _ _ He Hp) as Heb.
  unfold apply_change.
  destruct (to_input_edit_ok t r x _ _ Hsb Heb) as (np & _ & Hie). rewrite Hie. cbn [bind].
  rewrite Hsb, Heb. cbn [bind].
  destruct (N.leb_spec (N.of_nat s) (N.of_nat e)); [|lia].
  unfold rope_remove, len_chars.
  destruct (N.leb_spec (N.of_nat s) (N.of_nat e)); [|lia].
  destruct (N.leb_spec (N.of_nat e) (N.of_nat (length t))); [|lia]. cbn [andb bind].
  rewrite !Nat2N.id.
  destruct x as [|c x].
  - cbn [bind]. eexists. reflexivity.
  - unfold rope_insert, len_chars.
    destruct (N.leb_spec (N.of_nat s) (N.of_nat (length (firstn s t ++ skipn e t)))) as [H3|H3].
    2:{ rewrite app_length, firstn_length_le, skipn_length in H3 by lia. lia. }
    cbn [bind]. rewrite Nat2N.id. eexists. f_equal. f_equal.
    rewrite firstn_app, firstn_firstn, Nat.min_id, firstn_length_le, Nat.sub_diag by lia.
    cbn [firstn]. rewrite app_nil_r. f_equal. f_equal.
    rewrite skipn_app, firstn_length_le, Nat.sub_diag by lia.
    rewrite skipn_all2 by (rewrite firstn_length_le; lia). reflexivity.
Qed.

Lemma lsp_edit_plain t r x t' : plain_text t -> plain_text x -> lsp_edit t r x t' -> plain_text t'.
Proof.
  intros Ht Hx (s & e & _ & _ & _ & ->). unfold plain_text in *.
  apply Forall_app; split; [|apply Forall_app; split; auto].
  - rewrite <- (firstn_skipn s t) in Ht. now apply Forall_app in Ht.
  - rewrite <- (firstn_skipn e t) in Ht. now apply Forall_app in Ht.
Qed.

Lemma apply_changes_lsp t cs t' :
  plain_text t -> Forall plain_change cs -> Forall ranged cs -> lsp_changes t cs t' ->
  exists edits, apply_changes t cs = Ok (t', false, edits) /\ plain_text t'.
Proof.
  intros Ht Hpc Hr Hl. induction Hl as [t|t c t1 cs t2 Hc Hcs IH].
  - exists []. cbn. auto.
  - inversion Hpc as [|? ? Hpc1 Hpc2]; subst. inversion Hr as [|? ? Hr1 Hr2]; subst.
    unfold lsp_change, ranged in *. cbn [apply_changes].
    destruct (ch_range c) as [r|]; [|congruence].
    assert (Ht1 : plain_text t1) by (apply (lsp_edit_plain t r (ch_text c)); auto).
    destruct Hc as (s & e & Hs & He & Hse & ->).
    destruct (apply_change_lsp t r (ch_text c) s e Hs He Hse) as (ie & ->).
    { unfold plain_text in *. rewrite <- (firstn_skipn e t) in Ht. now apply Forall_app in Ht. }
    cbn [bind fst snd].
    destruct (IH Ht1 Hpc2 Hr2) as (edits & -> & Hp2). cbn [bind].
    eexists. split; [reflexivity|exact Hp2].
Qed.

Lemma set_trees_docs {T} l m (s : lsp_files T) : ls_docs (set_trees l m s) = ls_docs s.
Proof. destruct l; reflexivity. Qed.
Lemma input_edit_tree_docs {T} file code ie l (s : lsp_files T) :
  ls_docs (input_edit_tree file code ie l s) = ls_docs s.
Proof.
  unfold input_edit_tree. destruct l as [l|]; [|reflexivity].
  destruct (sget file (trees_of l s)); [|reflexivity].
  destruct (parse _ _ _ _); now rewrite ?set_trees_docs.
Qed.
Lemma apply_edits_docs {T} uri l edits (s : lsp_files T) :
  ls_docs (apply_edits uri l edits s) = ls_docs s.
Proof.
  unfold apply_edits. revert s. induction edits as [|e edits IH]; intros s; [reflexivity|].
  cbn [fold_left]. rewrite IH. apply input_edit_tree_docs.
Qed.

(** C01 *)
Lemma session_text T uri : forall ns tid (s : lsp_files T) t t',
  sget uri (ls_docs s) = Some t -> plain_text t ->
  Forall (Forall plain_change) ns -> Forall (Forall ranged) ns -> lsp_session t ns t' ->
  exists s', server_session uri tid ns s = Ok s' /\ sget uri (ls_docs s') = Some t'.
Proof.
  induction ns as [|cs ns IH]; intros tid s t t' Hs Ht Hp Hr Hl; inversion Hl; subst.
  - exists s. auto.
  - inversion Hp as [|? ? Hp1 Hp2]; subst. inversion Hr as [|? ? Hr1 Hr2]; subst.
    cbn [server_session]. unfold did_change. rewrite Hs.
    destruct (apply_changes_lsp t cs t1 Ht Hp1 Hr1) as (edits & -> & Ht1); [assumption|].
    cbn [bind].
    eapply IH; eauto. unfold set_task. cbn [ls_docs].
    rewrite apply_edits_docs. cbn [ls_docs set_docs]. apply sget_sinsert_same.
Qed.

(** ** C05: exact crash condition *)
Lemma line_to_byte_offset t l :
  line_to_byte t l = match line_offset t (N.to_nat l) with Some b => Ok b | None => Panic end.
Proof.
  unfold line_to_byte, line_offset, len_bytes.
  destruct (line_prefix (N.to_nat l) t) as [p|] eqn:E.
  - apply line_prefix_some in E. now rewrite (nth_error_app_Some _ _ _ _ E).
  - pose proof (line_prefix_none _ _ E) as H.
    pose proof (line_starts_length t) as H0.
    rewrite nth_error_app2 by lia.
    destruct (line_prefix (pred (N.to_nat l)) t) as [p|] eqn:E2.
    + apply line_prefix_some in E2.
      assert (nth_error (line_starts t) (pred (N.to_nat l)) <> None) by congruence.
      apply nth_error_Some in H1.
      replace (N.to_nat l - length (line_starts t))%nat with O by lia.
      cbn. now rewrite utf8_size_bytes.
    + apply line_prefix_none in E2.
      destruct (N.to_nat l - length (line_starts t))%nat eqn:E3; [lia|].
      cbn. destruct n; reflexivity.
Qed.

Lemma apply_change_panics t r x : apply_change t r x = Panic <-> edit_crashes t r x.
Proof.
  unfold edit_crashes.
  assert (Hb : forall p, to_byte t p =
    match line_offset t (N.to_nat (line p)) with Some b => Ok (b + character p) | None => Panic end).
  { intros p. unfold to_byte. rewrite line_to_byte_offset. now destruct (line_offset _ _). }
  destruct (line_offset t (N.to_nat (line (rstart r)))) as [a|] eqn:Ea.
  2:{ split; auto. intros _. unfold apply_change, to_input_edit. now rewrite Hb, Ea. }
  destruct (line_offset t (N.to_nat (line (rend r)))) as [b|] eqn:Eb.
  2:{ split; auto. intros _. unfold apply_change, to_input_edit. rewrite Hb, Ea. cbn [bind].
      destruct (to_position _ _); [|reflexivity]. cbn [bind]. now rewrite Hb, Eb. }
  set (s := a + character (rstart r)). set (e := b + character (rend r)). cbn zeta.
  assert (Hs : to_byte t (rstart r) = Ok s) by (now rewrite Hb, Ea).
  assert (He : to_byte t (rend r) = Ok e) by (now rewrite Hb, Eb).
  unfold apply_change. destruct (to_input_edit_ok t r x s e Hs He) as (np & _ & ->).
  cbn [bind]. rewrite Hs, He. cbn [bind].
  unfold rope_remove, len_chars.
  destruct (N.leb_spec s e) as [Hse|Hse].
  - destruct (N.leb_spec e (N.of_nat (length t))) as [Hel|Hel]; cbn [andb bind].
    2:{ split; auto. }
    destruct x as [|c x]; cbn [bind].
    + split; [discriminate|]. intros [H|[H|[H _]]]; lia.
    + unfold rope_insert, len_chars. rewrite app_length, firstn_length_le, skipn_length by lia.
      destruct (N.leb_spec s (N.of_nat (N.to_nat s + (length t - N.to_nat e)))); [|lia].
      cbn [bind]. split; [discriminate|]. intros [H1|[H1|[H1 _]]]; lia.
  - destruct (N.leb_spec e s); [|lia].
    destruct (N.leb_spec s (N.of_nat (length t))) as [Hel|Hel]; cbn [andb bind].
    2:{ split; auto. }
    destruct x as [|c x]; cbn [bind].
    + split; [discriminate|]. intros [H1|[H1|(_ & H1 & _)]]; try lia. congruence.
    + unfold rope_insert, len_chars. rewrite app_length, firstn_length_le, skipn_length by lia.
      destruct (N.leb_spec s (N.of_nat (N.to_nat e + (length t - N.to_nat s)))); cbn [bind].
      * split; [discriminate|]. intros [H1|[H1|(_ & _ & H1)]]; lia.
      * split; [|reflexivity]. intros _. right. right. repeat split; [lia|discriminate|lia].
Qed.

(** ** C04: edit descriptions *)
Lemma plain_size t : Forall plain t -> utf8_size t = N.of_nat (length t).
Proof.
  induction 1 as [|c t Hc Ht IH]; [reflexivity|].
  rewrite utf8_size_cons. destruct (plain_width c Hc) as [_ ->]. cbn [length]. lia.
Qed.

Lemma ts_point_from_app p a b : ts_point_from p (a ++ b) = ts_point_from (ts_point_from p a) b.
Proof. revert p. induction a as [|c a IH]; intros p; [reflexivity|]. cbn [app ts_point_from]. apply IH. Qed.

Lemma ts_point_no_eol p a : no_eol a -> ts_point_from p a = mkpt (row p) (col p + utf8_size a).
Proof.
  intros H. revert p. induction H as [|c a [Hc _] Ha IH]; intros p.
  - cbn. destruct p as [r c]. cbn. f_equal. unfold utf8_size; cbn. lia.
  - cbn [ts_point_from]. destruct (N.eqb_spec c 10); [congruence|]. rewrite IH. cbn [row col].
    rewrite utf8_size_cons. f_equal. lia.
Qed.

Lemma no_lone_tl c r : no_lone_cr (c :: r) -> no_lone_cr r.
Proof. now intros [_ H]. Qed.

Lemma ts_point_lines n : forall t l p,
  (length t <= n)%nat -> (l < length (lsp_lines t))%nat -> no_lone_cr t ->
  ts_point_from p (lines_text (firstn l (lsp_lines t)))
  = if Nat.eqb l 0 then p else mkpt (row p + N.of_nat l) 0.
Proof.
  induction n as [|n IH]; intros t l p Hn Hl Hc.
  - destruct t; simpl in Hn; [|lia]. simpl in Hl. assert (l = O) by lia. subst. reflexivity.
  - destruct l as [|l]; [reflexivity|]. cbn [Nat.eqb].
    destruct t as [|c r]; [simpl in Hl; lia|]. simpl in Hn. cbn [lsp_lines] in *.
    destruct (N.eqb_spec c 10) as [->|Hc10].
    + cbn [length] in Hl. cbn [firstn]. rewrite lines_text_cons. cbn [fst snd app ts_point_from].
      change (10 =? 10) with true. rewrite IH by (eauto using no_lone_tl; lia).
      cbn [row]. destruct (Nat.eqb_spec l 0); f_equal; lia.
    + destruct (N.eqb_spec c 13) as [->|Hc13].
      * destruct Hc as [Hc1 Hc2]. specialize (Hc1 eq_refl).
        destruct r as [|d r']; [discriminate|]. cbn in Hc1. inversion Hc1; subst d.
        change (10 =? 10) with true in *. cbn [length] in Hl, Hn.
        cbn [firstn]. rewrite lines_text_cons. cbn [fst snd app ts_point_from].
        change (13 =? 10) with false. change (10 =? 10) with true. cbn [row col].
        rewrite IH by (eauto using no_lone_tl; lia).
        cbn [row]. destruct (Nat.eqb_spec l 0); f_equal; lia.
      * pose proof (IH r (S l)) as IHr.
        destruct (lsp_lines r) as [|[b e] ls] eqn:E; [simpl in Hl; lia|].
        cbn [length] in *. cbn [firstn] in *. rewrite lines_text_cons in *. cbn [fst snd app] in *.
        cbn [ts_point_from]. destruct (N.eqb_spec c 10); [congruence|].
        rewrite IHr by (eauto using no_lone_tl; lia). reflexivity.
Qed.

Lemma lsp_body_no_eol n : forall t b e, (length t <= n)%nat -> In (b, e) (lsp_lines t) -> no_eol b.
Proof.
  induction n as [|n IH]; intros t b e Hn H.
  - destruct t; simpl in Hn; [|lia]. destruct H as [H|[]]. inversion H. constructor.
  - destruct t as [|c r]; [destruct H as [H|[]]; inversion H; constructor|].
    simpl in Hn. cbn [lsp_lines] in H.
    destruct (N.eqb_spec c 10) as [->|Hc10].
    { destruct H as [H|H]; [inversion H; constructor|]. eapply (IH r); eauto; lia. }
    destruct (N.eqb_spec c 13) as [->|Hc13].
    { destruct r as [|d r'].
      - destruct H as [H|[H|[]]]; inversion H; constructor.
      - destruct (d =? 10).
        + destruct H as [H|H]; [inversion H; constructor|].
          eapply (IH r'); eauto. simpl in Hn. lia.
        + destruct H as [H|H]; [inversion H; constructor|].
          eapply (IH (d :: r')); eauto. lia. }
    pose proof (IH r) as IHr. destruct (lsp_lines r) as [|[b0 e0] ls]; [destruct H|].
    destruct H as [H|H].
    + inversion H; subst. constructor; [auto|]. eapply IHr; [lia|left; reflexivity].
    + eapply IHr; [lia|right; exact H].
Qed.

Lemma Forall_firstn {A} (P : A -> Prop) l k : Forall P l -> Forall P (firstn k l).
Proof. intros H. rewrite <- (firstn_skipn k l) in H. now apply Forall_app in H. Qed.
Lemma Forall_skipn {A} (P : A -> Prop) l k : Forall P l -> Forall P (skipn k l).
Proof. intros H. rewrite <- (firstn_skipn k l) in H. now apply Forall_app in H. Qed.

(** The point of an LSP position in a document without lone CR. *)
Lemma index_ts_point t p i :
  index_of t p i -> Forall plain (firstn i t) -> no_lone_cr t ->
  ts_point (firstn i t) = rope_to_point p.
Proof.
  intros (body & eol & k & Hn & Hk & Hw & Hi) Hp Hc.
  rewrite (firstn_index _ _ _ _ _ _ Hn Hk Hi) in *. apply Forall_app in Hp as [Hp1 Hp2].
  rewrite plain_utf16 in Hw by assumption.
  unfold ts_point. rewrite ts_point_from_app.
  assert (Hl : (N.to_nat (line p) < length (lsp_lines t))%nat)
    by (apply nth_error_Some; congruence).
  rewrite (ts_point_lines (length t)) by (auto; lia).
  rewrite ts_point_no_eol.
  2:{ apply Forall_firstn. apply (lsp_body_no_eol (length t) t body eol); [lia|]. eapply nth_error_In; eauto. }
  rewrite plain_size by assumption. rewrite Hw. unfold rope_to_point.
  destruct (Nat.eqb_spec (N.to_nat (line p)) 0); cbn [row col]; f_equal; lia.
Qed.

Lemma position_unique t off p q : position_ok t off p -> position_ok t off q -> p = q.
Proof.
  intros (a & Ha & Hao & Han) (b & Hb & Hbo & Hbn).
  assert (Hle : forall l p', line_prefix l t = Some p' -> (l < length (line_starts t))%nat).
  { intros l p' H. apply line_prefix_some in H. apply nth_error_Some. congruence. }
  assert (forall x y px py, line_prefix x t = Some px -> line_prefix y t = Some py ->
            (x < y)%nat -> utf8_size px < utf8_size py) as Hmono.
  { intros x y px py Hx Hy Hxy. apply line_prefix_some in Hx, Hy.
    eapply (sorted_nth _ (line_starts_sorted t)); eauto. }
  assert (N.to_nat (line p) = N.to_nat (line q)) as Hl.
  { destruct (Nat.lt_trichotomy (N.to_nat (line p)) (N.to_nat (line q))) as [H|[H|H]]; auto; exfalso.
    - destruct (line_prefix_exists (S (N.to_nat (line p))) t) as (c & Hc).
      { apply Hle in Hb. lia. }
      specialize (Han _ Hc).
      assert (utf8_size c <= utf8_size b); [|lia].
      destruct (Nat.eq_dec (S (N.to_nat (line p))) (N.to_nat (line q))) as [He|He].
      + rewrite He in Hc. assert (c = b) by congruence. subst. lia.
      + apply N.lt_le_incl. eapply Hmono; eauto. lia.
    - destruct (line_prefix_exists (S (N.to_nat (line q))) t) as (c & Hc).
      { apply Hle in Ha. lia. }
      specialize (Hbn _ Hc).
      assert (utf8_size c <= utf8_size a); [|lia].
      destruct (Nat.eq_dec (S (N.to_nat (line q))) (N.to_nat (line p))) as [He|He].
      + rewrite He in Hc. assert (c = a) by congruence. subst. lia.
      + apply N.lt_le_incl. eapply Hmono; eauto. lia. }
  rewrite Hl in Ha. assert (a = b) by congruence. subst b.
  destruct p, q; cbn in *. f_equal; lia.
Qed.

Lemma lsp_eol_nonempty n : forall t l b e,
  (length t <= n)%nat -> nth_error (lsp_lines t) l = Some (b, e) ->
  (S l < length (lsp_lines t))%nat -> e <> [].
Proof.
  induction n as [|n IH]; intros t l b e Hn H Hl.
  - destruct t; simpl in Hn; [|lia]. simpl in Hl. lia.
  - destruct t as [|c r]; [simpl in Hl; lia|].
    simpl in Hn. cbn [lsp_lines] in *.
    destruct (N.eqb_spec c 10) as [->|Hc10].
    { destruct l; [cbn in H; inversion H; discriminate|]. cbn in H, Hl. eapply (IH r); eauto; lia. }
    destruct (N.eqb_spec c 13) as [->|Hc13].
    { destruct r as [|d r'].
      - destruct l; [cbn in H; inversion H; discriminate|]. simpl in Hl. lia.
      - destruct (d =? 10).
        + destruct l; [cbn in H; inversion H; discriminate|]. cbn [nth_error length] in H, Hl.
          eapply (IH r'); eauto; simpl in *; lia.
        + destruct l; [cbn in H; inversion H; discriminate|]. cbn [nth_error length] in H, Hl.
          eapply (IH (d :: r')); eauto; lia. }
    pose proof (IH r) as IHr. destruct (lsp_lines r) as [|[b0 e0] ls]; [simpl in Hl; lia|].
    destruct l.
    + cbn in H. inversion H; subst. eapply (IHr O); [lia|reflexivity|exact Hl].
    + eapply (IHr (S l)); [lia|exact H|exact Hl].
Qed.

(** In a plain document, an LSP position satisfies [position_ok]. *)
Lemma index_position_ok t p i :
  plain_text t -> index_of t p i -> position_ok t (N.of_nat i) p.
Proof.
  intros Hp Hidx.
  pose proof (to_byte_index t p i Hidx (Forall_firstn _ _ _ Hp)) as Hb.
  destruct Hidx as (body & eol & k & Hn & Hk & Hw & Hi).
  assert (Hl : (N.to_nat (line p) < length (lsp_lines t))%nat)
    by (apply nth_error_Some; congruence).
  assert (Hpl : forall l, plain_text (lines_text (firstn l (lsp_lines t)))).
  { intros l. unfold plain_text. rewrite <- (lines_text_all t) in Hp.
    rewrite <- (firstn_skipn l (lsp_lines t)) in Hp. rewrite lines_text_app in Hp.
    now apply Forall_app in Hp. }
  pose proof (line_starts_lsp_n (length t) t 0 _ (le_n _) Hl (Hpl _)) as H0.
  fold (line_starts t) in H0.
  destruct (line_prefix_exists (N.to_nat (line p)) t) as (pre & Hpre).
  { apply nth_error_Some. congruence. }
  exists pre. split; [exact Hpre|]. pose proof (line_prefix_some _ _ _ Hpre) as Hpre2.
  assert (Hch : character p = N.of_nat k).
  { rewrite plain_utf16 in Hw.
    - rewrite firstn_length_le in Hw by lia. lia.
    - apply Forall_firstn. pose proof (Hpl (S (N.to_nat (line p)))) as H1.
      destruct (nth_error_split _ _ Hn) as (l1 & l2 & Hs & Hl1). rewrite Hs, <- Hl1 in H1.
      rewrite firstn_app in H1. replace (S (length l1) - length l1)%nat with 1%nat in H1 by lia.
      rewrite lines_text_app in H1. apply Forall_app in H1 as [_ H1].
      cbn [firstn] in H1. rewrite lines_text_cons in H1. cbn [fst snd] in H1.
      now apply Forall_app in H1. }
  split.
  { assert (utf8_size pre = N.of_nat (length (lines_text (firstn (N.to_nat (line p)) (lsp_lines t))))).
    { rewrite H0 in Hpre2; inversion Hpre2; lia. }
    lia. }
  intros pre' Hpre'. apply line_prefix_some in Hpre'.
  assert (Hl2 : (S (N.to_nat (line p)) < length (lsp_lines t))%nat \/
                (length (lsp_lines t) = S (N.to_nat (line p)))%nat) by lia.
  destruct Hl2 as [Hl2|Hl2].
  - pose proof (line_starts_lsp_n (length t) t 0 _ (le_n _) Hl2 (Hpl _)) as H2.
    fold (line_starts t) in H2. rewrite H2 in Hpre'. 
    assert (Hsz : 0 + N.of_nat (length (lines_text (firstn (S (N.to_nat (line p))) (lsp_lines t))))
                  = utf8_size pre') by congruence.
    pose proof (lsp_eol_nonempty (length t) t _ _ _ (le_n _) Hn Hl2) as He.
    destruct (nth_error_split _ _ Hn) as (l1 & l2 & Hs & Hl1).
    rewrite <- Hsz, Hi. rewrite Hs, <- Hl1.
    rewrite !firstn_app, Nat.sub_diag, firstn_all.
    rewrite (firstn_all2 l1) by lia. replace (S (length l1) - length l1)%nat with 1%nat by lia.
    cbn [firstn]. rewrite app_nil_r, lines_text_app, lines_text_cons, !app_length. cbn [fst snd].
    destruct eol; [congruence|]. cbn [length]. lia.
  - (* the last line has no successor in ropey either *)
    exfalso.
    assert (Hno : forall n0 t0 off, (length t0 <= n0)%nat -> plain_text t0 ->
              length (off :: line_starts_from off t0) = length (lsp_lines t0)).
    { clear. induction n0 as [|n0 IH]; intros t0 off Hn0 Hp.
      - destruct t0; [reflexivity|simpl in Hn0; lia].
      - destruct t0 as [|c r]; [reflexivity|]. simpl in Hn0.
        inversion Hp as [|? ? Hcp Hpr]; subst. cbn [lsp_lines line_starts_from].
        destruct (N.eqb_spec c 10) as [->|Hc10].
        + replace (ends_line 10 r) with true by reflexivity. cbn [length].
          f_equal. apply (IH r); auto; lia.
        + destruct (N.eqb_spec c 13) as [->|Hc13].
          * destruct r as [|d r']; [reflexivity|].
            inversion Hpr as [|? ? _ Hpr']; subst. simpl in Hn0.
            destruct (N.eqb_spec d 10) as [->|Hd].
            -- replace (ends_line 13 (10 :: r')) with false by reflexivity.
               cbn [line_starts_from]. replace (ends_line 10 r') with true by reflexivity.
               cbn [length]. f_equal. apply (IH r'); auto; lia.
            -- assert (He : ends_line 13 (d :: r') = true).
               { unfold ends_line, CR, LF. destruct (N.eqb_spec d 10); [congruence|reflexivity]. }
               rewrite He. cbn [length]. f_equal. apply (IH (d :: r')); auto. simpl; lia.
          * assert (He : ends_line c r = false).
            { destruct Hcp as (H1 & H2 & H3). unfold ends_line, is_break_char.
              destruct (N.eqb_spec c 10), (N.eqb_spec c 11), (N.eqb_spec c 12), (N.eqb_spec c 13),
                (N.eqb_spec c 133), (N.eqb_spec c 8232), (N.eqb_spec c 8233); try lia. }
            rewrite He. specialize (IH r (off + utf8_len c)).
            destruct (lsp_lines r) as [|[b e] ls] eqn:E; [now apply lsp_lines_nonempty in E|].
            cbn [length] in *. rewrite <- IH; auto; lia. }
    specialize (Hno (length t) t 0 (le_n _) Hp). fold (line_starts t) in Hno.
    assert (nth_error (line_starts t) (S (N.to_nat (line p))) <> None) by congruence.
    apply nth_error_Some in H. lia.
Qed.

(** The edit description: bytes always, points in documents without lone CR,
    the new end point for an insertion that fits into the old line. *)
Lemma edit_description t r x s e ie t' :
  plain_text t -> plain_text x ->
  index_of t (rstart r) s -> index_of t (rend r) e -> (s <= e)%nat ->
  apply_change t r x = Ok (t', ie) ->
  bytes_truthful (firstn s t) (firstn (e - s) (skipn s t)) x ie /\
  (no_lone_cr t ->
   old_points_truthful (firstn s t) (firstn (e - s) (skipn s t)) ie) /\
  (no_lone_cr t -> no_eol x -> utf8_size t < two32 ->
   index_of t (mkpos (line (rstart r)) (character (rstart r) + N.of_nat (length x)))
              (s + length x) ->
   new_point_truthful (firstn s t) x ie).
Proof.
  intros Ht Hx Hs He Hse Happ.
  pose proof (index_bounds _ _ _ He) as Hel.
  pose proof (to_byte_index _ _ _ Hs (Forall_firstn _ _ _ Ht)) as Hsb.
  pose proof (to_byte_index _ _ _ He (Forall_firstn _ _ _ Ht)) as Heb.
  destruct (to_input_edit_ok t r x _ _ Hsb Heb) as (np & Hnp & Hie).
  unfold apply_change in Happ. rewrite Hie in Happ. cbn [bind] in Happ.
  rewrite Hsb, Heb in Happ. cbn [bind] in Happ.
  assert (ie = mkie (N.of_nat s) (N.of_nat e) (N.of_nat s + bytes_len x)
                 (rope_to_point (rstart r)) (rope_to_point (rend r)) (rope_to_point np)).
  { destruct (if N.of_nat s <=? N.of_nat e then _ else _) as [t1|]; [|discriminate].
    cbn [bind] in Happ. destruct (match x with [] => Ok t1 | _ => _ end) as [t2|]; [|discriminate].
    cbn [bind] in Happ. congruence. }
  subst ie. clear Happ Hie.
  assert (Hfe : firstn s t ++ firstn (e - s) (skipn s t) = firstn e t).
  { rewrite <- (firstn_skipn s t) at 3. rewrite firstn_app, firstn_length_le by lia.
    rewrite firstn_firstn. f_equal. f_equal. lia. }
  unfold bytes_truthful, old_points_truthful, new_point_truthful.
  cbn [start_byte old_end_byte new_end_byte start_position old_end_position new_end_position].
  rewrite Hfe. repeat split.
  - rewrite plain_size by (now apply Forall_firstn). rewrite firstn_length_le by lia. reflexivity.
  - rewrite plain_size by (now apply Forall_firstn). rewrite firstn_length_le by lia. reflexivity.
  - rewrite utf8_size_app, plain_size by (now apply Forall_firstn).
    rewrite firstn_length_le, utf8_size_bytes by lia. reflexivity.
  - symmetry. apply index_ts_point; auto. now apply Forall_firstn.
  - symmetry. apply index_ts_point; auto. now apply Forall_firstn.
  - intros Hc Hxe Hsz Hfit.
    destruct (to_position_spec t (N.of_nat s + bytes_len x) Hsz) as (np' & Hnp' & Hok & _).
    assert (np' = np) by congruence. subst np'.
    rewrite <- utf8_size_bytes, (plain_size x Hx) in Hok.
    pose proof (index_bounds _ _ _ Hfit) as Hb.
    rewrite (plain_size t Ht) in Hok.
    replace (N.min (N.of_nat s + N.of_nat (length x)) (N.of_nat (length t)))
      with (N.of_nat (s + length x)) in Hok by lia.
    pose proof (index_position_ok _ _ _ Ht Hfit) as Hok2.
    rewrite (position_unique _ _ _ _ Hok Hok2).
    unfold ts_point. rewrite ts_point_from_app.
    fold (ts_point (firstn s t)). rewrite (index_ts_point t (rstart r)); auto; [|now apply Forall_firstn].
    rewrite ts_point_no_eol by assumption. rewrite (plain_size x Hx). reflexivity.
Qed.

(** ** C07: a change without a range is dropped, with everything after it *)
Lemma apply_changes_rangeless t cs x more t1 edits :
  apply_changes t cs = Ok (t1, false, edits) ->
  apply_changes t (cs ++ mkchange None x :: more) = Ok (t1, true, edits).
Proof.
  revert t t1 edits. induction cs as [|c cs IH]; intros t t1 edits H.
  - cbn in *. inversion H; subst. reflexivity.
  - cbn [app apply_changes] in *. destruct (ch_range c) as [r|]; [|discriminate].
    destruct (apply_change t r (ch_text c)) as [te|]; [|discriminate]. cbn [bind] in *.
    destruct (apply_changes (fst te) cs) as [[[t2 early] ed]|] eqn:E; [|discriminate].
    cbn [bind] in H. destruct early; [discriminate|].
    rewrite (IH _ _ _ E). cbn [bind]. inversion H; subst. reflexivity.
Qed.

Lemma rangeless_ignored T tid uri (s : lsp_files T) t cs x more t1 edits :
  sget uri (ls_docs s) = Some t -> apply_changes t cs = Ok (t1, false, edits) ->
  exists s', did_change tid uri (cs ++ mkchange None x :: more) s = Ok (s', None) /\
    sget uri (ls_docs s') = Some t1 /\
    ls_tt s' = ls_tt s /\ ls_bt s' = ls_bt s /\ ls_task s' = ls_task s.
Proof.
  intros Hs H. unfold did_change. rewrite Hs, (apply_changes_rangeless _ _ x more _ _ H).
  cbn [bind]. eexists. split; [reflexivity|]. cbn [set_docs ls_docs ls_tt ls_bt ls_task].
  rewrite sget_sinsert_same. auto.
Qed.
