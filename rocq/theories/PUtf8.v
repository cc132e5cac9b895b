(** * PUtf8: encoding and decoding are inverse; chunked writing loses nothing. *)
From Verif Require Import Base RString Utf8 Rope.
From Coq Require Import ZArith.
Local Open Scope N_scope.
Ltac Zify.zify_post_hook ::= Z.div_mod_to_equations.

Definition scalar_text (t : text) : Prop := Forall (fun c => is_scalar c = true) t.

Lemma N_ascii_roundtrip b : b < 256 -> N_of_ascii (ascii_of_N b) = b.
Proof. apply N_ascii_embedding. Qed.

Lemma bytes_string_roundtrip l :
  Forall (fun b => b < 256) l -> bytes_of_string (string_of_bytes l) = l.
Proof.
  induction 1 as [|b l Hb Hl IH]; [reflexivity|].
  cbn [string_of_bytes fold_right bytes_of_string]. fold (string_of_bytes l).
  now rewrite IH, N_ascii_roundtrip.
Qed.

Lemma scalar_bound c : is_scalar c = true -> c < 1114112.
Proof. unfold is_scalar. lia. Qed.

Lemma encode_char_bytes c : is_scalar c = true -> Forall (fun b => b < 256) (encode_char c).
Proof.
  intros H. pose proof (scalar_bound c H). unfold encode_char.
  destruct (N.ltb_spec c 128); [repeat constructor; lia|].
  destruct (N.ltb_spec c 2048); [repeat constructor; lia|].
  destruct (N.ltb_spec c 65536); repeat constructor; lia.
Qed.
Lemma encode_bytes_bound t : scalar_text t -> Forall (fun b => b < 256) (encode_bytes t).
Proof.
  induction 1 as [|c t Hc Ht IH]; [constructor|]. cbn [encode_bytes flat_map].
  apply Forall_app. split; auto. now apply encode_char_bytes.
Qed.

Lemma decode_step c l :
  is_scalar c = true ->
  decode_bytes (encode_char c ++ l) =
  match decode_bytes l with Some r => Some (c :: r) | None => None end.
Proof.
  intros Hs. pose proof (scalar_bound c Hs) as Hb. unfold encode_char.
  destruct (N.ltb_spec c 128) as [H1|H1].
  { cbn [app decode_bytes]. destruct (N.ltb_spec c 128); [reflexivity|lia]. }
  destruct (N.ltb_spec c 2048) as [H2|H2].
  { cbn [app decode_bytes].
    replace (192 + c / 64 <? 128) with false by lia.
    replace ((192 <=? 192 + c / 64) && (192 + c / 64 <? 224)) with true by lia.
    replace ((192 + c / 64 - 192) * 64 + (128 + c mod 64 - 128)) with c by lia.
    replace (cont (128 + c mod 64) && (128 <=? c)) with true by (unfold cont; lia).
    reflexivity. }
  destruct (N.ltb_spec c 65536) as [H3|H3].
  { cbn [app decode_bytes].
    replace (224 + c / 4096 <? 128) with false by lia.
    replace ((192 <=? 224 + c / 4096) && (224 + c / 4096 <? 224)) with false by lia.
    replace ((224 <=? 224 + c / 4096) && (224 + c / 4096 <? 240)) with true by lia.
    assert (Hc : (224 + c / 4096 - 224) * 4096 + (128 + (c / 64) mod 64 - 128) * 64
                 + (128 + c mod 64 - 128) = c) by lia.
    rewrite Hc. rewrite Hs.
    replace (cont (128 + (c / 64) mod 64)) with true by (unfold cont; lia).
    replace (cont (128 + c mod 64)) with true by (unfold cont; lia).
    replace (2048 <=? c) with true by lia. reflexivity. }
  cbn [app decode_bytes].
  replace (240 + c / 262144 <? 128) with false by lia.
  replace ((192 <=? 240 + c / 262144) && (240 + c / 262144 <? 224)) with false by lia.
  replace ((224 <=? 240 + c / 262144) && (240 + c / 262144 <? 240)) with false by lia.
  replace ((240 <=? 240 + c / 262144) && (240 + c / 262144 <? 248)) with true by lia.
  assert (Hc : (240 + c / 262144 - 240) * 262144 + (128 + (c / 4096) mod 64 - 128) * 4096
               + (128 + (c / 64) mod 64 - 128) * 64 + (128 + c mod 64 - 128) = c) by lia.
  rewrite Hc, Hs.
  replace (cont (128 + (c / 4096) mod 64)) with true by (unfold cont; lia).
  replace (cont (128 + (c / 64) mod 64)) with true by (unfold cont; lia).
  replace (cont (128 + c mod 64)) with true by (unfold cont; lia).
  replace (65536 <=? c) with true by lia. reflexivity.
Qed.

Lemma decode_encode_bytes t : scalar_text t -> decode_bytes (encode_bytes t) = Some t.
Proof.
  induction 1 as [|c t Hc Ht IH]; [reflexivity|].
  cbn [encode_bytes flat_map]. rewrite decode_step by assumption.
  fold (encode_bytes t). now rewrite IH.
Qed.
Lemma decode_encode t : scalar_text t -> decode (encode t) = Some t.
Proof.
  intros H. unfold decode, encode. rewrite bytes_string_roundtrip by now apply encode_bytes_bound.
  now apply decode_encode_bytes.
Qed.
Lemma valid_encode t : scalar_text t -> valid_utf8 (encode t) = true.
Proof. intros H. unfold valid_utf8. now rewrite decode_encode. Qed.

Lemma string_of_bytes_app a b :
  string_of_bytes (a ++ b) = (string_of_bytes a ++ string_of_bytes b)%string.
Proof. induction a as [|x a IH]; [reflexivity|]. cbn. f_equal. exact IH. Qed.
Lemma encode_app a b : encode (a ++ b) = (encode a ++ encode b)%string.
Proof. unfold encode, encode_bytes. now rewrite flat_map_app, string_of_bytes_app. Qed.

Lemma string_app_assoc a b c : ((a ++ b) ++ c)%string = (a ++ (b ++ c))%string.
Proof. induction a as [|x a IH]; [reflexivity|]. cbn. now rewrite IH. Qed.
Lemma string_app_nil_r a : (a ++ "")%string = a.
Proof. induction a as [|x a IH]; [reflexivity|]. cbn. now rewrite IH. Qed.

Lemma write_chunks_gen chunks : forall acc, Forall scalar_text chunks ->
  fold_left (fun acc ch => file_write acc (encode ch)) chunks acc
  = (acc ++ encode (concat chunks))%string.
Proof.
  induction chunks as [|c chunks IH]; intros acc H.
  - cbn. now rewrite string_app_nil_r.
  - inversion H; subst. cbn [fold_left concat]. rewrite IH by assumption.
    unfold file_write. rewrite valid_encode by assumption.
    now rewrite encode_app, string_app_assoc.
Qed.
(** C06 *)
Lemma write_chunks_encode chunks :
  Forall scalar_text chunks -> write_chunks chunks = encode (concat chunks).
Proof. intros H. unfold write_chunks. now rewrite write_chunks_gen. Qed.
Lemma rope_content_encode t : scalar_text t -> rope_content t = encode t.
Proof.
  intros H. unfold rope_content. rewrite write_chunks_encode by auto. cbn. now rewrite app_nil_r.
Qed.
Lemma write_chunks_any chunks t :
  scalar_text t -> concat chunks = t -> write_chunks chunks = encode t.
Proof.
  intros H <-. apply write_chunks_encode. unfold scalar_text in *.
  induction chunks as [|c cs IH]; [constructor|]. cbn in H. apply Forall_app in H as [H1 H2].
  constructor; auto.
Qed.

(** Decoding is injective on what it accepts: two texts with the same bytes are
    equal. *)
Lemma encode_injective a b : scalar_text a -> scalar_text b -> encode a = encode b -> a = b.
Proof.
  intros Ha Hb H. apply decode_encode in Ha, Hb. rewrite H in Ha. congruence.
Qed.
