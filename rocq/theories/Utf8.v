(** * Utf8: Unicode scalar values, UTF-8 encoding and [str::from_utf8]. *)
From Verif Require Import Base.

(** A [char] is a Unicode scalar value. *)
Definition is_scalar (c : N) : bool := (c <? 55296) || ((57344 <=? c) && (c <? 1114112)).
Definition is_ascii (c : N) : bool := c <? 128.

(** [char::len_utf8] and [char::len_utf16]. *)
Definition utf8_len (c : N) : N :=
  if c <? 128 then 1 else if c <? 2048 then 2 else if c <? 65536 then 3 else 4.
Definition utf16_len (c : N) : N := if c <? 65536 then 1 else 2.

(** [char::encode_utf8]. *)
Definition encode_char (c : N) : list N :=
  if c <? 128 then [c]
  else if c <? 2048 then [192 + c / 64; 128 + c mod 64]
  else if c <? 65536 then [224 + c / 4096; 128 + (c / 64) mod 64; 128 + c mod 64]
  else [240 + c / 262144; 128 + (c / 4096) mod 64; 128 + (c / 64) mod 64; 128 + c mod 64].
Definition encode_bytes (t : list N) : list N := flat_map encode_char t.

Definition string_of_bytes (l : list N) : string :=
  fold_right (fun b s => String (ascii_of_N b) s) EmptyString l.
Fixpoint bytes_of_string (s : string) : list N :=
  match s with
  | EmptyString => []
  | String a s' => N_of_ascii a :: bytes_of_string s'
  end.

(** The bytes of a [str] holding the characters [t]. *)
Definition encode (t : list N) : string := string_of_bytes (encode_bytes t).

Definition cont (b : N) : bool := (128 <=? b) && (b <? 192).

(** [str::from_utf8], returning the decoded characters: the well-formedness
    rules of the Unicode standard (no overlong forms, no surrogates, at most
    U+10FFFF). *)
Fixpoint decode_bytes (l : list N) : option (list N) :=
  match l with
  | [] => Some []
  | b0 :: l1 =>
      if b0 <? 128 then
        match decode_bytes l1 with Some r => Some (b0 :: r) | None => None end
      else if (192 <=? b0) && (b0 <? 224) then
        match l1 with
        | b1 :: l2 =>
            let c := (b0 - 192) * 64 + (b1 - 128) in
            if cont b1 && (128 <=? c) then
              match decode_bytes l2 with Some r => Some (c :: r) | None => None end
            else None
        | _ => None
        end
      else if (224 <=? b0) && (b0 <? 240) then
        match l1 with
        | b1 :: b2 :: l3 =>
            let c := (b0 - 224) * 4096 + (b1 - 128) * 64 + (b2 - 128) in
            if cont b1 && cont b2 && (2048 <=? c) && is_scalar c then
              match decode_bytes l3 with Some r => Some (c :: r) | None => None end
            else None
        | _ => None
        end
      else if (240 <=? b0) && (b0 <? 248) then
        match l1 with
        | b1 :: b2 :: b3 :: l4 =>
            let c := (b0 - 240) * 262144 + (b1 - 128) * 4096 + (b2 - 128) * 64 + (b3 - 128) in
            if cont b1 && cont b2 && cont b3 && (65536 <=? c) && is_scalar c then
              match decode_bytes l4 with Some r => Some (c :: r) | None => None end
            else None
        | _ => None
        end
      else None
  end.
Definition decode (s : string) : option (list N) := decode_bytes (bytes_of_string s).

(** [str::from_utf8(buf).is_ok()]. *)
Definition valid_utf8 (s : string) : bool := is_some (decode s).
