(** * SpecText2: how texts end. *)
From Verif Require Import Base Rope.

(** [z] is the last line of [x] (lines end with LF); two texts end alike if they
    have as many line breaks and last lines of the same length. *)
Definition last_line (x z : text) : Prop := ~ In 10 z /\ (x = z \/ exists a, x = a ++ 10 :: z).
Definition end_alike (x y : text) : Prop :=
  count_occ N.eq_dec x 10 = count_occ N.eq_dec y 10 /\
  forall z z', last_line x z -> last_line y z' -> length z = length z'.
