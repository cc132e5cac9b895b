(** * ExScope: example templates for the scope properties, on one line each, so
    that columns equal byte offsets.  Node ids are byte offset plus one. *)
From Verif Require Import Base Types Captures SpecScope.

Definition at_ (a b : N) : node :=
  mknode (a + 1) a b (mkpt 0 a) (mkpt 0 b) (mkpt 0 a, mkpt 0 b) (mkpt 0 a, mkpt 0 b) None.

Definition c10_src : string := "{% macro m(a, b) %}{% set c = a %}{% with n = 1 %}{{ n }}{% endwith %}{% endmacro %}{% for i in l %}{% if i == c %}{% set x = i %}{% endif %}{% endfor %}{% block t %}{% endblock t %}"%string.
Definition c10_tpl : tpl :=
  (TBlock (HMacro (at_ 3 8) ((at_ 9 10), "m"%string) [(((at_ 11 12), "a"%string), []); (((at_ 14
    15), "b"%string), [])]) (at_ 0 2) (at_ 17 19) (TSet (at_ 22 25) ((at_ 26 27), "c"%string)
    [NEq (at_ 28 29); NId ((at_ 30 31), "a"%string)] (at_ 19 21) (at_ 32 34) (TBlock (HWith (at_
    37 41) [(((at_ 42 43), "n"%string), [NEq (at_ 44 45)])]) (at_ 34 36) (at_ 48 50) (TExpr [NId
    ((at_ 53 54), "n"%string)] TNil) (mkend (at_ 60 67) [] (at_ 57 59) (at_ 68 70)) TNil))
    (mkend (at_ 73 81) [] (at_ 70 72) (at_ 82 84)) (TBlock (HFor (at_ 87 90) ((at_ 91 92),
    "i"%string) [] [NId ((at_ 96 97), "l"%string)]) (at_ 84 86) (at_ 98 100) (TBlock (HPlain
    ((at_ 103 105), "if"%string) [NId ((at_ 106 107), "i"%string); NEq (at_ 108 110); NId ((at_
    111 112), "c"%string)]) (at_ 100 102) (at_ 113 115) (TSet (at_ 118 121) ((at_ 122 123),
    "x"%string) [NEq (at_ 124 125); NId ((at_ 126 127), "i"%string)] (at_ 115 117) (at_ 128 130)
    TNil) (mkend (at_ 133 138) [] (at_ 130 132) (at_ 139 141)) TNil) (mkend (at_ 144 150) []
    (at_ 141 143) (at_ 151 153)) (TBlock (HBlock (at_ 156 161) ((at_ 162 163), "t"%string) [])
    (at_ 153 155) (at_ 164 166) TNil (mkend (at_ 169 177) [NId ((at_ 178 179), "t"%string)] (at_
    166 168) (at_ 180 182)) TNil))).
Definition c10_end : point := mkpt 0 182.

Definition c11_src : string := "{% for i in l if i %}{% if a %}{% set x = i if i else a %}{% else %}{{ i }}{% endif %}{% endfor %}"%string.
Definition c11_tpl : tpl :=
  (TBlock (HFor (at_ 3 6) ((at_ 7 8), "i"%string) [] [NId ((at_ 12 13), "l"%string); NIf (at_ 14
    16); NId ((at_ 17 18), "i"%string)]) (at_ 0 2) (at_ 19 21) (TBlock (HPlain ((at_ 24 26),
    "if"%string) [NId ((at_ 27 28), "a"%string)]) (at_ 21 23) (at_ 29 31) (TSet (at_ 34 37)
    ((at_ 38 39), "x"%string) [NEq (at_ 40 41); NId ((at_ 42 43), "i"%string); NIf (at_ 44 46);
    NId ((at_ 47 48), "i"%string); NIf (at_ 49 53); NId ((at_ 54 55), "a"%string)] (at_ 31 33)
    (at_ 56 58) (TBranch ((at_ 61 65), "else"%string) [] (at_ 58 60) (at_ 66 68) (TExpr [NId
    ((at_ 71 72), "i"%string)] TNil))) (mkend (at_ 78 83) [] (at_ 75 77) (at_ 84 86)) TNil)
    (mkend (at_ 89 95) [] (at_ 86 88) (at_ 96 98)) TNil).
Definition c11_end : point := mkpt 0 98.

Definition c12_src : string := "{% for i in l %}{% if a %}{% else %}{% endif %}{% endfor %}{{ i }}"%string.
Definition c12_tpl : tpl :=
  (TBlock (HFor (at_ 3 6) ((at_ 7 8), "i"%string) [] [NId ((at_ 12 13), "l"%string)]) (at_ 0 2)
    (at_ 14 16) (TBlock (HPlain ((at_ 19 21), "if"%string) [NId ((at_ 22 23), "a"%string)]) (at_
    16 18) (at_ 24 26) (TBranch ((at_ 29 33), "else"%string) [] (at_ 26 28) (at_ 34 36) TNil)
    (mkend (at_ 39 44) [] (at_ 36 38) (at_ 45 47)) TNil) (mkend (at_ 50 56) [] (at_ 47 49) (at_
    57 59)) (TExpr [NId ((at_ 62 63), "i"%string)] TNil)).
Definition c12_end : point := mkpt 0 66.

Definition c13_src : string := "{% for i in l %}{% set x %}{% endset %}{{ i }}{% endfor %}"%string.
Definition c13_tpl : tpl :=
  (TBlock (HFor (at_ 3 6) ((at_ 7 8), "i"%string) [] [NId ((at_ 12 13), "l"%string)]) (at_ 0 2)
    (at_ 14 16) (TBlockSet (at_ 19 22) ((at_ 23 24), "x"%string) (at_ 16 18) (at_ 25 27) TNil
    (mkend (at_ 30 36) [] (at_ 27 29) (at_ 37 39)) (TExpr [NId ((at_ 42 43), "i"%string)] TNil))
    (mkend (at_ 49 55) [] (at_ 46 48) (at_ 56 58)) TNil).
Definition c13_end : point := mkpt 0 58.

Definition c14_src : string := "{% for k, v in l %}{{ v }}{% endfor %}"%string.
Definition c14_tpl : tpl :=
  (TBlock (HFor (at_ 3 6) ((at_ 7 8), "k"%string) [((at_ 10 11), "v"%string)] [NId ((at_ 15 16),
    "l"%string)]) (at_ 0 2) (at_ 17 19) (TExpr [NId ((at_ 22 23), "v"%string)] TNil) (mkend (at_
    29 35) [] (at_ 26 28) (at_ 36 38)) TNil).
Definition c14_end : point := mkpt 0 38.

Definition c15_src : string := "{% with a = b %}{{ b }}{% endwith %}"%string.
Definition c15_tpl : tpl :=
  (TBlock (HWith (at_ 3 7) [(((at_ 8 9), "a"%string), [NEq (at_ 10 11); NId ((at_ 12 13),
    "b"%string)])]) (at_ 0 2) (at_ 14 16) (TExpr [NId ((at_ 19 20), "b"%string)] TNil) (mkend
    (at_ 26 33) [] (at_ 23 25) (at_ 34 36)) TNil).
Definition c15_end : point := mkpt 0 36.

Definition c55_src : string := "{% if a %}{% set x = 1 %}{% endif %}{{ x }}"%string.
Definition c55_tpl : tpl :=
  (TBlock (HPlain ((at_ 3 5), "if"%string) [NId ((at_ 6 7), "a"%string)]) (at_ 0 2) (at_ 8 10)
    (TSet (at_ 13 16) ((at_ 17 18), "x"%string) [NEq (at_ 19 20)] (at_ 10 12) (at_ 23 25) TNil)
    (mkend (at_ 28 33) [] (at_ 25 27) (at_ 34 36)) (TExpr [NId ((at_ 39 40), "x"%string)] TNil)).
Definition c55_end : point := mkpt 0 43.

Definition c13b_src : string := "{% set x %}{{ a }}{% endset %}{% for i in l %}{{ i }}{% endfor %}{{ x }}"%string.
Definition c13b_tpl : tpl :=
  TBlockSet (at_ 3 6) (at_ 7 8, "x"%string) (at_ 0 2) (at_ 9 11)
    (TExpr [NId (at_ 14 15, "a"%string)] TNil) (mkend (at_ 21 27) [] (at_ 18 20) (at_ 28 30))
    (TBlock (HFor (at_ 33 36) (at_ 37 38, "i"%string) [] [NId (at_ 42 43, "l"%string)])
      (at_ 30 32) (at_ 44 46) (TExpr [NId (at_ 49 50, "i"%string)] TNil)
      (mkend (at_ 56 62) [] (at_ 53 55) (at_ 63 65)) (TExpr [NId (at_ 68 69, "x"%string)] TNil)).
Definition c13b_end : point := mkpt 0 72.

Definition c92_src : string := "{% for i in l %}{% with a = b if c else d, e = 1 %}{{ e }}{% endwith %}{% endfor %}{{ i }}"%string.
Definition c92_tpl : tpl :=
  TBlock (HFor (at_ 3 6) (at_ 7 8, "i"%string) [] [NId (at_ 12 13, "l"%string)]) (at_ 0 2) (at_ 14 16)
    (TBlock (HWith (at_ 19 23)
      [((at_ 24 25, "a"%string), [NEq (at_ 26 27); NId (at_ 28 29, "b"%string); NIf (at_ 30 32);
          NId (at_ 33 34, "c"%string); NIf (at_ 35 39); NId (at_ 40 41, "d"%string)]);
       ((at_ 43 44, "e"%string), [NEq (at_ 45 46)])]) (at_ 16 18) (at_ 49 51)
      (TExpr [NId (at_ 54 55, "e"%string)] TNil) (mkend (at_ 61 68) [] (at_ 58 60) (at_ 69 71)) TNil)
    (mkend (at_ 74 80) [] (at_ 71 73) (at_ 81 83)) (TExpr [NId (at_ 86 87, "i"%string)] TNil).
Definition c92_end : point := mkpt 0 90.
