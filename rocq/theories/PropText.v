(** * PropText: properties C01-C07 (document text and edits). *)
From Verif Require Import Base Utf8 Rope MLspFiles SpecText SpecText2 PText PText2 PText3 PUtf8.

(** A trivial tree-sitter oracle for examples. *)
Definition ts_unit : Captures.ts :=
  Captures.mkts unit (fun _ _ _ => Some tt) (fun t _ => t) (fun _ _ _ => []) (fun _ => pt0).

(** ** C01 *)
Theorem C01_ascii_edits :
  forall T uri (ns : list (list change)) tid (s : lsp_files T) t t',
    sget uri (ls_docs s) = Some t -> plain_text t ->
    Forall (Forall plain_change) ns -> Forall (Forall ranged) ns ->
    lsp_session t ns t' ->
    exists s', server_session uri tid ns s = Ok s' /\ sget uri (ls_docs s') = Some t'.
Proof. exact session_text. Qed.
Print Assumptions C01_ascii_edits.

(** Two notifications on "ab CRLF cd": insert "x LF" before "b" and delete "d",
    then replace "c" by "yz". *)
Example C01_example :
  let t := [97; 98; 13; 10; 99; 100] in
  let ns := [[mkchange (Some (mkrange (mkpos 0 1) (mkpos 0 1))) [120; 10];
              mkchange (Some (mkrange (mkpos 2 1) (mkpos 2 2))) []];
             [mkchange (Some (mkrange (mkpos 2 0) (mkpos 2 1))) [121; 122]]] in
  let s := set_docs [("file:///a.html"%string, t)] (ls_default ts_unit) in
  sget "file:///a.html" (ls_docs s) = Some t /\ plain_text t /\
  Forall (Forall plain_change) ns /\ Forall (Forall ranged) ns /\
  lsp_session t ns [97; 120; 10; 98; 13; 10; 121; 122].
Proof.
  cbn zeta. split; [reflexivity|]. split; [repeat constructor; lia|].
  split; [repeat constructor; lia|]. split; [repeat constructor; discriminate|].
  eapply sess_cons.
  { eapply lsp_cons; [|eapply lsp_cons; [|apply lsp_nil]].
    - exists 1%nat, 1%nat. split; [|split; [|split; [lia|reflexivity]]];
        (exists [97; 98], [13; 10], 1%nat; repeat split; cbn; lia).
    - exists 7%nat, 8%nat. split; [|split; [|split; [lia|reflexivity]]].
      + exists [99; 100], [], 1%nat. repeat split; cbn; lia.
      + exists [99; 100], [], 2%nat. repeat split; cbn; lia. }
  eapply sess_cons; [|apply sess_nil].
  eapply lsp_cons; [|apply lsp_nil].
  exists 6%nat, 7%nat. split; [|split; [|split; [lia|reflexivity]]].
  - exists [99], [], 0%nat. repeat split; cbn; lia.
  - exists [99], [], 1%nat. repeat split; cbn; lia.
Qed.

(** ** C02
    Refuted: in the document made of the lines "é" and "ab" the client inserts
    "x" before "ab"; the server, which adds the column to the BYTE offset of the
    line and uses the sum as a CHARACTER index, inserts it between "a" and "b".
    Inserting at the end of "ab" crashes the server. *)
Theorem C02_unicode_edits_refuted :
  exists t r x t',
    scalar_text t /\ lsp_edit t r x t' /\
    (forall T tid uri (s : lsp_files T) s' te,
       sget uri (ls_docs s) = Some t ->
       did_change tid uri [mkchange (Some r) x] s = Ok (s', te) ->
       sget uri (ls_docs s') <> Some t').
Proof.
  exists [233; 10; 97; 98], (mkrange (mkpos 1 0) (mkpos 1 0)), [120], [233; 10; 120; 97; 98].
  split; [repeat constructor|]. split.
  - exists 2%nat, 2%nat. split; [|split; [|split; [lia|reflexivity]]];
      (exists [97; 98], [], 0%nat; repeat split; cbn; lia).
  - intros T tid uri s s' te Hs H. unfold did_change in H. rewrite Hs in H.
    cbn [apply_changes ch_range ch_text] in H.
    set (r := mkrange _ _) in H.
    assert (Ha : exists ie, apply_change [233; 10; 97; 98] r [120] = Ok ([233; 10; 97; 120; 98], ie))
      by (vm_compute; eexists; reflexivity).
    destruct Ha as (ie & Ha). rewrite Ha in H. cbn [bind fst snd] in H.
    inversion H; subst. unfold set_task. cbn [ls_docs]. rewrite input_edit_tree_docs.
    cbn [set_docs ls_docs]. rewrite sget_sinsert_same. discriminate.
Qed.
Print Assumptions C02_unicode_edits_refuted.

(** A legal edit of a Unicode document that crashes the server. *)
Theorem C02_unicode_edit_crash_refuted :
  exists t r x t',
    scalar_text t /\ lsp_edit t r x t' /\
    (forall T tid uri (s : lsp_files T),
       sget uri (ls_docs s) = Some t ->
       did_change tid uri [mkchange (Some r) x] s = Panic).
Proof.
  exists [233; 10; 97; 98], (mkrange (mkpos 1 2) (mkpos 1 2)), [120], [233; 10; 97; 98; 120].
  split; [repeat constructor|]. split.
  - exists 4%nat, 4%nat. split; [|split; [|split; [lia|reflexivity]]];
      (exists [97; 98], [], 2%nat; repeat split; cbn; lia).
  - intros T tid uri s Hs. unfold did_change. rewrite Hs. reflexivity.
Qed.
Print Assumptions C02_unicode_edit_crash_refuted.

(** Exactly when a legal edit is applied correctly: the lines above its two
    ends are ASCII and the characters before them on their own lines are in the
    basic plane.  (In documents whose lines above contain no vertical tab, form
    feed, NEL, LS or PS, which end lines for ropey only.) *)
Theorem C02_unicode_edits_exact :
  forall t r s e,
    index_of t (rstart r) s -> index_of t (rend r) e -> (s <= e)%nat ->
    (forall c, In c (text_above t (rstart r) ++ text_above t (rend r)) -> ~ odd_break c) ->
    ((forall x, scalar_text x -> exists ie, apply_change t r x = Ok (firstn s t ++ x ++ skipn e t, ie)) <->
     easy t (rstart r) s /\ easy t (rend r) e).
Proof. exact unicode_edit_exact. Qed.
Print Assumptions C02_unicode_edits_exact.
(** The part of the property that holds, for whole sessions.  Missing: edits
    that are not easy, which by the theorem above go wrong or crash, and edits
    below the line breaks that only ropey knows. *)
Theorem C02_unicode_sessions_partial :
  forall T uri (ns : list (list change)) tid (s : lsp_files T) t t',
    sget uri (ls_docs s) = Some t -> easy_session t ns t' ->
    exists s', server_session uri tid ns s = Ok s' /\ sget uri (ls_docs s') = Some t'.
Proof. exact easy_session_text. Qed.
Print Assumptions C02_unicode_sessions_partial.
(** "a LF é b": inserting "ü" before "b" is easy, then inserting "x" in the
    first line, now that there is an umlaut below, is easy as well. *)
Ltac idx b e k := exists b, e, k; repeat split; cbn; lia.
Example C02_exact_example :
  let t := [97; 10; 233; 98] in
  index_of t (mkpos 1 1) 3 /\ (forall c, In c (text_above t (mkpos 1 1)) -> ~ odd_break c) /\ easy t (mkpos 1 1) 3 /\
  easy_session t [[mkchange (Some (mkrange (mkpos 1 1) (mkpos 1 1))) [252];
                   mkchange (Some (mkrange (mkpos 0 0) (mkpos 0 1))) [120]]] [120; 10; 233; 252; 98].
Proof.
  cbn zeta. split; [idx [233; 98] (@nil N) 1%nat|].
  split; [intros c [<-|[<-|[]]]; vm_compute; intuition discriminate|].
  split; [split; repeat constructor|].
  eapply esess_cons; [|apply esess_nil]. eapply easy_cons; [|eapply easy_cons; [|apply easy_nil]].
  - exists 3%nat, 3%nat. split; [idx [233; 98] (@nil N) 1%nat|]. split; [idx [233; 98] (@nil N) 1%nat|]. split; [lia|].
    split; [reflexivity|]. split; [intros c [<-|[<-|[<-|[<-|[]]]]]; vm_compute; intuition discriminate|].
    split; split; repeat constructor.
  - exists 0%nat, 1%nat. split; [idx [97] [10] 0%nat|]. split; [idx [97] [10] 1%nat|]. split; [lia|].
    split; [reflexivity|]. split; [intros c []|]. split; split; repeat constructor.
Qed.
(** Not easy: below a line with an accent, or behind a character outside the
    basic plane. *)
Example C02_not_easy :
  ~ easy [233; 10; 97; 98] (mkpos 1 0) 2 /\ ~ easy [128512; 97] (mkpos 0 2) 1.
Proof.
  split; intros (H1 & H2); [inversion H1; subst; lia|inversion H2; subst; lia].
Qed.

(** ** C03 *)
Theorem C03_offset_position :
  forall t off, utf8_size t < two32 ->
    exists p, to_position t off = Ok p /\
      position_ok t (N.min off (utf8_size t)) p /\
      to_byte t p = Ok (N.min off (utf8_size t)).
Proof. exact to_position_spec. Qed.
Print Assumptions C03_offset_position.
Theorem C03_position_unique :
  forall t off p q, position_ok t off p -> position_ok t off q -> p = q.
Proof. exact position_unique. Qed.
Print Assumptions C03_position_unique.
Theorem C03_never_panics : forall t off, to_position t off <> Panic.
Proof. exact to_position_never_panics. Qed.
Print Assumptions C03_never_panics.
Example C03_example : (* "a LF é b", offset 4 = line 1, byte column 2 *)
  utf8_size [97; 10; 233; 98] < two32 /\ to_position [97; 10; 233; 98] 4 = Ok (mkpos 1 2).
Proof. split; vm_compute; reflexivity. Qed.

(** ** C04
    Refuted: for "ab", inserting "LF" at column 1 is reported to end at
    (0, 2) instead of (1, 0). *)
Theorem C04_edit_description_refuted :
  exists t r x s t' ie,
    plain_text t /\ plain_text x /\ no_lone_cr t /\
    index_of t (rstart r) s /\ rend r = rstart r /\
    apply_change t r x = Ok (t', ie) /\ ~ new_point_truthful (firstn s t) x ie.
Proof.
  exists [97; 98], (mkrange (mkpos 0 1) (mkpos 0 1)), [10], 1%nat.
  do 2 eexists. split; [repeat constructor; lia|]. split; [repeat constructor; lia|].
  split; [repeat split; discriminate|].
  split; [exists [97; 98], [], 1%nat; repeat split; cbn; lia|].
  split; [reflexivity|]. split; [vm_compute; reflexivity|]. vm_compute. discriminate.
Qed.
Print Assumptions C04_edit_description_refuted.

(** The part that holds: the three byte offsets are right for every edit of an
    ASCII document; start and old end points are right when every CR is
    followed by LF; the new end point is right for every insertion without
    line breaks that does not reach beyond the end of the old line (in
    particular for every deletion).  Missing: the new end point otherwise
    (see [C04_new_point_exact]). *)
Theorem C04_edit_description_partial :
  forall t r x s e ie t',
    plain_text t -> plain_text x ->
    index_of t (rstart r) s -> index_of t (rend r) e -> (s <= e)%nat ->
    apply_change t r x = Ok (t', ie) ->
    bytes_truthful (firstn s t) (firstn (e - s) (skipn s t)) x ie /\
    (no_lone_cr t -> old_points_truthful (firstn s t) (firstn (e - s) (skipn s t)) ie) /\
    (no_lone_cr t -> no_eol x -> utf8_size t < two32 ->
     index_of t (mkpos (line (rstart r)) (character (rstart r) + N.of_nat (length x)))
                (s + length x) ->
     new_point_truthful (firstn s t) x ie).
Proof. exact edit_description. Qed.
Print Assumptions C04_edit_description_partial.
Example C04_example : (* replace "b" in "a LF bcd" by "xy" *)
  let t := [97; 10; 98; 99; 100] in
  index_of t (mkpos 1 0) 2 /\ index_of t (mkpos 1 1) 3 /\ no_lone_cr t /\ no_eol [120; 121] /\
  index_of t (mkpos 1 2) 4 /\
  exists ie, apply_change t (mkrange (mkpos 1 0) (mkpos 1 1)) [120; 121]
             = Ok ([97; 10; 120; 121; 99; 100], ie).
Proof.
  cbn zeta. split; [exists [98; 99; 100], [], 0%nat; repeat split; cbn; lia|].
  split; [exists [98; 99; 100], [], 1%nat; repeat split; cbn; lia|].
  split; [repeat split; discriminate|]. split; [repeat constructor; discriminate|].
  split; [exists [98; 99; 100], [], 2%nat; repeat split; cbn; lia|].
  eexists. vm_compute. reflexivity.
Qed.

(** Exactly when the new end point is right: the text that stood behind the start of
    the edit, as long as the inserted text, had as many line breaks as the inserted
    text and a last line as long as that of the inserted text. *)
Theorem C04_new_point_exact :
  forall t r x s e ie t',
    plain_text t -> plain_text x -> no_lone_cr t -> utf8_size t < two32 ->
    index_of t (rstart r) s -> index_of t (rend r) e -> (s <= e)%nat ->
    apply_change t r x = Ok (t', ie) ->
    (new_point_truthful (firstn s t) x ie <-> end_alike (firstn (length x) (skipn s t)) x).
Proof. exact new_point_exact. Qed.
Print Assumptions C04_new_point_exact.
(** In "a LF bc", typing "x" over "b" is described truthfully; so is replacing the
    line break by another line break; typing a line break or going beyond the end of
    the document is not. *)
Example C04_new_point_example :
  let t := [97; 10; 98; 99] in
  plain_text t /\ no_lone_cr t /\ utf8_size t < two32 /\
  index_of t (mkpos 1 0) 2 /\ index_of t (mkpos 1 1) 3 /\ index_of t (mkpos 0 1) 1 /\ index_of t (mkpos 1 2) 4 /\
  (exists ie, apply_change t (mkrange (mkpos 1 0) (mkpos 1 1)) [120] = Ok ([97; 10; 120; 99], ie)) /\
  end_alike (firstn 1 (skipn 2 t)) [120] /\ end_alike (firstn 1 (skipn 1 t)) [10] /\
  ~ end_alike (firstn 1 (skipn 2 t)) [10] /\ ~ end_alike (firstn 1 (skipn 4 t)) [120].
Proof.
  cbn zeta. split; [repeat constructor; lia|]. split; [repeat split; discriminate|]. split; [vm_compute; reflexivity|].
  split; [idx [98; 99] (@nil N) 0%nat|]. split; [idx [98; 99] (@nil N) 1%nat|]. split; [idx [97] [10] 1%nat|]. split; [idx [98; 99] (@nil N) 2%nat|].
  split; [eexists; vm_compute; reflexivity|].
  assert (One : forall c z, c <> 10 -> last_line [c] z -> length z = 1%nat).
  { intros c z Hc (_ & [<-|([|d a] & H)]); [reflexivity| |]; [injection H as -> _; congruence|injection H as _ H; destruct a; discriminate]. }
  assert (Brk : forall z, last_line [10] z -> length z = 0%nat).
  { intros z (Hn & [<-|([|d a] & H)]); [destruct Hn; now left| |]; [now injection H as <-|injection H as _ H; destruct a; discriminate]. }
  split. { split; [reflexivity|]. intros z z' H H'. cbn in H. apply One in H; [|lia]. apply One in H'; lia. }
  split. { split; [reflexivity|]. intros z z' H H'. cbn in H. apply Brk in H. apply Brk in H'. lia. }
  split; [intros (H & _); discriminate H|]. intros (_ & H).
  assert (H1 : last_line (firstn 1 (skipn 4 [97; 10; 98; 99])) []) by (split; [intros []|now left]).
  assert (H2 : last_line [120] [120]) by (split; [intros [K|[]]; discriminate K|now left]).
  discriminate (H _ _ H1 H2).
Qed.
(** Exactly when the three byte offsets describe the client's edit: the
    characters between the start of the line and the edit are ASCII. *)
Theorem C04_bytes_exact :
  forall t r x s e ie t',
    index_of t (rstart r) s -> index_of t (rend r) e -> (s <= e)%nat ->
    (forall c, In c (text_above t (rstart r) ++ text_above t (rend r)) -> ~ odd_break c) ->
    apply_change t r x = Ok (t', ie) ->
    (bytes_truthful (firstn s t) (firstn (e - s) (skipn s t)) x ie <->
     ascii_on_line t (rstart r) s /\ ascii_on_line t (rend r) e).
Proof. exact edit_bytes_exact. Qed.
Print Assumptions C04_bytes_exact.
(** Exactly when the text is right and its description is right in bytes:
    everything before the edit is ASCII. *)
Theorem C04_text_and_bytes_exact :
  forall t r s e,
    index_of t (rstart r) s -> index_of t (rend r) e -> (s <= e)%nat ->
    (forall c, In c (text_above t (rstart r) ++ text_above t (rend r)) -> ~ odd_break c) ->
    ((forall x, scalar_text x -> exists ie, apply_change t r x = Ok (firstn s t ++ x ++ skipn e t, ie) /\
        bytes_truthful (firstn s t) (firstn (e - s) (skipn s t)) x ie) <->
     Forall (fun c => c < 128) (firstn e t)).
Proof. exact edit_text_and_bytes_exact. Qed.
Print Assumptions C04_text_and_bytes_exact.
(** "a LF b é": before the accent both are right, behind it the text is right
    (the edit is easy) but the bytes are not. *)
Example C04_exact_example :
  let t := [97; 10; 98; 233] in
  index_of t (mkpos 1 1) 3 /\ index_of t (mkpos 1 2) 4 /\
  (forall c, In c (text_above t (mkpos 1 1) ++ text_above t (mkpos 1 2)) -> ~ odd_break c) /\
  Forall (fun c => c < 128) (firstn 3 t) /\ ascii_on_line t (mkpos 1 1) 3 /\
  easy t (mkpos 1 2) 4 /\ ~ ascii_on_line t (mkpos 1 2) 4.
Proof.
  cbn zeta. split; [idx [98; 233] (@nil N) 1%nat|]. split; [idx [98; 233] (@nil N) 2%nat|].
  split; [intros c [<-|[<-|[<-|[<-|[]]]]]; vm_compute; intuition discriminate|].
  split; [repeat constructor|]. split; [repeat constructor|]. split; [split; repeat constructor|].
  intros H. inversion H as [|? ? _ H']; subst. inversion H'; subst. lia.
Qed.

(** ** C05 *)
Theorem C05_edit_crash_exact :
  forall t r x, apply_change t r x = Panic <-> edit_crashes t r x.
Proof. exact apply_change_panics. Qed.
Print Assumptions C05_edit_crash_exact.
Theorem C05_legal_ascii_edit_safe :
  forall t r x s e,
    index_of t (rstart r) s -> index_of t (rend r) e -> (s <= e)%nat ->
    plain_text (firstn e t) ->
    exists ie, apply_change t r x = Ok (firstn s t ++ x ++ skipn e t, ie).
Proof. exact apply_change_lsp. Qed.
Print Assumptions C05_legal_ascii_edit_safe.
Example C05_example_crash : edit_crashes [97; 98] (mkrange (mkpos 0 3) (mkpos 0 3)) [120].
Proof. vm_compute. left. reflexivity. Qed.
Example C05_example_safe : ~ edit_crashes [97; 98] (mkrange (mkpos 0 2) (mkpos 0 2)) [120].
Proof. vm_compute. intros [H|[H|[H _]]]; discriminate. Qed.

(** ** C06 *)
Theorem C06_chunks_complete :
  forall chunks t, scalar_text t -> concat chunks = t -> write_chunks chunks = encode t.
Proof. exact write_chunks_any. Qed.
Print Assumptions C06_chunks_complete.
Theorem C06_encoding_faithful :
  forall a b, scalar_text a -> scalar_text b -> encode a = encode b -> a = b.
Proof. exact encode_injective. Qed.
Print Assumptions C06_encoding_faithful.
Example C06_example : (* one-, two-, three- and four-byte characters, three chunks *)
  let t := [97; 233; 8364; 128512] in
  scalar_text t /\ concat [[97; 233]; []; [8364; 128512]] = t.
Proof. cbn zeta. split; [repeat constructor|reflexivity]. Qed.

(** ** C07
    Refuted universally: a change without a range is ignored together with all
    later changes of the notification; changes before it do modify the text
    while trees and refresh timer stay as they were. *)
Theorem C07_rangeless_change_refuted :
  exists t x t', lsp_changes t [mkchange None x] t' /\
    forall T tid uri (s s' : lsp_files T) te,
      sget uri (ls_docs s) = Some t ->
      did_change tid uri [mkchange None x] s = Ok (s', te) ->
      sget uri (ls_docs s') = Some t /\ t <> t'.
Proof.
  exists [97], [98], [98]. split; [repeat econstructor|].
  intros T tid uri s s' te Hs H. destruct (rangeless_ignored T tid uri s [97] [] [98] [] [97] [] Hs eq_refl)
    as (s2 & H2 & Ht & _). cbn [app] in H2. rewrite H2 in H. inversion H; subst.
  split; [exact Ht|discriminate].
Qed.
Print Assumptions C07_rangeless_change_refuted.
Theorem C07_rangeless_ignored :
  forall T tid uri (s : lsp_files T) t cs x more t1 edits,
    sget uri (ls_docs s) = Some t -> apply_changes t cs = Ok (t1, false, edits) ->
    exists s', did_change tid uri (cs ++ mkchange None x :: more) s = Ok (s', None) /\
      sget uri (ls_docs s') = Some t1 /\
      ls_tt s' = ls_tt s /\ ls_bt s' = ls_bt s /\ ls_task s' = ls_task s.
Proof. exact rangeless_ignored. Qed.
Print Assumptions C07_rangeless_ignored.
Example C07_example :
  let s := set_docs [("file:///a.html"%string, [97; 98])] (ls_default ts_unit) in
  sget "file:///a.html" (ls_docs s) = Some [97; 98] /\
  exists edits, apply_changes [97; 98] [mkchange (Some (mkrange (mkpos 0 1) (mkpos 0 1))) [120]]
                = Ok ([97; 120; 98], false, edits).
Proof. cbn zeta. split; [reflexivity|]. eexists. vm_compute. reflexivity. Qed.
