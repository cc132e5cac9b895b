(** * PAccept: proofs about accepting completion items (C98-C101). *)
From Verif Require Import Base RString Utf8 Rope Types Captures MDefinition MObjects MTemplates MSearchErrors MLspFiles MLspTask.
From Verif Require Import SpecText SpecFiles SpecScope SpecObjects SpecLint SpecNav SpecOrder SpecPlace SpecAccept.
From Verif Require Import PText PFiles PScope PObjects PLint PLint2 PLint3 PNav PNav2 PNav3 POrder PPlace.

(** ** Positions *)
Lemma width_app a z : utf16_width (a ++ z) = utf16_width a + utf16_width z.
Proof. induction a as [|c a IH]; [reflexivity|]. change (utf16_width ((c :: a) ++ z)) with (utf16_len c + utf16_width (a ++ z)).
  change (utf16_width (c :: a)) with (utf16_len c + utf16_width a). lia. Qed.
Lemma utf16_len_pos c : 1 <= utf16_len c.
Proof. unfold utf16_len. destruct (c <? 65536); lia. Qed.
Lemma width_length a : N.of_nat (length a) <= utf16_width a.
Proof. induction a as [|c a IH]; [cbn; lia|]. change (utf16_width (c :: a)) with (utf16_len c + utf16_width a).
  pose proof (utf16_len_pos c). cbn [length]. lia. Qed.
Lemma width_prefix (a : text) k : utf16_width (firstn k a) <= utf16_width a.
Proof. rewrite <- (firstn_skipn k a) at 2. rewrite width_app. lia. Qed.
Lemma width_inj (a : text) j k : (j <= length a)%nat -> (k <= length a)%nat ->
  utf16_width (firstn j a) = utf16_width (firstn k a) -> j = k.
Proof.
  assert (G : forall j k, (j < k)%nat -> (k <= length a)%nat -> utf16_width (firstn j a) < utf16_width (firstn k a)).
  { intros x y H1 H2. replace (firstn y a) with (firstn x a ++ firstn (y - x) (skipn x a)).
    - rewrite width_app. pose proof (width_length (firstn (y - x) (skipn x a))) as W.
      rewrite firstn_length, skipn_length in W. lia.
    - rewrite <- (firstn_skipn x (firstn y a)). rewrite firstn_firstn, Nat.min_l by lia. f_equal.
      rewrite firstn_skipn_comm. now replace (x + (y - x))%nat with y by lia. }
  intros H1 H2 H3. destruct (Nat.lt_trichotomy j k) as [H|[H|H]]; auto; specialize (G _ _ H); lia.
Qed.
Lemma denotes_fun t p i j : denotes t p i -> denotes t p j -> i = j.
Proof.
  intros [(b & e & k & H1 & H2 & H3 & ->)|(b & e & H1 & H2 & ->)] [(b' & e' & k' & G1 & G2 & G3 & ->)|(b' & e' & G1 & G2 & ->)];
    rewrite H1 in G1; inversion G1; subst b' e'.
  - f_equal. apply (width_inj b); auto. congruence.
  - exfalso. pose proof (width_prefix b k). lia.
  - exfalso. pose proof (width_prefix b k'). lia.
  - reflexivity.
Qed.
Lemma cursor_denotes t p i c : cursor_at t p i c -> denotes t p i.
Proof. intros (b & e & k & H1 & H2 & H3 & H4 & _). left. now exists b, e, k. Qed.
Lemma firstn_snoc {A} (l : list A) k x : nth_error l k = Some x -> firstn (S k) l = firstn k l ++ [x].
Proof. revert k. induction l as [|y l IH]; intros [|k] H; cbn in *; try discriminate; [congruence|]. f_equal. now apply IH. Qed.
Lemma cursor_next t p i c : cursor_at t p i (Some c) -> utf16_len c = 1 ->
  denotes t (mkpos (line p) (character p + 1)) (S i).
Proof.
  intros (b & e & k & H1 & H2 & H3 & H4 & H5) Hc. left. exists b, e, (S k). cbn [line character].
  assert (k < length b)%nat by (apply nth_error_Some; congruence).
  split; [exact H1|]. split; [lia|]. split; [|lia]. rewrite (firstn_snoc _ _ _ H5), width_app.
  change (utf16_width [c]) with (utf16_len c + 0). lia.
Qed.
Lemma cursor_end t p i : cursor_at t p i None -> denotes t (mkpos (line p) (character p + 1)) i.
Proof.
  intros (b & e & k & H1 & H2 & H3 & H4 & H5). right. exists b, e. cbn [line character].
  apply nth_error_None in H5. assert (k = length b) by lia. subst k. rewrite firstn_all in H3.
  split; [exact H1|]. split; lia.
Qed.

(** A single edit. *)
Lemma accepted_one m word t p s z t' : p_more p = [] ->
  denotes t (rstart (te_range (main_edit m word p))) s -> denotes t (rend (te_range (main_edit m word p))) z -> (s <= z)%nat ->
  (accepted m word t p t' <-> exists y, encode y = te_text (main_edit m word p) /\ t' = firstn s t ++ y ++ skipn z t).
Proof.
  intros Hm Hs Hz Hle. unfold accepted. rewrite Hm. split.
  - intros (_ & es & P & E). apply Permutation_sym, Permutation_length_1_inv in P. subst es.
    inversion E as [|k e es s' z' y t2 D1 D2 L1 L2 Ey E2]; subst. inversion E2; subst.
    rewrite (denotes_fun _ _ _ _ D1 Hs), (denotes_fun _ _ _ _ D2 Hz). exists y. split; [exact Ey|]. now rewrite Nat.sub_0_r.
  - intros (y & Ey & ->). split; [constructor|]. eexists. split; [reflexivity|].
    pose proof (edited_cons t 0 _ [] s z y _ Hs Hz (Nat.le_0_l _) Hle Ey (edited_nil t z)) as H. now rewrite Nat.sub_0_r in H.
Qed.

(** ** Places of tree-sitter points *)
Lemma lines_hd t : exists b e ls, lsp_lines t = (b, e) :: ls.
Proof.
  destruct t as [|c r]; cbn [lsp_lines]; [eauto|]. destruct (c =? 10); [eauto|]. destruct (c =? 13).
  - destruct r as [|d r']; [eauto|]. destruct (d =? 10); eauto.
  - pose proof (lsp_lines r) as L. destruct (lsp_lines r) as [|(b, e) ls] eqn:E; [|eauto].
    exfalso. clear L. revert E. induction r as [|d r IH]; cbn [lsp_lines]; [discriminate|]. destruct (d =? 10); [discriminate|].
    destruct (d =? 13); [destruct r as [|d' r']; [|destruct (d' =? 10)]; discriminate|]. destruct (lsp_lines r) as [|(b, e) ls]; [now apply IH|discriminate].
Qed.
Lemma index_after n : forall before rest, (length before <= n)%nat -> no_lone_cr (before ++ rest) -> hd_error rest <> Some 10 ->
  exists p, index_of (before ++ rest) p (length before).
Proof.
  induction n as [|n IH]; intros before rest Hn Hc Hr.
  - destruct before; [|cbn in Hn; lia]. cbn [app]. exists (mkpos 0 0).
    destruct (lines_hd rest) as (b & e & ls & E). exists b, e, O. rewrite E. cbn. repeat split; lia.
  - destruct before as [|c r].
    { apply (IH [] rest); auto. cbn; lia. }
    cbn [app] in *. cbn [length] in Hn.
    destruct (N.eqb_spec c 10) as [->|N10].
    { destruct (IH r rest) as (p & b & e & k & H1 & H2 & H3 & H4); [lia|now apply no_lone_tl in Hc|exact Hr|].
      exists (mkpos (line p + 1) (character p)), b, e, k. cbn [line character lsp_lines]. change (10 =? 10) with true. cbn iota.
      replace (N.to_nat (line p + 1)) with (S (N.to_nat (line p))) by lia. cbn [nth_error firstn].
      split; [exact H1|]. split; [exact H2|]. split; [exact H3|]. rewrite lines_text_cons. cbn [fst snd app length]. lia. }
    destruct (N.eqb_spec c 13) as [->|N13].
    { destruct Hc as (Hc1 & Hc2). specialize (Hc1 eq_refl). destruct r as [|d r']; cbn [app hd_error] in Hc1; [congruence|].
      inversion Hc1; subst d. cbn [app] in Hc2. cbn [length] in Hn.
      destruct (IH r' rest) as (p & b & e & k & H1 & H2 & H3 & H4); [lia|now apply no_lone_tl in Hc2|exact Hr|].
      exists (mkpos (line p + 1) (character p)), b, e, k. cbn [line character lsp_lines app]. change (13 =? 10) with false. change (13 =? 13) with true.
      change (10 =? 10) with true. cbn iota.
      replace (N.to_nat (line p + 1)) with (S (N.to_nat (line p))) by lia. cbn [nth_error firstn].
      split; [exact H1|]. split; [exact H2|]. split; [exact H3|]. rewrite lines_text_cons. cbn [fst snd app length]. lia. }
    destruct (IH r rest) as (p & b & e & k & H1 & H2 & H3 & H4); [lia|now apply no_lone_tl in Hc|exact Hr|].
    destruct (lines_hd (r ++ rest)) as (b0 & e0 & ls & E). rewrite E in *.
    assert (L : lsp_lines (c :: r ++ rest) = (c :: b0, e0) :: ls).
    { cbn [lsp_lines]. rewrite E. destruct (N.eqb_spec c 10); [congruence|]. destruct (N.eqb_spec c 13); [congruence|]. reflexivity. }
    destruct (N.to_nat (line p)) as [|l] eqn:El.
    + cbn [nth_error firstn] in *. inversion H1; subst b0 e0. exists (mkpos (line p) (character p + utf16_len c)), (c :: b), e, (S k).
      cbn [line character]. rewrite L, El. cbn [nth_error firstn length]. split; [reflexivity|]. split; [lia|].
      change (utf16_width (c :: firstn k b)) with (utf16_len c + utf16_width (firstn k b)). cbn in H4 |- *. lia.
    + cbn [nth_error firstn] in *. exists p, b, e, k. rewrite L, El. cbn [nth_error firstn length].
      split; [exact H1|]. split; [exact H2|]. split; [exact H3|]. rewrite lines_text_cons in *. cbn [fst snd app length] in *. lia.
Qed.
Lemma index_ts before rest : no_lone_cr (before ++ rest) -> hd_error rest <> Some 10 -> Forall plain before ->
  index_of (before ++ rest) (lsp_pos (ts_point before)) (length before).
Proof.
  intros Hc Hr Hp. destruct (index_after _ before rest (le_n _) Hc Hr) as (p & Hi).
  assert (E : firstn (length before) (before ++ rest) = before) by (rewrite firstn_app, Nat.sub_diag, firstn_all; apply app_nil_r).
  pose proof (index_ts_point _ _ _ Hi) as H. rewrite E in H. specialize (H Hp Hc). rewrite H. unfold lsp_pos, rope_to_point. cbn.
  now destruct p.
Qed.

(** ** Snippets *)
Lemma blank_dec s : forallb (fun a => Ascii.eqb a " "%char || Ascii.eqb a "010"%char) (list_ascii_of_string s) = true -> blank s.
Proof.
  intros H. unfold blank. apply Forall_forall. intros a Ha. rewrite forallb_forall in H. specialize (H a Ha).
  apply orb_true_iff in H. destruct H as [H|H]; apply Ascii.eqb_eq in H; [now left|now right].
Qed.
Definition snippet_parts : list (string * option string * string) :=
  [("${1:i} in ${2:items}", Some "
", "
"); ("(${1:key}, ${2:value}) in ${3:items}", Some "
", "
"); ("$1", Some "
", "
"); ("${1:key} = ${2:value}", None, "
            "); ("${1:data}", Some "
", "

"); ("""$1""", None, "
            "); ("""$1"" import ${2:module}", None, "
            "); ("""$1"" as ${2:module}", None, "
            "); ("""$1""", None, "
            "); ("$1", Some "
", "
"); ("$1", Some "
{% elif $2 %}
", "
")]%string.
Lemma snippet_shapes :
  Forall2 (fun x k => fst (fst x) = fst (fst k) /\ statement (snd (fst k)) (snd k) (snd x) /\ placeholder (snd x)) snippet_table snippet_kinds.
Proof.
  assert (G : forall (x : string * string * string) (k : string * string * option string) (p : string * option string * string), fst (fst x) = fst (fst k) ->
    snd x = (" " ++ snd (fst k) ++ " " ++ fst (fst p) ++ " %}" ++
             (match snd k, snd (fst p) with Some e, Some i => i ++ "{% " ++ e ++ " %}" | _, _ => "" end) ++ snd p)%string ->
    is_some (snd k) = is_some (snd (fst p)) -> blank (snd p) -> contains (snd x) "$" = true ->
    fst (fst x) = fst (fst k) /\ statement (snd (fst k)) (snd k) (snd x) /\ placeholder (snd x)).
  { intros x ((l, kw), close) ((head, inner), tail) H1 H2 H3 H4 H5. cbn [fst snd] in *. split; [exact H1|]. split.
    - exists head. eexists. exists tail. split; [exact H4|]. split; [exact H2|].
      destruct close, inner; try discriminate; [now eexists|reflexivity].
    - apply contains_iff in H5. exact H5. }
  unfold snippet_table, snippet_kinds.
  apply Forall2_cons; [apply (G _ _ (nth 0 snippet_parts ("", None, "")%string)); try reflexivity; now apply blank_dec|].
  apply Forall2_cons; [apply (G _ _ (nth 1 snippet_parts ("", None, "")%string)); try reflexivity; now apply blank_dec|].
  apply Forall2_cons; [apply (G _ _ (nth 2 snippet_parts ("", None, "")%string)); try reflexivity; now apply blank_dec|].
  apply Forall2_cons; [apply (G _ _ (nth 3 snippet_parts ("", None, "")%string)); try reflexivity; now apply blank_dec|].
  apply Forall2_cons; [apply (G _ _ (nth 4 snippet_parts ("", None, "")%string)); try reflexivity; now apply blank_dec|].
  apply Forall2_cons; [apply (G _ _ (nth 5 snippet_parts ("", None, "")%string)); try reflexivity; now apply blank_dec|].
  apply Forall2_cons; [apply (G _ _ (nth 6 snippet_parts ("", None, "")%string)); try reflexivity; now apply blank_dec|].
  apply Forall2_cons; [apply (G _ _ (nth 7 snippet_parts ("", None, "")%string)); try reflexivity; now apply blank_dec|].
  apply Forall2_cons; [apply (G _ _ (nth 8 snippet_parts ("", None, "")%string)); try reflexivity; now apply blank_dec|].
  apply Forall2_cons; [apply (G _ _ (nth 9 snippet_parts ("", None, "")%string)); try reflexivity; now apply blank_dec|].
  apply Forall2_cons; [apply (G _ _ (nth 10 snippet_parts ("", None, "")%string)); try reflexivity; now apply blank_dec|].
  apply Forall2_nil.
Qed.

Section Accept.
Context {T : ts}.
Implicit Types st : lsp_files T.

Lemma is_some_b {A} (x : option A) : is_some x = true -> exists y, x = Some y.
Proof. destruct x; [eauto|discriminate]. Qed.
(** The range of a snippet. *)
Lemma obj_completion_no_snippet b s tp r a : obj_completion b s tp <> Ok (Some (CtSnippets r, a)).
Proof.
  unfold obj_completion. destruct (in_pipe s tp); [discriminate|]. destruct (in_expr s tp).
  - destruct (_ && _); [discriminate|]. destruct (pt_ltb _ _); [discriminate|]. destruct (is_ident s tp); [|discriminate].
    destruct (completion_start _ _ _) as [[n|]|]; discriminate.
  - destruct (is_test s tp); discriminate.
Qed.
Lemma snippet_range b st uri pos ctx r a : small (point_of pos) -> character pos + 1 < two32 ->
  completion b uri pos ctx st = Ok (Some (CtSnippets r, a)) -> r = mkrange pos (mkpos (line pos) (character pos + 1)).
Proof.
  intros (S1 & S2) S3 E. cbn [point_of row col] in *. unfold completion in E. destruct (negb _); [discriminate|].
  destruct (file_ext uri) as [[|]|]; [| |discriminate].
  2:{ destruct (sget uri _); [|discriminate]. destruct (sget uri _); [|discriminate].
      destruct (backend_templates_query _ _ _ _) as [bt|]; [|discriminate]. cbn [bind] in E.
      destruct (bt_in_template _ _); [|discriminate]. destruct (completion_start _ _ _) as [[n|]|]; discriminate. }
  destruct (sget uri _) as [tr|]; [|discriminate]. destruct (sget uri _) as [t|]; [|discriminate].
  destruct (snippets_query _ _ _) as [sn|]; [|discriminate]. cbn [bind] in E.
  destruct (to_complete b sn (point_of pos)) as [[tc|]|]; [| |discriminate]; cbn [bind is_some is_none negb] in E.
  - unfold u32_add in E. cbn [to_position2 point_of character line row col] in E. unfold to_position2, as_u32 in E. cbn [point_of row col character line] in E.
    rewrite !N.mod_small in E by assumption.
    destruct (N.ltb_spec (character pos + 1) two32) as [_|X]; [|lia].
    cbn [bind] in E. inversion E. f_equal. now destruct pos.
  - destruct (objects_query _ _ _ _ _) as [s|]; [|discriminate]. cbn [bind] in E.
    destruct (obj_completion b s (point_of pos)) as [[c|]|] eqn:O; [| |discriminate]; cbn [bind] in E.
    + inversion E; subst. now apply obj_completion_no_snippet in O.
    + destruct (templates_query _ _ _ _) as [im|]; [|discriminate]. cbn [bind] in E. destruct (in_template im) as [i|]; [|discriminate].
      destruct (import_get i _); [|discriminate]. destruct (completion_start _ _ _) as [[n|]|]; discriminate.
Qed.
(** Exactly when snippets are offered. *)
Lemma snippets_when b st uri pos ctx tr t : ctx = Some TkInvoked \/ ctx = Some TkTriggerCharacter -> holds st uri tr t ->
  character pos + 1 < two32 ->
  let lim := mkpt (line pos) (character pos + 2) in
  ((exists r a, completion b uri pos ctx st = Ok (Some (CtSnippets r, a))) <->
   exists n, first_error lim (concat (t_captures T QSnippets tr (rope_content t))) n /\ pt_le (point_of pos) (n_end n)).
Proof.
  intros Hctx (H1 & H2 & H3) S3 lim.
  assert (Hcan : (match ctx with Some TkTriggerCharacter | Some TkInvoked => true | _ => false end) = true)
    by (destruct Hctx as [->| ->]; reflexivity).
  destruct (snippets_exact b (point_of pos) (t_captures T QSnippets tr (rope_content t))) as (sn & Es & C).
  unfold completion. rewrite Hcan. cbn [negb]. rewrite H1. cbn [trees_of]. rewrite H2, H3, Es. cbn [bind].
  destruct (to_complete b sn (point_of pos)) as [[tc|]|]; [| |destruct C]; cbn [bind is_some is_none negb].
  - split; [intros _; exact C|]. intros _. unfold u32_add, to_position2, as_u32. cbn [point_of row col character line].
    rewrite (N.mod_small (character pos)) by lia. destruct (N.ltb_spec (character pos + 1) two32) as [_|X]; [|lia].
    cbn [bind]. eauto.
  - split.
    + intros (r & a & E). exfalso.
      destruct (objects_query _ _ _ _ _) as [s|]; [|discriminate]. cbn [bind] in E.
      destruct (obj_completion b s (point_of pos)) as [[c|]|] eqn:O; [| |discriminate]; cbn [bind] in E.
      * inversion E; subst. now apply obj_completion_no_snippet in O.
      * destruct (templates_query _ _ _ _) as [im|]; [|discriminate]. cbn [bind] in E. destruct (in_template im) as [i|]; [|discriminate].
        destruct (import_get i _); [|discriminate]. destruct (completion_start _ _ _) as [[n|]|]; discriminate.
    + intros (n & F & L). specialize (C n F). exfalso. pts.
Qed.
Lemma oks {A} (x y : A) : Ok (Some x) = Ok (Some y) -> x = y.
Proof. congruence. Qed.
Lemma snippet_item b st uri pos ctx items label detail e :
  do_completion b uri pos ctx st = Ok (Some items) -> In (RSnippet label detail e) items ->
  exists r a x kw close, completion b uri pos ctx st = Ok (Some (CtSnippets r, a)) /\
    In (label, kw, close) snippet_kinds /\ statement kw close x /\ placeholder x /\
    e = if ls_vscode st then None else Some (CInsertReplace x r r).
Proof.
  intros E Hin. unfold do_completion in E. destruct (completion b uri pos ctx st) as [[(ct, a)|]|]; cbn [bind] in E; [|discriminate|discriminate].
  assert (R : forall l, ~ In (RSnippet label detail e) (map RItem l)).
  { intros l H. apply in_map_iff in H. destruct H as (x & H & _). discriminate. }
  destruct ct.
  - apply oks in E. subst items. apply in_map_iff in Hin. destruct Hin as (x & Hin & _). discriminate.
  - apply oks in E. subst items. apply in_map_iff in Hin. destruct Hin as (x & Hin & _). discriminate.
  - destruct (read_variables _ _ _ _ _); inversion E; subst. now apply R in Hin.
  - destruct (read_templates _ _ _ _); inversion E; subst. now apply R in Hin.
  - apply oks in E. subst items. apply in_map_iff in Hin. destruct Hin as (((l, d), x) & Hx & Hin). inversion Hx; subst.
    pose proof snippet_shapes as F2. revert Hin F2. generalize snippet_table snippet_kinds. intros tb ks Hin F2.
    assert (exists k, In k ks /\ fst (fst (label, detail, x)) = fst (fst k) /\ statement (snd (fst k)) (snd k) x /\ placeholder x) as (((l', kw), close) & H1 & H2 & H3 & H4).
    { clear - Hin F2. induction F2 as [|y k tb ks H F2 IH]; [destruct Hin|]. destruct Hin as [->|Hin].
      - exists k. split; [now left|exact H].
      - destruct (IH Hin) as (k' & H1 & H2). exists k'. split; [now right|exact H2]. }
    cbn [fst snd] in *. subst l'. exists r, a, x, kw, close. split; [reflexivity|]. split; [exact H1|]. split; [exact H3|]. split; [exact H4|reflexivity].
  - destruct (read_variables _ _ _ _ _); inversion E; subst. now apply R in Hin.
  - discriminate.
Qed.
Lemma snippets_all b st uri pos ctx r a : completion b uri pos ctx st = Ok (Some (CtSnippets r, a)) ->
  exists items, do_completion b uri pos ctx st = Ok (Some items) /\
    map (fun i => p_label (proposal_of i)) items = map (fun k => fst (fst k)) snippet_kinds /\
    Forall (fun i => exists l d e, i = RSnippet l d e) items.
Proof.
  intros E. unfold do_completion. rewrite E. cbn [bind]. eexists. split; [reflexivity|]. split; [reflexivity|].
  apply Forall_forall. intros i Hi. apply in_map_iff in Hi. destruct Hi as (((l, d), x) & <- & _). eauto.
Qed.

(** ** Further edits *)
Lemma local_items_more v typed r : forall vs names i, In i (local_items v typed r names vs) ->
  ci_additional i = None \/ (v = true /\ ci_edit i = Some (CEdit (mkte (mkrange (rstart r) (rstart r)) EmptyString)) /\ ci_additional i = Some [mkte r typed]).
Proof.
  induction vs as [|x vs IH]; intros names i Hi; cbn [local_items] in Hi; [destruct Hi|].
  destruct (str_mem _ _); [eauto|]. unfold local_item in Hi. destruct (String.eqb typed "").
  - destruct Hi as [<-|Hi]; [now left|eauto].
  - destruct (starts_with _ _); [|eauto]. destruct Hi as [<-|Hi]; [|eauto]. destruct v; [right; auto|now left].
Qed.
Lemma variables_more st uri pos starting l : read_variables uri pos starting None st = Some l ->
  Forall (fun i => ci_additional i = None \/ (ls_vscode st = true /\ exists typed r, starting = Some (typed, r) /\
     ci_edit i = Some (CEdit (mkte (mkrange (rstart r) (rstart r)) EmptyString)) /\ ci_additional i = Some [mkte r typed])) l.
Proof.
  unfold read_variables. destruct (sget uri (ls_vars st)) as [vs|]; [|discriminate].
  destruct (match starting with Some x => x | None => (EmptyString, range0) end) as (typed, r) eqn:Es. intros H. inversion H; subst. clear H.
  apply Forall_forall. intros i Hi. apply in_app_or in Hi. destruct Hi as [Hi|Hi].
  - destruct starting as [(y, q)|].
    + inversion Es; subst. apply local_items_more in Hi. destruct Hi as [Hi|(H1 & H2 & H3)]; [now left|right]. split; [exact H1|]. now exists typed, r.
    + inversion Es; subst. left. clear - Hi. revert Hi. generalize (@nil string). induction (filter _ vs) as [|x l IH]; intros ns Hi; cbn [local_items] in Hi; [destruct Hi|].
      destruct (str_mem _ _); [eauto|]. unfold local_item in Hi. cbn in Hi. destruct Hi as [<-|Hi]; [reflexivity|eauto].
  - left. unfold backend_items in Hi. apply in_flat_map in Hi. destruct Hi as (kv & _ & Hi). apply in_map_iff in Hi. destruct Hi as (x & <- & _). reflexivity.
Qed.
Lemma template_items_more v dir r sp : forall us l, template_items v dir r sp us = Some l ->
  Forall (fun i => (v = false /\ ci_additional i = None /\ ci_edit i = Some (CInsertReplace (quoted (ci_label i)) r r)) \/
     (v = true /\ ci_edit i = Some (CEdit (mkte (mkrange sp sp) EmptyString)) /\ ci_additional i = Some [mkte r (quoted (ci_label i))])) l.
Proof.
  induction us as [|u us IH]; intros l H; cbn [template_items] in H; [inversion H; constructor|].
  destruct (template_label dir u); [|discriminate]. destruct (template_items v dir r sp us) as [more|]; [|discriminate]. inversion H; subst.
  constructor; [|now apply IH]. unfold template_item. destruct v; [right|left]; auto.
Qed.
Lemma no_more_elsewhere b st uri pos ctx items : ls_vscode st = false -> do_completion b uri pos ctx st = Ok (Some items) ->
  Forall (fun i => p_more (proposal_of i) = []) items.
Proof.
  intros Hv E. unfold do_completion in E. destruct (completion b uri pos ctx st) as [[(ct, a)|]|]; cbn [bind] in E; [|discriminate|discriminate].
  assert (R : forall l, Forall (fun i => ci_additional i = None) l -> Forall (fun i => p_more (proposal_of i) = []) (map RItem l)).
  { intros l H. apply Forall_map. eapply Forall_impl; [|exact H]. intros i Hi. cbn. now rewrite Hi. }
  assert (V : forall s l, read_variables uri pos s None st = Some l -> Forall (fun i => ci_additional i = None) l).
  { intros s l H. eapply Forall_impl; [|exact (variables_more _ _ _ _ _ H)]. cbn. intros i [Hi|(Hi & _)]; [exact Hi|congruence]. }
  destruct ct.
  - apply oks in E. subst items. apply Forall_map. apply Forall_forall. reflexivity.
  - apply oks in E. subst items. apply Forall_map. apply Forall_forall. reflexivity.
  - destruct (read_variables _ _ _ _ _) eqn:Er; inversion E; subst. eauto.
  - destruct (read_templates _ _ _ _) eqn:Er; inversion E; subst. apply R. unfold read_templates in Er. apply template_items_more in Er.
    eapply Forall_impl; [|exact Er]. cbn. intros i [Hi|(Hi & _)]; [tauto|congruence].
  - apply oks in E. subst items. apply Forall_map. apply Forall_forall. intros ((l, d), x) _. reflexivity.
  - destruct (read_variables _ _ _ _ _) eqn:Er; inversion E; subst. eauto.
  - discriminate.
Qed.

(** The reference under the cursor starts at or before it. *)
Lemma started_before s e tp : pt_le s tp -> small tp ->
  rstart (to_range (s, e)) = lsp_pos tp \/ pos_lt (rstart (to_range (s, e))) (lsp_pos tp).
Proof.
  intros H (S1 & S2). destruct s as (sr, sc), tp as (tr, tc). unfold pt_le, pt_lt in *. cbn [row col] in *. cbn [to_range rstart fst]. unfold to_position2, as_u32, lsp_pos, pos_lt. cbn [row col line character].
  destruct (N.eq_dec sr tr) as [->|Hn].
  - assert (sc <= tc) by lia. rewrite !N.mod_small by lia. destruct (N.eq_dec sc tc) as [->|]; [now left|right; right; lia].
  - right. left. rewrite N.mod_small; lia.
Qed.
Lemma obj_completion_no_template b s tp n r a : obj_completion b s tp <> Ok (Some (CtIncludedTemplate n r, a)).
Proof.
  unfold obj_completion. destruct (in_pipe s tp); [discriminate|]. destruct (in_expr s tp).
  - destruct (_ && _); [discriminate|]. destruct (pt_ltb _ _); [discriminate|]. destruct (is_ident s tp); [|discriminate].
    destruct (completion_start _ _ _) as [[m|]|]; discriminate.
  - destruct (is_test s tp); discriminate.
Qed.
Lemma in_id_le tp i : in_id tp i = true -> pt_le (id_start i) tp /\ pt_le tp (id_end i).
Proof. unfold in_id. intros H. apply andb_true_iff in H. destruct H as (H1 & H2). split; now apply pt_leb_le. Qed.
Lemma import_get_in im tp i : import_get im tp = Some i -> in_id tp i = true.
Proof.
  destruct im; cbn [import_get]; intros H.
  - destruct (in_id tp template) eqn:E; inversion H; now subst.
  - apply find_some in H. tauto.
  - destruct (in_id tp template) eqn:E; inversion H; now subst.
  - destruct (in_id tp template) eqn:E; inversion H; now subst.
Qed.
Lemma template_range b st uri pos ctx n r a : completion b uri pos ctx st = Ok (Some (CtIncludedTemplate n r, a)) ->
  exists s e, r = to_range (s, e) /\ pt_le s (point_of pos) /\ pt_le (point_of pos) e.
Proof.
  intros E. unfold completion in E. destruct (negb _); [discriminate|].
  destruct (file_ext uri) as [[|]|]; [| |discriminate].
  2:{ destruct (sget uri _); [|discriminate]. destruct (sget uri _); [|discriminate].
      destruct (backend_templates_query _ _ _ _) as [bt|]; [|discriminate]. cbn [bind] in E.
      destruct (bt_in_template _ _) as [i|] eqn:Ei; [|discriminate]. destruct (completion_start _ _ _) as [[m|]|]; cbn [bind] in E; inversion E; subst.
      unfold bt_in_template in Ei. destruct (last_opt (bt_templates bt)) as [j|]; [|discriminate].
      destruct (in_id (point_of pos) j) eqn:Ej; [|discriminate]. inversion Ei; subst. apply in_id_le in Ej. eauto. }
  destruct (sget uri _) as [tr|]; [|discriminate]. destruct (sget uri _) as [t|]; [|discriminate].
  destruct (snippets_query _ _ _) as [sn|]; [|discriminate]. cbn [bind] in E.
  destruct (to_complete b sn (point_of pos)) as [[tc|]|]; [| |discriminate]; cbn [bind is_some is_none negb] in E.
  { destruct (u32_add _ _ _); discriminate. }
  destruct (objects_query _ _ _ _ _) as [s|]; [|discriminate]. cbn [bind] in E.
  destruct (obj_completion b s (point_of pos)) as [[c|]|] eqn:O; [| |discriminate]; cbn [bind] in E.
  + inversion E; subst. now apply obj_completion_no_template in O.
  + destruct (templates_query _ _ _ _) as [im|]; [|discriminate]. cbn [bind] in E. destruct (in_template im) as [i|]; [|discriminate].
    destruct (import_get i _) as [j|] eqn:Ej; [|discriminate]. destruct (completion_start _ _ _) as [[m|]|]; cbn [bind] in E; inversion E; subst.
    apply import_get_in, in_id_le in Ej. eauto.
Qed.
Lemma collide_vscode b st uri pos ctx ct a items m word i e :
  ls_vscode st = true -> small (point_of pos) -> completion b uri pos ctx st = Ok (Some (ct, a)) ->
  (forall n r, ct = CtIncludedTemplate n r -> pos_lt pos (rend r)) ->
  do_completion b uri pos ctx st = Ok (Some items) -> In i items -> In e (p_more (proposal_of i)) ->
  collide (te_range (main_edit m word (proposal_of i))) (te_range e).
Proof.
  intros Hv Hs C Hr E Hi He. unfold do_completion in E. rewrite C in E. cbn [bind] in E.
  assert (V : forall s l, read_variables uri pos s None st = Some l -> In i (map RItem l) -> collide (te_range (main_edit m word (proposal_of i))) (te_range e)).
  { intros s l H Hl. apply in_map_iff in Hl. destruct Hl as (c & <- & Hc). pose proof (variables_more _ _ _ _ _ H) as F. rewrite Forall_forall in F.
    cbn [proposal_of p_more] in He. destruct (F c Hc) as [F1|(_ & typed & r & _ & F1 & F2)]; [rewrite F1 in He; destruct He|].
    rewrite F2 in He. destruct He as [<-|[]]. unfold main_edit. cbn [proposal_of p_edit]. rewrite F1. left. reflexivity. }
  destruct ct.
  - apply oks in E. subst items. apply in_map_iff in Hi. destruct Hi as (x & <- & _). destruct He.
  - apply oks in E. subst items. apply in_map_iff in Hi. destruct Hi as (x & <- & _). destruct He.
  - destruct (read_variables _ _ _ _ _) eqn:Er; inversion E; subst. eauto.
  - destruct (read_templates _ _ _ _) as [l|] eqn:Er; inversion E; subst. unfold read_templates in Er. apply template_items_more in Er.
    apply in_map_iff in Hi. destruct Hi as (c & <- & Hc). rewrite Forall_forall in Er. destruct (Er c Hc) as [(H & _)|(_ & H1 & H2)]; [congruence|].
    cbn [proposal_of p_more] in He. rewrite H2 in He. destruct He as [<-|[]]. unfold main_edit. cbn [proposal_of p_edit]. rewrite H1. cbn [te_range].
    destruct (template_range _ _ _ _ _ _ _ _ C) as (s & z & -> & L1 & L2).
    assert (P : lsp_pos (point_of pos) = pos) by (now destruct pos).
    unfold collide. cbn [rstart]. destruct (started_before s z _ L1 Hs) as [H|H]; rewrite P in H; [left; now rewrite <- H|].
    right. right. split; [exact H|]. now apply (Hr name).
  - apply oks in E. subst items. apply in_map_iff in Hi. destruct Hi as (((l, d), x) & <- & _). destruct He.
  - destruct (read_variables _ _ _ _ _) eqn:Er; inversion E; subst. eauto.
  - discriminate.
Qed.

(** ** Accepted template names *)
Lemma template_written b st uri pos ctx n r a items i m word (t before lit after t' : text) :
  ls_vscode st = false -> completion b uri pos ctx st = Ok (Some (CtIncludedTemplate n r, a)) ->
  do_completion b uri pos ctx st = Ok (Some items) -> In i items ->
  t = before ++ lit ++ after -> no_lone_cr t -> plain_text (before ++ lit) -> hd_error (lit ++ after) <> Some 10 -> hd_error after <> Some 10 ->
  r = lsp_range (ts_point before) (ts_point (before ++ lit)) ->
  (accepted m word t (proposal_of i) t' <->
   exists y, encode y = String dquote (p_label (proposal_of i) ++ String dquote EmptyString) /\ t' = before ++ y ++ after).
Proof.
  intros Hv C E Hi -> Hc Hp Hh1 Hh2 ->. unfold do_completion in E. rewrite C in E. cbn [bind] in E.
  destruct (read_templates _ _ _ _) as [l|] eqn:Er; inversion E; subst. unfold read_templates in Er. apply template_items_more in Er.
  apply in_map_iff in Hi. destruct Hi as (c & <- & Hc0). rewrite Forall_forall in Er. destruct (Er c Hc0) as [(_ & H1 & H2)|(H & _)]; [|congruence].
  assert (M : main_edit m word (proposal_of (RItem c)) = mkte (lsp_range (ts_point before) (ts_point (before ++ lit))) (quoted (ci_label c))).
  { unfold main_edit. cbn [proposal_of p_edit]. rewrite H2. now destruct m. }
  assert (Hpb : Forall plain before) by (apply Forall_app in Hp; tauto).
  pose proof (index_ts before (lit ++ after) Hc Hh1 Hpb) as I1.
  rewrite app_assoc in Hc. pose proof (index_ts (before ++ lit) after Hc Hh2 Hp) as I2. rewrite <- app_assoc in I2.
  rewrite (accepted_one m word _ _ (length before) (length (before ++ lit)) t').
  - rewrite M. cbn [te_text proposal_of p_label].
    assert (E1 : firstn (length before) (before ++ lit ++ after) = before) by (rewrite firstn_app, Nat.sub_diag, firstn_all; apply app_nil_r).
    assert (E2 : skipn (length (before ++ lit)) (before ++ lit ++ after) = after) by (rewrite app_assoc, skipn_app, Nat.sub_diag, skipn_all; reflexivity).
    rewrite E1, E2. reflexivity.
  - cbn [proposal_of p_more]. now rewrite H1.
  - rewrite M. left. exact I1.
  - rewrite M. left. exact I2.
  - rewrite app_length. lia.
Qed.
End Accept.

(** ** Offered templates are found *)
Lemma strip_dots_id d : ~ occurs "." d -> strip_dots d = d.
Proof.
  unfold strip_dots. induction d as [|a d IH]; intros H; [reflexivity|]. cbn [remove_chars].
  destruct (Ascii.eqb a dot) eqn:E.
  - apply Ascii.eqb_eq in E. subst a. exfalso. apply H. exists EmptyString, d. reflexivity.
  - f_equal. apply IH. intros (x & z & E2). apply H. exists (String a x), z. now rewrite E2.
Qed.
Lemma offered_found {T : ts} F (st : lsp_files T) p r sp :
  let dir := cf_templates (ls_config st) in
  let prefix := if String.eqb p "" then "file:///"%string else p in
  ~ occurs "." dir -> ends_with_slash dir = false ->
  (forall uri, In uri (map fst (ls_tt st)) -> occurs prefix uri ->
     exists label c, lies_below dir uri label /\ ~ In EmptyString (split_char slash label) /\
       f_canon F (dir ++ "/" ++ label)%string = CanonOk c /\ uri = file_uri c) ->
  exists us items, read_templates p r sp st = Some items /\
    (forall u, In u us <-> In u (map fst (ls_tt st)) /\ occurs prefix u) /\
    Forall2 (fun u i => missing F dir (ci_label i) = false /\
      exists c, f_canon F (lookup_path dir (ci_label i)) = CanonOk c /\ file_uri c = u) us items.
Proof.
  intros dir prefix Hd Hs H. pose proof (strip_dots_id dir Hd) as Ed.
  destruct (read_templates_exact st p r sp) as (us & items & E & U & _ & F2).
  { fold dir. fold prefix. rewrite Ed. intros uri H1 H2. destruct (H uri H1 H2) as (label & c & H3 & _). eauto. }
  fold dir in F2. fold prefix in U. rewrite Ed in F2. exists us, items. split; [exact E|]. split; [exact U|].
  assert (G : forall l, (forall u, In u l -> In u us) -> forall its, Forall2 (template_for dir (ls_vscode st) r) l its ->
    Forall2 (fun u i => missing F dir (ci_label i) = false /\ exists c, f_canon F (lookup_path dir (ci_label i)) = CanonOk c /\ file_uri c = u) l its).
  2:{ apply (G us); auto. }
  intros l Hl its F3. induction F3 as [|u i l its Hi F3 IH]; [constructor|]. constructor; [|apply IH; intros; apply Hl; now right].
  destruct (U u) as (U1 & _). destruct (U1 (Hl u (or_introl eq_refl))) as (H1 & H2).
  destruct (H u H1 H2) as (label & c & B1 & B2 & B3 & B4). destruct Hi as (B5 & _).
  assert (ci_label i = label) as ->.
  { rewrite <- Ed in B1, B5. apply label_below in B1. apply label_below in B5. congruence. }
  assert (L : lookup_path dir label = (dir ++ "/" ++ label)%string).
  { unfold lookup_path. rewrite Hs, (proper_relative _ B2). destruct B1 as (B1 & _). now replace (String.eqb dir "") with false by (symmetry; now apply String.eqb_neq). }
  split; [|exists c; rewrite L; auto]. unfold missing, not_found. rewrite L, B3, orb_false_r. apply String.eqb_neq. intros ->. apply B2. now left.
Qed.

(** ** Documented names *)
Definition str_perm (a b : list string) : bool := forallb (fun x => str_mem x b) a && forallb (fun x => str_mem x a) b.
Lemma str_perm_In a b : str_perm a b = true -> forall x, In x a <-> In x b.
Proof.
  unfold str_perm. intros H x. apply andb_true_iff in H. destruct H as (H1 & H2). rewrite forallb_forall in H1, H2.
  split; intros Hx; [specialize (H1 x Hx)|specialize (H2 x Hx)]; now apply str_mem_In.
Qed.
Lemma filters_documented n : In n filter_names <-> In n filter_docs.
Proof. apply str_perm_In. vm_compute. reflexivity. Qed.
Lemma tests_documented n : In n test_names <-> In n test_docs.
Proof. apply str_perm_In. vm_compute. reflexivity. Qed.
Fixpoint str_nodup (l : list string) : bool := match l with [] => true | x :: r => negb (str_mem x r) && str_nodup r end.
Lemma str_nodup_NoDup l : str_nodup l = true -> NoDup l.
Proof.
  induction l as [|x l IH]; intros H; [constructor|]. cbn [str_nodup] in H. apply andb_true_iff in H. destruct H as (H1 & H2).
  constructor; [|auto]. intros Hx. apply str_mem_In in Hx. rewrite Hx in H1. discriminate.
Qed.
Lemma names_once : NoDup filter_names /\ NoDup test_names.
Proof. split; apply str_nodup_NoDup; vm_compute; reflexivity. Qed.

(** All places at which [d] occurs. *)
Fixpoint occs (d s : string) : list string :=
  (if String.prefix d s then [EmptyString] else []) ++
  match s with EmptyString => [] | String c r => map (String c) (occs d r) end.
Lemma occs_all d : forall a z, In a (occs d (a ++ d ++ z)).
Proof.
  induction a as [|c a IH]; intros z.
  - cbn [append]. destruct (d ++ z)%string eqn:E; cbn [occs]; rewrite <- E, prefix_app; now left.
  - cbn [append occs]. apply in_or_app. right. apply in_map. apply IH.
Qed.
Lemma below_once d uri pre label : d <> EmptyString -> uri = (pre ++ d ++ "/" ++ label)%string -> occs d uri = [pre] -> lies_below d uri label.
Proof.
  intros H1 H2 H3. split; [exact H1|]. exists pre. split; [exact H2|]. intros a z E. pose proof (occs_all d a z) as H.
  rewrite <- E, H3 in H. destruct H as [H|[]]. now symmetry.
Qed.
