(** * PQueries7: computing what a tree says, for the examples; names handed to templates. *)
From Verif Require Import Base RString Utf8 Rope Types Captures MTemplates MSearchErrors MLspFiles MQueries.
From Verif Require Import SpecFiles SpecBackend SpecScope SpecObjects SpecLint SpecQueries SpecQueries2 PText PUtf8 PObjects PQueries PQueries3 PQueries5.
From Verif Require PNav3.

(** ** Expressions *)
Definition speaksb (src : string) (t : stree) : bool :=
  let k := s_kind t in let x := text_of src (s_node t) in
  String.eqb k "expression" || String.eqb k "operator" || (String.eqb k "keyword" && String.eqb x "is") ||
  (String.eqb k "identifier" && negb (all_digits x)).
Lemma speaksb_iff src t : speaksb src t = true <-> speaks src t.
Proof.
  destruct t as [k n ch]. unfold speaksb. cbn [s_kind s_node]. rewrite !orb_true_iff, !andb_true_iff, negb_true_iff, !String.eqb_eq, <- not_number. split.
  - intros [[[->| ->]|(-> & H)]|(-> & H)]; constructor; assumption.
  - intros H. inversion H; subst; auto.
Qed.
Lemma spoken_of src l : spoken src l (map (fun t => (s_kind t, s_node t)) (filter (speaksb src) l)).
Proof.
  induction l as [|t l IH]; [constructor|]. cbn [filter]. destruct (speaksb src t) eqn:E; cbn [map]; constructor; auto; [now apply speaksb_iff|].
  intros H. apply speaksb_iff in H. congruence.
Qed.

(** ** Statements *)
Lemma starts_with_iff s p : starts_with s p = true <-> exists r, s = (p ++ r)%string.
Proof.
  unfold starts_with. split.
  - revert s. induction p as [|c p IH]; intros s H; [exists s; reflexivity|].
    destruct s as [|d s]; cbn [String.prefix] in H; [discriminate|]. destruct (ascii_dec c d) as [->|]; [|discriminate].
    destruct (IH s H) as (r & ->). exists r. reflexivity.
  - intros (r & ->). induction p as [|c p IH]; [now destruct r|]. cbn [append String.prefix]. now destruct (ascii_dec c c).
Qed.
Definition heards (src : string) (t : stree) : option dkind :=
  let k := s_kind t in let x := text_of src (s_node t) in
  if String.eqb k "identifier" then (if all_digits x then None else Some DkId)
  else if String.eqb k "operator" then (if contains x "=" then Some DkEq else None)
  else if String.eqb k "keyword" then
    (if existsb (String.eqb x) ["for"; "set"; "with"; "macro"; "block"]%string then Some DkDef
     else if existsb (String.eqb x) ["if"; "elif"; "else"; "filter"; "autoescape"; "raw"]%string then Some DkScope
     else if starts_with x "end" then Some DkEnd else None)
  else None.
Lemma heards_some src t k : heards src t = Some k -> hears src t k.
Proof.
  destruct t as [kd n ch]. unfold heards. cbn [s_kind s_node].
  destruct (String.eqb_spec kd "identifier") as [->|_].
  { destruct (all_digits (text_of src n)) eqn:E; intros H; inversion H. constructor. now apply not_number. }
  destruct (String.eqb_spec kd "operator") as [->|_].
  { destruct (contains (text_of src n) "=") eqn:E; intros H; inversion H. apply has_eq in E. destruct E as (a & z & E). now apply HeEq with a z. }
  destruct (String.eqb_spec kd "keyword") as [->|_]; [|discriminate].
  destruct (existsb (String.eqb (text_of src n)) ["for"; "set"; "with"; "macro"; "block"]%string) eqn:E1; [intros H; inversion H; constructor; now apply mem_in|].
  destruct (existsb (String.eqb (text_of src n)) ["if"; "elif"; "else"; "filter"; "autoescape"; "raw"]%string) eqn:E2; [intros H; inversion H; constructor; now apply mem_in|].
  destruct (starts_with (text_of src n) "end") eqn:E3; intros H; inversion H. apply starts_with_iff in E3. destruct E3 as (z & E3). now apply HeEnd with z.
Qed.
Lemma hears_heards src t k : hears src t k -> heards src t <> None.
Proof.
  intros H. destruct H as [n ch H|n ch a z H|n ch H|n ch H|n ch z H]; unfold heards; cbn [s_kind s_node]; lits.
  - apply not_number in H. now rewrite H.
  - assert (X : contains (text_of src n) "=" = true) by (apply has_eq; eauto). now rewrite X.
  - cbn [In] in H. repeat destruct H as [<-|H]; try discriminate. destruct H.
  - cbn [In] in H. repeat destruct H as [<-|H]; try discriminate. destruct H.
  - rewrite H. destruct z; discriminate.
Qed.
Definition heard_list (src : string) (l : list stree) : list sign :=
  flat_map (fun t => match heards src t with Some k => [SgWord k (s_node t)] | None => [] end) l.
Lemma heard_of src l : heard src l (heard_list src l).
Proof.
  induction l as [|t l IH]; [constructor|]. unfold heard_list. cbn [flat_map]. fold (heard_list src l). destruct (heards src t) eqn:E; cbn [app].
  - constructor; [now apply heards_some|exact IH].
  - apply HdSilent; [|exact IH]. intros k H. apply hears_heards in H. contradiction.
Qed.
Definition innerb (l : list stree) : bool :=
  forallb (fun x => negb (existsb (String.eqb (s_kind x)) ["statement"; "statement_begin"; "statement_end"]%string)) l.
Lemma innerb_ok l : innerb l = true -> inner l.
Proof.
  unfold innerb, inner. rewrite forallb_forall, Forall_forall. intros H x Hx Hin. specialize (H x Hx). apply negb_true_iff in H. apply mem_in in Hin. congruence.
Qed.
(** A statement: its brackets and what is between them. *)
Fixpoint unsnoc {A} (l : list A) : option (list A * A) :=
  match l with
  | [] => None
  | x :: r => match unsnoc r with None => Some ([], x) | Some (a, y) => Some (x :: a, y) end
  end.
Lemma unsnoc_ok {A} (l a : list A) y : unsnoc l = Some (a, y) -> l = a ++ [y].
Proof.
  revert a y. induction l as [|x l IH]; intros a y; cbn [unsnoc]; [discriminate|]. destruct (unsnoc l) as [(a' & y')|] eqn:E; intros H; inversion H; subst.
  - cbn [app]. f_equal. now apply IH.
  - cbn. f_equal. destruct l; [reflexivity|]. cbn in E. destruct (unsnoc l) as [(? & ?)|]; discriminate.
Qed.
Definition as_statement (t : stree) : option (node * node * kids * node) :=
  match t with
  | SN k n ((_, SN kb b []) :: r) =>
      match unsnoc r with
      | Some (mid, (_, SN ke e [])) =>
          if String.eqb k "statement" && String.eqb kb "statement_begin" && String.eqb ke "statement_end" && innerb (flat_map (fun c => preorder (snd c)) mid)
          then Some (n, b, mid, e) else None
      | _ => None
      end
  | _ => None
  end.
Lemma as_statement_ok t n b mid e : as_statement t = Some (n, b, mid, e) ->
  inner (flat_map (fun c => preorder (snd c)) mid) /\
  exists f1 f2, t = SN "statement" n ((f1, SN "statement_begin" b []) :: mid ++ [(f2, SN "statement_end" e [])]).
Proof.
  destruct t as [k n0 [|(f1 & [kb b0 [|]]) r]]; cbn [as_statement]; try discriminate. destruct (unsnoc r) as [(mid0 & (f2 & [ke e0 [|]]))|] eqn:E; try discriminate.
  destruct (_ && innerb _) eqn:EB; [|discriminate]. rewrite !andb_true_iff, !String.eqb_eq in EB. destruct EB as (((-> & ->) & ->) & EB). intros H. inversion H; subst. split; [now apply innerb_ok|].
  apply unsnoc_ok in E. subst r. now exists f1, f2.
Qed.
Fixpoint told_list (src : string) (l : list stree) : option (list sign) :=
  match l with
  | [] => Some []
  | t :: r =>
      match told_list src r with
      | None => None
      | Some ss =>
          match as_statement t with
          | Some (n, b, mid, e) => Some (heard_list src (flat_map (fun c => preorder (snd c)) mid) ++ SgTail b e :: ss)
          | None => if innerb (preorder t) then Some (heard_list src (preorder t) ++ ss) else None
          end
      end
  end.
Lemma told_of src l ss : told_list src l = Some ss -> told src l ss.
Proof.
  revert ss. induction l as [|t l IH]; intros ss; cbn [told_list]; [intros H; inversion H; constructor|]. destruct (told_list src l) as [ss'|] eqn:E; [|discriminate].
  destruct (as_statement t) as [(((n & b) & mid) & e)|] eqn:ES.
  - intros H. inversion H; subst. apply as_statement_ok in ES. destruct ES as (HI & f1 & f2 & ->). apply TdStmt; [exact HI|apply heard_of|auto].
  - destruct (innerb (preorder t)) eqn:EI; intros H; inversion H; subst. apply TdOther; [now apply innerb_ok|apply heard_of|auto].
Qed.

(** ** Names handed to templates, Rust *)
Lemma in_order_l l f x g y : in_order l f x g y -> In (f, x) l.
Proof. intros (a & b & c & ->). apply in_or_app. right. now left. Qed.
Lemma in_order_r l f x g y : in_order l f x g y -> In (g, y) l.
Proof. intros (a & b & c & ->). apply in_or_app. right. right. apply in_or_app. right. now left. Qed.
Lemma handed_variable src t n : handed_rust src t n -> text_of src n <> "context"%string ->
  exists name, rust_variable src t n name /\ (name = text_of src n \/ name = unquoted (text_of src n)).
Proof.
  intros [(m & f1 & nm & f2 & tt & inr & f3 & x & Hm & _ & Ho & _ & _ & Hi & Hk & Hx & Hxk & ->)|(callee & f1 & f2 & args & f3 & obj & f4 & method & f5 & x & p & Hp & Ho & Hck & Hco & Hok & Hos & Hmk & Hms & Hak & Hx & Hxk & ->)] Hc.
  - eexists. split; [|left; reflexivity]. apply (RvToken src t inr f3 x); auto. apply preorder_trans with tt; [|exact Hi]. apply preorder_trans with m; [exact Hm|].
    eapply child_in. exact (in_order_r _ _ _ _ _ Ho).
  - eexists. split; [|right; reflexivity]. apply (RvAdd src t p f1 callee f2 args f3 obj f4 method f5 x); auto.
    exists EmptyString, (said src method), EmptyString. split; [exact Hms|]. change (said src method = (said src method ++ "")%string).
    generalize (said src method). intros w. induction w as [|c w IH]; [reflexivity|]. cbn. now rewrite <- IH.
Qed.
Lemma rust_complete parse edit F b uri (t : text) (s : lsp_files (ts_with parse edit)) tr :
  file_ext uri = Some Backend -> ls_query s <> PPython -> parse (ls_parser s) (encode t) (sget uri (ls_bt s)) = Some tr ->
  readable (encode t) tr -> told_apart tr -> no_error tr ->
  exists s' e vs, did_open F b uri t false s = Ok (s', Some [(uri, e)]) /\ sget uri (ls_vars s') = Some vs /\
    forall n, handed_rust (encode t) tr n -> text_of (encode t) n <> "context"%string ->
      exists v, In v vs /\ id_type v = BackendVariable /\ id_start v = n_start n /\ id_end v = n_end n /\
        (id_name v = text_of (encode t) n \/ id_name v = unquoted (text_of (encode t) n)).
Proof.
  intros Hx Hq Hp Hr Ht He. destruct (rust_file parse edit F b uri t s tr Hx Hq Hp Hr Ht He) as (s' & e & H & (vs & Hvs & HI) & _).
  exists s', e, vs. split; [exact H|]. split; [exact Hvs|]. intros n Hn Hc. destruct (handed_variable _ _ _ Hn Hc) as (name & Hv & Hname).
  exists (at_node BackendVariable n name). split; [apply HI; left; now exists n, name|]. auto.
Qed.

Lemma checked_templates parse edit F b uri (t : text) (s : lsp_files (ts_with parse edit)) tr :
  file_ext uri = Some Backend -> parse (ls_parser s) (encode t) (sget uri (ls_bt s)) = Some tr ->
  readable (encode t) tr -> told_apart tr -> no_error tr ->
  exists s' e, did_open F b uri t false s = Ok (s', Some [(uri, e)]) /\
    forall k i, In (k, i) e <->
      k = TemplateNotFound /\
      exists n, match ls_query s with PPython => python_loads | _ => rust_loads end (encode t) tr n /\
        i = at_node JinjaTemplate n (unquoted (text_of (encode t) n)) /\
        f_canon F (lookup_path (cf_templates (ls_config s)) (id_name i)) = CanonNotFound.
Proof.
  intros Hx Hp Hr Ht He. destruct (ls_query s) eqn:Eq.
  3: destruct (python_file parse edit F b uri t s tr Hx Eq Hp Hr Ht He) as (s' & e & H & _ & HE & _); exists s', e; auto.
  all: destruct (rust_file parse edit F b uri t s tr Hx ltac:(congruence) Hp Hr Ht He) as (s' & e & H & _ & HE & _); exists s', e; auto.
Qed.

(** ** Nodes that cover whole characters *)
Lemma length_app (a c : string) : String.length (a ++ c) = (String.length a + String.length c)%nat.
Proof. induction a as [|x a IH]; [reflexivity|]. cbn. now rewrite IH. Qed.
Lemma substring_mid (a m z : string) : String.substring (String.length a) (String.length m) (a ++ m ++ z) = m.
Proof. induction a as [|x a IH]; [exact (PObjects.substring_app m z)|]. cbn [String.length append String.substring]. exact IH. Qed.
Lemma characters_readable t tr : scalars t -> on_characters t tr -> readable (encode t) tr.
Proof.
  intros Hs H. unfold readable. eapply Forall_impl; [|exact H]. intros x (a & m & z & Et & Hb & He).
  unfold utf8_text, text_of. rewrite Hb, He, Et, !encode_app. unfold slen. rewrite !length_app.
  replace (_ && _) with true by lia. rewrite Nnat.Nat2N.id.
  replace (N.to_nat (N.of_nat (String.length (encode a) + String.length (encode m)) - N.of_nat (String.length (encode a)))) with (String.length (encode m)) by lia.
  rewrite substring_mid. rewrite valid_encode; [reflexivity|]. subst t. apply Forall_app in Hs. destruct Hs as (_ & Hs). now apply Forall_app in Hs.
Qed.
Lemma rust_file_c parse edit F b uri t (s : lsp_files (ts_with parse edit)) tr :
  file_ext uri = Some Backend -> ls_query s <> PPython ->
  parse (ls_parser s) (encode t) (sget uri (ls_bt s)) = Some tr ->
  scalars t -> on_characters t tr -> told_apart tr -> no_error tr ->
  exists s' e, did_open F b uri t false s = Ok (s', Some [(uri, e)]) /\
    backend_known F uri s s' e (encode t) (rust_variable (encode t) tr) (rust_loads (encode t) tr).
Proof. intros Hx Hq Hp Hs Hc Ht He. apply rust_file; auto. now apply characters_readable. Qed.
Lemma python_file_c parse edit F b uri t (s : lsp_files (ts_with parse edit)) tr :
  file_ext uri = Some Backend -> ls_query s = PPython ->
  parse (ls_parser s) (encode t) (sget uri (ls_bt s)) = Some tr ->
  scalars t -> on_characters t tr -> told_apart tr -> no_error tr ->
  exists s' e, did_open F b uri t false s = Ok (s', Some [(uri, e)]) /\
    backend_known F uri s s' e (encode t) (python_variable (encode t) tr) (python_loads (encode t) tr).
Proof. intros Hx Hq Hp Hs Hc Ht He. apply python_file; auto. now apply characters_readable. Qed.
Lemma rust_complete_c parse edit F b uri t (s : lsp_files (ts_with parse edit)) tr :
  file_ext uri = Some Backend -> ls_query s <> PPython ->
  parse (ls_parser s) (encode t) (sget uri (ls_bt s)) = Some tr ->
  scalars t -> on_characters t tr -> told_apart tr -> no_error tr ->
  exists s' e vs, did_open F b uri t false s = Ok (s', Some [(uri, e)]) /\ sget uri (ls_vars s') = Some vs /\
    forall n, handed_rust (encode t) tr n -> text_of (encode t) n <> "context"%string ->
      exists v, In v vs /\ id_type v = BackendVariable /\ id_start v = n_start n /\ id_end v = n_end n /\
        (id_name v = text_of (encode t) n \/ id_name v = unquoted (text_of (encode t) n)).
Proof. intros Hx Hq Hp Hs Hc Ht He. apply rust_complete; auto. now apply characters_readable. Qed.
Lemma checked_templates_c parse edit F b uri t (s : lsp_files (ts_with parse edit)) tr :
  file_ext uri = Some Backend ->
  parse (ls_parser s) (encode t) (sget uri (ls_bt s)) = Some tr ->
  scalars t -> on_characters t tr -> told_apart tr -> no_error tr ->
  exists s' e, did_open F b uri t false s = Ok (s', Some [(uri, e)]) /\
    forall k i, In (k, i) e <->
      k = TemplateNotFound /\
      exists n, match ls_query s with PPython => python_loads | _ => rust_loads end (encode t) tr n /\
        i = at_node JinjaTemplate n (unquoted (text_of (encode t) n)) /\
        f_canon F (lookup_path (cf_templates (ls_config s)) (id_name i)) = CanonNotFound.
Proof. intros Hx Hp Hs Hc Ht He. apply checked_templates; auto. now apply characters_readable. Qed.

(** For ASCII texts it is enough that the nodes lie inside. *)
Lemma ascii_length t : Forall (fun c => c < 128) t -> slen (encode t) = N.of_nat (length t).
Proof.
  unfold slen. induction 1 as [|c t Hc _ IH]; [reflexivity|]. change (c :: t) with ([c] ++ t). rewrite encode_app, length_app.
  replace (String.length (encode [c])) with 1%nat; [cbn [app length]; lia|]. unfold encode, encode_bytes. cbn [flat_map]. rewrite app_nil_r.
  unfold encode_char. replace (c <? 128) with true by lia. reflexivity.
Qed.
Lemma ascii_characters t tr : Forall (fun c => c < 128) t ->
  Forall (fun x => n_sb (s_node x) <= n_eb (s_node x) /\ n_eb (s_node x) <= N.of_nat (length t)) (preorder tr) -> on_characters t tr.
Proof.
  intros Ht H. unfold on_characters. eapply Forall_impl; [|exact H]. intros x (H1 & H2). set (a := N.to_nat (n_sb (s_node x))). set (z := N.to_nat (n_eb (s_node x))).
  exists (firstn a t), (firstn (z - a) (skipn a t)), (skipn (z - a) (skipn a t)). rewrite !firstn_skipn. split; [reflexivity|].
  assert (Hf : forall k, (k <= length t)%nat -> slen (encode (firstn k t)) = N.of_nat k).
  { intros k Hk. rewrite ascii_length; [rewrite firstn_length; lia|]. apply Forall_forall. intros c Hc. rewrite Forall_forall in Ht. apply Ht. rewrite <- (firstn_skipn k t). apply in_or_app. now left. }
  split; [rewrite Hf; lia|]. rewrite ascii_length; [rewrite app_length, !firstn_length, skipn_length; lia|].
  apply Forall_app. rewrite Forall_forall in Ht. split; apply Forall_forall; intros c Hc; apply Ht.
  - rewrite <- (firstn_skipn a t). apply in_or_app. now left.
  - rewrite <- (firstn_skipn a t). apply in_or_app. right. rewrite <- (firstn_skipn (z - a) (skipn a t)). apply in_or_app. now left.
Qed.
