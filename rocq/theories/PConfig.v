(** * PConfig: proofs about classification, configuration and indexing. *)
From Verif Require Import Base RString Utf8 Rope Types Captures.
From Verif Require Import MDefinition MObjects MTemplates MSearchErrors MLspFiles MLspTask.
From Verif Require Import SpecText SpecFiles SpecConfig PText PUtf8 PFiles SpecScope PScope SpecObjects PObjects PLint PLint3 SpecOrder POrder.

(** ** Classification *)
Lemma free_slash s : free_of "/" s <-> no_slash s.
Proof. reflexivity. Qed.
Definition kept (s : string) : bool := negb (String.eqb s "") && negb (String.eqb s ".").
Definition segs (p : string) : list string := filter kept (split_char slash p).
Lemma segs_path p : path_segments p = segs p.
Proof. reflexivity. Qed.

Lemma split_app a b : split_char slash (a ++ String slash b) = split_char slash a ++ split_char slash b.
Proof.
  induction a as [|x a IH]; [reflexivity|]. cbn [append split_char].
  destruct (Ascii.eqb x slash); [now rewrite IH|]. rewrite IH.
  destruct (split_char slash a) as [|p ps] eqn:E; [exfalso; now apply (split_ne slash a)|]. reflexivity.
Qed.
Lemma segs_app a b : segs (a ++ String slash b) = segs a ++ segs b.
Proof. unfold segs. now rewrite split_app, filter_app. Qed.
Lemma segs_trailing a t : trailing t -> segs (a ++ t) = segs a.
Proof.
  intros H. revert a. induction H as [|t H IH|t H IH]; intros a.
  - now rewrite append_nil_r.
  - change ("/" ++ t)%string with (String slash t). rewrite segs_app.
    pose proof (IH EmptyString) as E. cbn [append] in E. rewrite E. cbn. now rewrite app_nil_r.
  - change ("/." ++ t)%string with (String slash ("." ++ t)). rewrite segs_app.
    pose proof (IH "."%string) as E. rewrite E. cbn. now rewrite app_nil_r.
Qed.
Lemma segs_one f : no_slash f -> segs f = filter kept [f].
Proof. intros H. unfold segs. now rewrite split_no_slash_one. Qed.
Lemma last_opt_snoc {A} (l : list A) x : last_opt (l ++ [x]) = Some x.
Proof.
  induction l as [|y l IH]; [reflexivity|]. cbn [app]. destruct (l ++ [x]) eqn:E; [now destruct l|].
  cbn [last_opt] in *. exact IH.
Qed.
Lemma last_opt_Some {A} (l : list A) x : last_opt l = Some x -> exists l', l = l' ++ [x].
Proof.
  induction l as [|y l IH]; [discriminate|]. destruct l as [|z l]; cbn [last_opt].
  - intros H. inversion H; subst. now exists [].
  - intros H. destruct (IH H) as (l' & ->). now exists (y :: l').
Qed.
Lemma kept_iff f : kept f = true <-> f <> ""%string /\ f <> "."%string.
Proof.
  unfold kept. rewrite andb_true_iff, !negb_true_iff, !String.eqb_neq. reflexivity.
Qed.
Lemma base_name_last p f : base_name p f -> last_opt (segs p) = Some f.
Proof.
  intros (pre & post & -> & Hp & Ht & Hf & N1 & N2 & N3).
  rewrite <- append_assoc. rewrite segs_trailing by exact Ht.
  assert (Hk : segs f = [f]).
  { rewrite segs_one by exact Hf. cbn. now rewrite (proj2 (kept_iff f) (conj N1 N2)). }
  destruct Hp as [->|(q & ->)].
  - cbn [append]. now rewrite Hk.
  - rewrite append_assoc. change ("/" ++ f)%string with (String slash f). rewrite segs_app, Hk. apply last_opt_snoc.
Qed.
(** Every list of parts splits at its last kept part. *)
Lemma last_kept l f : last_opt (filter kept l) = Some f ->
  exists a b, l = a ++ f :: b /\ kept f = true /\ Forall (fun x => kept x = false) b.
Proof.
  induction l as [|x l IH] using rev_ind; [discriminate|].
  rewrite filter_app. cbn [filter]. destruct (kept x) eqn:E.
  - rewrite last_opt_snoc. intros H. inversion H; subst. exists l, []. repeat split; auto.
  - rewrite app_nil_r. intros H. destruct (IH H) as (a & b & -> & Hk & Hb). exists a, (b ++ [x]).
    split; [now rewrite <- app_assoc|]. split; [exact Hk|]. apply Forall_app. split; [exact Hb|]. now constructor.
Qed.
Lemma concat_app_ne a b : a <> [] -> b <> [] ->
  String.concat "/" (a ++ b) = (String.concat "/" a ++ "/" ++ String.concat "/" b)%string.
Proof.
  induction a as [|x a IH]; intros Ha Hb; [easy|]. destruct a as [|y a].
  - cbn [app]. now rewrite concat_cons.
  - change ((x :: y :: a) ++ b) with (x :: ((y :: a) ++ b)). rewrite (concat_cons x) by discriminate.
    rewrite IH by (assumption || discriminate). rewrite (concat_cons x) by discriminate. now rewrite !append_assoc.
Qed.
Lemma trailing_parts b : Forall (fun x => kept x = false) b -> b <> [] ->
  trailing ("/" ++ String.concat "/" b).
Proof.
  induction b as [|x b IH]; intros H Hb; [easy|]. inversion H as [|? ? Hx Hr]; subst.
  assert (Ex : x = ""%string \/ x = "."%string).
  { destruct (string_dec x ""); [now left|]. destruct (string_dec x "."); [now right|].
    exfalso. rewrite (proj2 (kept_iff x)) in Hx by now split. discriminate. }
  destruct b as [|y b].
  - cbn [String.concat]. destruct Ex as [->| ->].
    + apply (tr_slash ""). constructor.
    + apply (tr_dot ""). constructor.
  - rewrite concat_cons by discriminate. specialize (IH Hr ltac:(discriminate)).
    destruct Ex as [->| ->].
    + cbn [append]. apply (tr_slash _ IH).
    + apply (tr_dot _ IH).
Qed.
Lemma last_base_name p f : last_opt (segs p) = Some f -> f <> ".."%string -> base_name p f.
Proof.
  intros H N3. unfold segs in H. apply last_kept in H. destruct H as (a & b & E & Hk & Hb).
  apply kept_iff in Hk. destruct Hk as (N1 & N2).
  pose proof (concat_split p) as C. rewrite E in C.
  assert (Hf : no_slash f).
  { pose proof (split_no_slash p) as HF. rewrite E in HF. apply Forall_app in HF. destruct HF as (_ & HF). now inversion HF. }
  exists (match a with [] => ""%string | _ => (String.concat "/" a ++ "/")%string end),
         (match b with [] => ""%string | _ => ("/" ++ String.concat "/" b)%string end).
  split; [|split; [|split; [|repeat split; assumption]]].
  - rewrite <- C. destruct a as [|x a].
    + cbn [app append]. destruct b as [|y b]; [cbn [String.concat]; now rewrite append_nil_r|].
      rewrite concat_cons by discriminate. reflexivity.
    + rewrite concat_app_ne by discriminate. rewrite !append_assoc. f_equal. f_equal.
      destruct b as [|y b]; [cbn [String.concat]; now rewrite append_nil_r|].
      rewrite concat_cons by discriminate. reflexivity.
  - destruct a; [now left|right; eauto].
  - destruct b as [|y b]; [constructor|]. now apply trailing_parts.
Qed.
Lemma file_name_base p f : file_name p = Some f <-> base_name p f.
Proof.
  unfold file_name. rewrite segs_path. split.
  - destruct (last_opt (segs p)) as [x|] eqn:E; [|discriminate]. destruct (String.eqb x "..") eqn:Ex; [discriminate|].
    intros H. inversion H; subst. apply last_base_name; [exact E|now apply String.eqb_neq].
  - intros H. pose proof (base_name_last p f H) as E. rewrite E.
    destruct H as (pre & post & _ & _ & _ & _ & _ & _ & N3). apply String.eqb_neq in N3. now rewrite N3.
Qed.
Lemma rsplit_dot_none s : rsplit_dot s = None <-> free_of "." s.
Proof.
  unfold free_of. induction s as [|a s IH]; cbn [rsplit_dot list_ascii_of_string In]; [tauto|].
  destruct (rsplit_dot s) as [[b e]|].
  - split; [discriminate|]. intros H. exfalso. apply H. right.
    destruct (in_dec ascii_dec "."%char (list_ascii_of_string s)) as [i|i]; [exact i|]. apply IH in i. discriminate.
  - destruct (Ascii.eqb a dot) eqn:E.
    + apply Ascii.eqb_eq in E. split; [discriminate|]. intros H. exfalso. apply H. now left.
    + apply Ascii.eqb_neq in E. split; [|reflexivity]. intros _ [H|H]; [now apply E|]. now apply IH in H.
Qed.
Lemma rsplit_dot_some s b e : rsplit_dot s = Some (b, e) <-> s = (b ++ "." ++ e)%string /\ free_of "." e.
Proof.
  split.
  - revert b e. induction s as [|a s IH]; intros b e; cbn [rsplit_dot]; [discriminate|].
    destruct (rsplit_dot s) as [[b' e']|] eqn:E.
    + intros H. inversion H; subst. destruct (IH b' e eq_refl) as (-> & Hf). split; [reflexivity|exact Hf].
    + destruct (Ascii.eqb a dot) eqn:Ea; [|discriminate]. intros H. inversion H; subst.
      apply Ascii.eqb_eq in Ea. subst a. split; [reflexivity|]. now apply rsplit_dot_none.
  - intros (-> & Hf). induction b as [|a b IH].
    + cbn [append]. change (String "." ("" ++ e))%string with (String dot e). cbn [rsplit_dot].
      apply rsplit_dot_none in Hf. now rewrite Hf.
    + cbn [append rsplit_dot]. cbn [append] in IH. now rewrite IH.
Qed.
Lemma path_extension_spec p e : path_extension p = Some e <-> exists f, base_name p f /\ has_ext f e.
Proof.
  unfold path_extension. split.
  - destruct (file_name p) as [f|] eqn:Ef; [|discriminate]. destruct (rsplit_dot f) as [[b x]|] eqn:Er; [|discriminate].
    destruct (String.eqb b "") eqn:Eb; [discriminate|]. intros H. inversion H; subst.
    exists f. split; [now apply file_name_base|]. apply rsplit_dot_some in Er. destruct Er as (-> & Hf).
    exists b. split; [reflexivity|]. split; [now apply String.eqb_neq|exact Hf].
  - intros (f & Hb & stem & -> & Hs & He). apply file_name_base in Hb. rewrite Hb.
    rewrite (proj2 (rsplit_dot_some _ stem e)) by (split; [reflexivity|exact He]).
    apply String.eqb_neq in Hs. now rewrite Hs.
Qed.
Lemma file_ext_spec p l : file_ext p = Some l <-> classified p l.
Proof.
  unfold file_ext, classified. split.
  - destruct (path_extension p) as [e|] eqn:E; [|discriminate]. apply path_extension_spec in E.
    destruct E as (f & Hb & He). intros H. exists f, e. split; [exact Hb|]. split; [exact He|].
    unfold str_mem in H. cbn [existsb] in H.
    destruct (String.eqb_spec e "html"); [inversion H; subst; auto|].
    destruct (String.eqb_spec e "jinja"); [inversion H; subst; auto|].
    destruct (String.eqb_spec e "j2"); [inversion H; subst; auto|].
    destruct (String.eqb_spec e "rs"); [inversion H; subst; auto|].
    destruct (String.eqb_spec e "py"); [inversion H; subst; auto|]. discriminate.
  - intros (f & e & Hb & He & Hl). rewrite (proj2 (path_extension_spec p e)) by eauto.
    destruct l; intuition (subst; reflexivity).
Qed.

(** ** Configuration *)
Lemma set_user_spec c0 c : user_config c0 c <-> c = set_user c0.
Proof.
  unfold user_config, set_user. destruct c as [a b l u h], c0 as [a0 b0 l0 u0 h0]; cbn.
  split; [intros (-> & -> & -> & -> & ->); reflexivity|intros H; inversion H; auto].
Qed.
Lemma search_in_some F files c : search_config_in F files = Some c -> first_of F files c.
Proof.
  induction files as [|f files IH]; [discriminate|]. cbn [search_config_in].
  assert (Hskip : (forall c', ~ file_gives F f c') -> search_config_in F files = Some c -> first_of F (f :: files) c).
  { intros Hno H. destruct (IH H) as (a & g & r & -> & Hg & Hb). exists (f :: a), g, r.
    split; [reflexivity|]. split; [exact Hg|]. intros x c' [<-|Hx]; [apply Hno|now apply Hb]. }
  destruct (f_read F f) as [t|] eqn:Er.
  2:{ apply Hskip. intros c' (t & c0 & E & _). congruence. }
  destruct t as [|x t].
  { apply Hskip. intros c' (t & c0 & E & N & _). congruence. }
  destruct (f_toml F (encode (x :: t))) as [c0|] eqn:Et.
  - intros H. inversion H; subst. exists [], f, files. split; [reflexivity|]. split; [|intros g c' []].
    exists (x :: t), c0. split; [exact Er|]. split; [discriminate|]. split; [exact Et|now apply set_user_spec].
  - apply Hskip. intros c' (t' & c0 & E & N & E2 & _). rewrite Er in E. inversion E; subst. congruence.
Qed.
Lemma search_in_none F files : search_config_in F files = None -> forall f c', In f files -> ~ file_gives F f c'.
Proof.
  induction files as [|g files IH]; [intros _ f c' []|]. cbn [search_config_in].
  assert (Hskip : (forall c', ~ file_gives F g c') -> search_config_in F files = None ->
                  forall f c', In f (g :: files) -> ~ file_gives F f c').
  { intros Hno H f c' [<-|Hf]; [apply Hno|now apply IH]. }
  destruct (f_read F g) as [t|] eqn:Er.
  2:{ apply Hskip. intros c' (t & c0 & E & _). congruence. }
  destruct t as [|x t].
  { apply Hskip. intros c' (t & c0 & E & N & _). congruence. }
  destruct (f_toml F (encode (x :: t))) as [c0|] eqn:Et; [discriminate|].
  apply Hskip. intros c' (t' & c0 & E & N & E2 & _). rewrite Er in E. inversion E; subst. congruence.
Qed.
Lemma init_config_chosen F opts old : chosen F opts old (init_config F opts old).
Proof.
  unfold chosen, init_config, search_config.
  assert (H : forall o : option (option config), o = None \/ o = Some None ->
    ((o = None \/ o = Some None) /\ first_of F searched (match search_config_in F config_files with Some c => c | None => old end)) \/
    ((o = None \/ o = Some None) /\ (forall f c', In f searched -> ~ file_gives F f c') /\
       match search_config_in F config_files with Some c => c | None => old end = old)).
  { intros o Ho. destruct (search_config_in F config_files) as [c|] eqn:E.
    - left. split; [exact Ho|]. now apply search_in_some.
    - right. split; [exact Ho|]. split; [|reflexivity]. now apply search_in_none. }
  destruct opts as [[c|]|].
  - left. exists c. split; [reflexivity|]. now apply set_user_spec.
  - right. apply H. now right.
  - right. apply H. now left.
Qed.
Lemma user_config_fun c0 c c' : user_config c0 c -> user_config c0 c' -> c = c'.
Proof. rewrite !set_user_spec. congruence. Qed.
Lemma file_gives_fun F f c c' : file_gives F f c -> file_gives F f c' -> c = c'.
Proof.
  intros (t & c0 & E1 & _ & E2 & U) (t' & c0' & E1' & _ & E2' & U').
  rewrite E1 in E1'. inversion E1'; subst. rewrite E2 in E2'. inversion E2'; subst. eapply user_config_fun; eauto.
Qed.
Lemma first_of_fun F files c c' : first_of F files c -> first_of F files c' -> c = c'.
Proof.
  intros (a & f & r & E & G & N) (a' & f' & r' & E' & G' & N'). revert a' E' N'. subst files.
  induction a as [|x a IH]; intros [|y a'] E' N'; cbn in E'.
  - inversion E'; subst. eapply file_gives_fun; eauto.
  - inversion E'; subst. exfalso. eapply N'; [now left|exact G].
  - inversion E'; subst. exfalso. eapply N; [now left|exact G'].
  - inversion E'; subst. apply (IH ltac:(intros g c0 Hg; apply N; now right) a'); [assumption|].
    intros g c0 Hg. apply N'. now right.
Qed.
Lemma chosen_fun F opts old c c' : chosen F opts old c -> chosen F opts old c' -> c = c'.
Proof.
  assert (X : forall a, first_of F searched a -> (forall f c', In f searched -> ~ file_gives F f c') -> False).
  { intros a (pre & f & post & E & G & _) N. apply (N f a); [rewrite E; apply in_or_app; right; now left|exact G]. }
  intros [(c0 & -> & U)|[(O & G)|(O & N & ->)]] [(c1 & E & U')|[(O' & G')|(O' & N' & ->)]];
    try (destruct O; subst; discriminate); try (destruct O'; subst; discriminate); try reflexivity.
  - inversion E; subst. eapply user_config_fun; eauto.
  - eapply first_of_fun; eauto.
  - exfalso. eapply X; eauto.
  - exfalso. eapply X; eauto.
Qed.

(** ** Indexing *)
Section Index.
Context {T : ts}.
Implicit Types s : lsp_files T.

Lemma walk_entries_app F a b : forall s,
  walk_entries F (a ++ b) s =
    (r <- walk_entries F a s;; match r with None => Ok None | Some s' => walk_entries F b s' end).
Proof.
  induction a as [|e a IH]; intros s; [reflexivity|]. cbn [app].
  destruct e as [|p|p]; cbn [walk_entries]; [reflexivity| |apply IH].
  destruct (file_ext p); [|apply IH]. destruct (read_file F p l s) as [s1|]; [|reflexivity]. cbn [bind]. apply IH.
Qed.
Lemma walk_dirs_flat F ds : forall s, walk_dirs F ds s = walk_entries F (flat_map (f_walk F) ds) s.
Proof.
  induction ds as [|d ds IH]; intros s; [reflexivity|]. cbn [walk_dirs flat_map]. rewrite walk_entries_app.
  destruct (walk_entries F (f_walk F d) s) as [[s1|]|]; cbn [bind]; [apply IH|reflexivity|reflexivity].
Qed.
Lemma walk_entries_err F es : forall s, walk_entries F es s = Ok None -> In WErr es.
Proof.
  induction es as [|e es IH]; intros s H; [discriminate|].
  destruct e as [|p|p]; cbn [walk_entries] in H; [now left| |right; eauto].
  destruct (file_ext p); [|right; eauto]. destruct (read_file F p l s) as [s1|]; [|discriminate].
  cbn [bind] in H. right; eauto.
Qed.
Lemma walk_entries_no_err F es : forall s s', walk_entries F es s = Ok (Some s') -> ~ In WErr es.
Proof.
  induction es as [|e es IH]; intros s s' H; [intros []|].
  destruct e as [|p|p]; cbn [walk_entries] in H; [discriminate| |].
  - destruct (file_ext p); [|intros [|Hi]; [discriminate|eapply IH; eauto]].
    destruct (read_file F p l s) as [s1|]; [|discriminate]. cbn [bind] in H.
    intros [|Hi]; [discriminate|eapply IH; eauto].
  - intros [|Hi]; [discriminate|eapply IH; eauto].
Qed.

(** The parts of the state that indexing does not touch. *)
Definition same_rest s s' : Prop :=
  ls_parser s' = ls_parser s /\ ls_query s' = ls_query s /\ ls_config s' = ls_config s /\
  ls_task s' = ls_task s /\ ls_chan s' = ls_chan s /\ ls_vscode s' = ls_vscode s /\ ls_ignore s' = ls_ignore s.

Definition done (l : list wentry) : wentry -> Prop := fun e => In e l.
Lemma file_uri_inj a b : file_uri a = file_uri b -> a = b.
Proof. unfold file_uri. cbn. intros H. now inversion H. Qed.
Lemma on_disk_mono F (P Q : wentry -> Prop) uri t l :
  (forall e, P e -> Q e) -> on_disk F P uri t l -> on_disk F Q uri t l.
Proof. intros H (p & n & H1 & H2 & H3 & H4 & H5). exists p, n. auto. Qed.
Lemma on_disk_text F P Q uri t t' l l' : on_disk F P uri t l -> on_disk F Q uri t' l' -> t = t'.
Proof.
  intros (p & n & _ & _ & _ & R & E) (p' & n' & _ & _ & _ & R' & E'). subst uri.
  apply file_uri_inj in E'. subst. congruence.
Qed.
Lemma on_disk_skip F es e uri t l :
  (forall p, e = WFile p -> forall l, ~ classified p l) ->
  on_disk F (done (es ++ [e])) uri t l <-> on_disk F (done es) uri t l.
Proof.
  intros H. split.
  - intros (p & n & Hi & Hc & R). exists p, n. split; [|split; [exact Hc|exact R]].
    unfold done in *. apply in_app_or in Hi. destruct Hi as [Hi|[Hi|[]]]; [exact Hi|]. exfalso. now apply (H p Hi l).
  - apply on_disk_mono. intros x Hx. apply in_or_app. now left.
Qed.
Lemma on_disk_snoc F es p uri t l :
  on_disk F (done (es ++ [WFile p])) uri t l <->
  on_disk F (done es) uri t l \/
  (classified p l /\ exists name, f_canon F p = CanonOk name /\ f_read F name = Some t /\ uri = file_uri name).
Proof.
  split.
  - intros (q & n & Hi & Hc & R). unfold done in Hi. apply in_app_or in Hi. destruct Hi as [Hi|[Hi|[]]].
    + left. exists q, n. split; [exact Hi|split; [exact Hc|exact R]].
    + inversion Hi; subst. right. split; [exact Hc|]. exists n. exact R.
  - intros [H|(Hc & n & R)].
    + eapply on_disk_mono; [|exact H]. intros x Hx. apply in_or_app. now left.
    + exists p, n. split; [apply in_or_app; right; now left|split; [exact Hc|exact R]].
Qed.
Lemma classified_fun p l l' : classified p l -> classified p l' -> l = l'.
Proof. rewrite <- !file_ext_spec. congruence. Qed.
Lemma indexed_ext F lang (P Q : wentry -> Prop) s :
  (forall uri t l, on_disk F P uri t l <-> on_disk F Q uri t l) ->
  indexed F lang P s -> indexed F lang Q s.
Proof.
  intros H I. constructor.
  - intros uri t. rewrite (ix_docs _ _ _ _ I). split; intros (l & Hl); exists l; now apply H.
  - intros l uri. rewrite (ix_tree _ _ _ _ I). split; intros (t & Hl); exists t; now apply H.
  - intros l uri tr Ht. destruct (ix_parsed _ _ _ _ I l uri tr Ht) as (t & old & Hd & E). exists t, old. split; [now apply H|exact E].
  - intros uri vs Hv. destruct (ix_vars _ _ _ _ I uri vs Hv) as (l & t & old & tr & Hd & R). exists l, t, old, tr. split; [now apply H|exact R].
  - intros uri t l Hd. apply H in Hd. exact (ix_analysed _ _ _ _ I uri t l Hd).
  - exact (ix_actions _ _ _ _ I).
Qed.

Lemma trees_of_other_lang l l' m s : l <> l' -> trees_of l (set_trees l' m s) = trees_of l s.
Proof. destruct l, l'; easy. Qed.

Lemma read_file_indexed F lang es p l s s' :
  parse_total T -> ls_parser s = lang -> ls_query s = lang -> classified p l ->
  indexed F lang (done es) s -> read_file F p l s = Ok s' ->
  indexed F lang (done (es ++ [WFile p])) s' /\ same_rest s s'.
Proof.
  intros Hp Hlang Hq Hc I H. unfold read_file in H.
  assert (Hnone : (forall name t, f_canon F p = CanonOk name -> f_read F name <> Some t) ->
    indexed F lang (done (es ++ [WFile p])) s).
  { intros Hno. eapply indexed_ext; [|exact I]. intros uri t l'. rewrite on_disk_snoc. split; [tauto|].
    intros [H1|(_ & n & E1 & E2 & _)]; [exact H1|]. exfalso. now apply (Hno n t). }
  assert (Hrefl : same_rest s s) by (repeat split).
  destruct (f_canon F p) as [name| |] eqn:Ec; try (inversion H; subst; split; [apply Hnone; discriminate|exact Hrefl]).
  destruct (f_read F name) as [t|] eqn:Er.
  2:{ inversion H; subst. split; [|exact Hrefl]. apply Hnone. intros n t E. inversion E; subst. congruence. }
  clear Hnone Hrefl. set (uri := file_uri name) in *. set (s1 := set_docs (sinsert uri t (ls_docs s)) s) in *.
  unfold add_tree in H. destruct (parse s1 l (encode t) (sget uri (trees_of l s1))) as [tr|] eqn:Ep.
  2:{ unfold parse in Ep. now apply Hp in Ep. }
  set (s2 := set_trees l (sinsert uri tr (trees_of l s1)) s1) in *.
  assert (Hpar : t_parse T (parser_of lang l) (encode t) (sget uri (trees_of l s1)) = Some tr).
  { unfold parse in Ep. unfold parser_of. rewrite <- Hlang. exact Ep. }
  assert (Hq2 : ls_query s2 = lang) by (unfold s2, s1; destruct l; exact Hq).
  assert (Hnew : on_disk F (done (es ++ [WFile p])) uri t l).
  { apply on_disk_snoc. right. split; [exact Hc|]. exists name. repeat split; assumption. }
  assert (Hold : forall u x y, on_disk F (done es) u x y -> on_disk F (done (es ++ [WFile p])) u x y).
  { intros u x y Hd. apply on_disk_snoc. now left. }
  assert (Hinv : forall u x y, on_disk F (done (es ++ [WFile p])) u x y ->
                   on_disk F (done es) u x y \/ (u = uri /\ x = t /\ y = l)).
  { intros u x y Hd. apply on_disk_snoc in Hd. destruct Hd as [Hd|(Hc' & n & E1 & E2 & E3)]; [now left|]. right.
    rewrite Ec in E1. inversion E1; subst n. rewrite Er in E2. inversion E2; subst x. split; [exact E3|].
    split; [reflexivity|]. eapply classified_fun; eauto. }
  (* the documents and trees after loading, before the analysis *)
  assert (Dget : forall u, u <> uri -> sget u (ls_docs s2) = sget u (ls_docs s)).
  { intros u Hu. unfold s2, s1. rewrite set_trees_docs. cbn [ls_docs set_docs]. now apply sget_sinsert_other. }
  assert (Dnew : sget uri (ls_docs s2) = Some t).
  { unfold s2, s1. rewrite set_trees_docs. cbn [ls_docs set_docs]. apply sget_sinsert_same. }
  assert (Tget : forall l' u, (l' <> l \/ u <> uri) -> sget u (trees_of l' s2) = sget u (trees_of l' s)).
  { intros l' u Hu. unfold s2. destruct (match l', l with Template, Template | Backend, Backend => true | _, _ => false end) eqn:El.
    - assert (l' = l) by (destruct l', l; easy). subst l'. destruct Hu as [Hu|Hu]; [easy|].
      rewrite trees_of_set_same. rewrite sget_sinsert_other by exact Hu. unfold s1. now rewrite set_docs_trees.
    - rewrite trees_of_other_lang by (destruct l', l; easy). unfold s1. now rewrite set_docs_trees. }
  assert (Tnew : sget uri (trees_of l s2) = Some tr) by (unfold s2; rewrite trees_of_set_same; apply sget_sinsert_same).
  assert (V2 : ls_vars s2 = ls_vars s) by (unfold s2, s1; destruct l; reflexivity).
  assert (A2 : ls_actions s2 = ls_actions s) by (unfold s2, s1; destruct l; reflexivity).
  assert (R2 : same_rest s s2) by (unfold s2, s1; destruct l; repeat split).
  (* what the analysis may do *)
  assert (HA : (s' = s2 /\ l = Template /\ has_syntax_error T tr (encode t)) \/
               exists vs, variables_of T lang l tr (encode t) vs /\
                 s' = set_actions (sinsert uri [] (ls_actions s2)) (set_vars (sinsert uri vs (ls_vars s2)) s2)).
  { unfold add_variables in H. rewrite Tnew, Hq2 in H. destruct l.
    - destruct (snippets_query (t_captures T QSnippets tr (encode t)) pt0 true) as [sn|] eqn:Es; cbn [bind] in H; [|discriminate].
      destruct (sn_error sn) eqn:En.
      + left. inversion H; subst. split; [reflexivity|]. split; [reflexivity|]. exists sn. split; assumption.
      + destruct (definition_query _ _ _ _ _) as [d|] eqn:Ed; cbn [bind] in H; [|discriminate].
        right. exists (def_identifiers d). split; [exists d; split; [exact Ed|reflexivity]|]. now inversion H.
    - destruct (backend_definition_query _ _ _ _) as [ids|] eqn:Ed; cbn [bind] in H; [|discriminate].
      destruct (backend_templates_query _ _ _ _) as [tpl|] eqn:Et; cbn [bind] in H; [|discriminate].
      right. exists (ids ++ bt_templates tpl). split; [exists ids, tpl; repeat split; assumption|]. now inversion H. }
  assert (D' : ls_docs s' = ls_docs s2) by (destruct HA as [(-> & _)|(vs & _ & ->)]; reflexivity).
  assert (T' : forall l', trees_of l' s' = trees_of l' s2) by (destruct HA as [(-> & _)|(vs & _ & ->)]; intros []; reflexivity).
  assert (R' : same_rest s s').
  { destruct R2 as (r1 & r2 & r3 & r4 & r5 & r6 & r7). destruct HA as [(-> & _)|(vs & _ & ->)]; repeat split; assumption. }
  split; [|exact R'].
  assert (Vother : forall u, u <> uri -> sget u (ls_vars s') = sget u (ls_vars s)).
  { intros u Hu. destruct HA as [(-> & _)|(vs & _ & ->)]; [now rewrite V2|]. cbn [ls_vars set_actions set_vars].
    rewrite V2. now apply sget_sinsert_other. }
  constructor.
  - intros u x. rewrite D'. destruct (string_dec u uri) as [->|Hu].
    + rewrite Dnew. split.
      * intros E. inversion E; subst. eauto.
      * intros (l' & Hd). f_equal. eapply on_disk_text; [exact Hnew|exact Hd].
    + rewrite Dget by exact Hu. rewrite (ix_docs _ _ _ _ I). split; intros (l' & Hd); exists l'.
      * now apply Hold.
      * destruct (Hinv _ _ _ Hd) as [Hd'|(E & _)]; [exact Hd'|now subst].
  - intros l' u. rewrite T'.
    destruct (string_dec u uri) as [->|Hu]; [destruct (match l', l with Template, Template | Backend, Backend => true | _, _ => false end) eqn:El|].
    + assert (l' = l) by (destruct l', l; easy). subst l'. split; [eauto|]. intros _. eauto.
    + assert (Hl : l' <> l) by (destruct l', l; easy). rewrite Tget by now left. rewrite (ix_tree _ _ _ _ I).
      split; intros (x & Hd); exists x; [now apply Hold|]. destruct (Hinv _ _ _ Hd) as [Hd'|(_ & _ & E)]; [exact Hd'|now subst].
    + rewrite Tget by now right. rewrite (ix_tree _ _ _ _ I). split; intros (x & Hd); exists x; [now apply Hold|].
      destruct (Hinv _ _ _ Hd) as [Hd'|(E & _)]; [exact Hd'|now subst].
  - intros l' u tr' Ht. rewrite T' in Ht.
    assert (Hcase : (l' = l /\ u = uri) \/ (l' <> l \/ u <> uri)).
    { destruct (string_dec u uri); [|tauto]. destruct l', l; auto; right; left; discriminate. }
    destruct Hcase as [(-> & ->)|Hu].
    + rewrite Tnew in Ht. inversion Ht; subst tr'. exists t, (sget uri (trees_of l s1)). split; [exact Hnew|exact Hpar].
    + rewrite Tget in Ht by exact Hu. destruct (ix_parsed _ _ _ _ I _ _ _ Ht) as (x & old & Hd & E).
      exists x, old. split; [now apply Hold|exact E].
  - intros u vs' Hv.
    assert (Hprev : sget u (ls_vars s) = Some vs' ->
      exists l t0 old tr0, on_disk F (done (es ++ [WFile p])) u t0 l /\
        t_parse T (parser_of lang l) (encode t0) old = Some tr0 /\ variables_of T lang l tr0 (encode t0) vs').
    { intros Hs. destruct (ix_vars _ _ _ _ I u vs' Hs) as (l' & x & old & tr' & Hd & R). exists l', x, old, tr'. split; [now apply Hold|exact R]. }
    destruct (string_dec u uri) as [->|Hu]; [|rewrite Vother in Hv by exact Hu; now apply Hprev].
    destruct HA as [(-> & _)|(vs & Hvs & ->)]; [rewrite V2 in Hv; now apply Hprev|].
    cbn [ls_vars set_actions set_vars] in Hv. rewrite sget_sinsert_same in Hv. inversion Hv; subst vs'.
    exists l, t, (sget uri (trees_of l s1)), tr. split; [exact Hnew|]. split; [exact Hpar|exact Hvs].
  - intros u x l' Hd.
    assert (Hkeep : (exists vs, sget u (ls_vars s) = Some vs) -> exists vs, sget u (ls_vars s') = Some vs).
    { intros (vs & Hs). destruct (string_dec u uri) as [->|Hu]; [|rewrite Vother by exact Hu; eauto].
      destruct HA as [(-> & _)|(vs1 & Hvs & ->)]; [rewrite V2; eauto|].
      cbn [ls_vars set_actions set_vars]. rewrite sget_sinsert_same. eauto. }
    destruct (Hinv _ _ _ Hd) as [Hd'|(-> & -> & ->)].
    + destruct (ix_analysed _ _ _ _ I _ _ _ Hd') as [Hs|Hs]; [left; now apply Hkeep|now right].
    + destruct HA as [(-> & El & Herr)|(vs1 & Hvs & ->)].
      * right. split; [exact El|]. exists (sget uri (trees_of l s1)), tr. split; [|exact Herr]. subst l. exact Hpar.
      * left. exists vs1. cbn [ls_vars set_actions set_vars]. apply sget_sinsert_same.
  - intros u a Ha. destruct HA as [(-> & _)|(vs & _ & ->)].
    + rewrite A2 in Ha. exact (ix_actions _ _ _ _ I u a Ha).
    + cbn [ls_actions set_actions set_vars] in Ha. destruct (string_dec u uri) as [->|Hu].
      * rewrite sget_sinsert_same in Ha. now inversion Ha.
      * rewrite sget_sinsert_other in Ha by exact Hu. rewrite A2 in Ha. exact (ix_actions _ _ _ _ I u a Ha).
Qed.
Lemma same_rest_trans s1 s2 s3 : same_rest s1 s2 -> same_rest s2 s3 -> same_rest s1 s3.
Proof. unfold same_rest. intros (?&?&?&?&?&?&?) (?&?&?&?&?&?&?). repeat split; congruence. Qed.
Lemma walk_indexed F lang es : forall pre s s',
  parse_total T -> ls_parser s = lang -> ls_query s = lang ->
  indexed F lang (done pre) s -> walk_entries F es s = Ok (Some s') ->
  indexed F lang (done (pre ++ es)) s' /\ same_rest s s'.
Proof.
  induction es as [|e es IH]; intros pre s s' Hp Hl Hq I H.
  - cbn in H. inversion H; subst. rewrite app_nil_r. split; [exact I|repeat split].
  - assert (Happ : pre ++ e :: es = (pre ++ [e]) ++ es) by now rewrite <- app_assoc. rewrite Happ.
    assert (Hskip : (forall p, e = WFile p -> forall l, ~ classified p l) -> indexed F lang (done (pre ++ [e])) s).
    { intros Hno. eapply indexed_ext; [|exact I]. intros uri t l. symmetry. now apply on_disk_skip. }
    destruct e as [|p|p]; cbn [walk_entries] in H; [discriminate| |].
    + destruct (file_ext p) as [l|] eqn:El.
      * destruct (read_file F p l s) as [s1|] eqn:E; [|discriminate]. cbn [bind] in H.
        destruct (read_file_indexed F lang pre p l s s1 Hp Hl Hq) as (I1 & R1); [now apply file_ext_spec|exact I|exact E|].
        destruct R1 as (r1 & r2 & rr). destruct (IH (pre ++ [WFile p]) s1 s' Hp) as (I2 & R2); [congruence|congruence|exact I1|exact H|].
        split; [exact I2|]. eapply same_rest_trans; [|exact R2]. split; [exact r1|split; [exact r2|exact rr]].
      * apply (IH (pre ++ [WFile p]) s s' Hp Hl Hq); [|exact H]. apply Hskip. intros q Eq l Hc. inversion Eq; subst.
        apply file_ext_spec in Hc. congruence.
    + apply (IH (pre ++ [WOther p]) s s' Hp Hl Hq); [|exact H]. apply Hskip. discriminate.
Qed.
Lemma walk_init_indexed F c : indexed F (lang_of c) (done []) (walk_init T c) /\
  ls_parser (walk_init T c) = lang_of c /\ ls_query (walk_init T c) = lang_of c.
Proof.
  unfold walk_init, update_backend, lang_of.
  assert (H : forall s, ls_docs s = [] -> ls_tt s = [] -> ls_bt s = [] -> ls_vars s = [] -> ls_actions s = [] ->
     forall lang, indexed F lang (done []) s).
  { intros s H1 H2 H3 H4 H5 lang. assert (Hno : forall uri t l, ~ on_disk F (done []) uri t l) by (intros uri t l (p & n & [] & _)).
    constructor.
    - intros uri t. rewrite H1. split; [discriminate|]. intros (l & Hd). now apply Hno in Hd.
    - intros l uri. split; [intros (tr & E); destruct l; cbn in E; [rewrite H2 in E|rewrite H3 in E]; discriminate|].
      intros (t & Hd). now apply Hno in Hd.
    - intros l uri tr E. destruct l; cbn in E; [rewrite H2 in E|rewrite H3 in E]; discriminate.
    - intros uri vs E. rewrite H4 in E. discriminate.
    - intros uri t l Hd. now apply Hno in Hd.
    - intros uri a E. rewrite H5 in E. discriminate. }
  destruct (string_dec (cf_lang c) "python") as [E|E].
  - rewrite (proj2 (String.eqb_eq _ _) E). split; [now apply H|split; reflexivity].
  - rewrite (proj2 (String.eqb_neq _ _) E). split; [now apply H|split; reflexivity].
Qed.
Lemma entry_flat F c e : entry F c e <-> In e (flat_map (f_walk F) (cf_templates c :: cf_backend c)).
Proof.
  unfold entry. rewrite in_flat_map. split; intros (d & H1 & H2); exists d; (split; [|exact H2]).
  - destruct H1 as [->|H1]; [now left|now right].
  - destruct H1 as [<-|H1]; [now left|now right].
Qed.
Lemma walkdir_indexed F b c d s :
  parse_total T -> walkdir T F b c = Ok (Some (d, s)) ->
  indexed F (lang_of c) (entry F c) s /\ ~ entry F c WErr /\ same_rest (walk_init T c) s /\ read_trees F b s = Ok d.
Proof.
  intros Hp H. unfold walkdir in H. rewrite walk_dirs_flat in H.
  destruct (walk_entries F _ (walk_init T c)) as [[s1|]|] eqn:E; cbn [bind] in H; try discriminate.
  destruct (read_trees F b s1) as [d1|] eqn:Er; cbn [bind] in H; [|discriminate]. inversion H; subst d1 s1.
  destruct (walk_init_indexed F c) as (I & L & Q).
  destruct (walk_indexed F (lang_of c) _ [] _ _ Hp L Q I E) as (I' & R).
  split; [|split; [|split; [exact R|exact Er]]].
  - eapply indexed_ext; [|exact I']. intros uri t l. cbn [app].
    split; apply on_disk_mono; intros x; apply entry_flat.
  - intros Hw. apply entry_flat in Hw. revert Hw. eapply walk_entries_no_err; eauto.
Qed.
Lemma walkdir_fails F b c : walkdir T F b c = Ok None -> entry F c WErr.
Proof.
  intros H. unfold walkdir in H. rewrite walk_dirs_flat in H.
  destruct (walk_entries F _ (walk_init T c)) as [[s1|]|] eqn:E; cbn [bind] in H; try discriminate.
  - destruct (read_trees F b s1); cbn [bind] in H; discriminate.
  - apply entry_flat. eapply walk_entries_err; eauto.
Qed.
Lemma indexed_set F lang P s s' :
  ls_docs s' = ls_docs s -> ls_tt s' = ls_tt s -> ls_bt s' = ls_bt s -> ls_vars s' = ls_vars s ->
  ls_actions s' = ls_actions s -> indexed F lang P s -> indexed F lang P s'.
Proof.
  intros H1 H2 H3 H4 H5 I. assert (HT : forall l, trees_of l s' = trees_of l s) by (intros []; assumption).
  constructor.
  - rewrite H1. apply I.
  - intros l uri. rewrite HT. apply I.
  - intros l uri tr. rewrite HT. apply I.
  - rewrite H4. apply I.
  - rewrite H4. apply I.
  - rewrite H5. apply I.
Qed.
End Index.

(** ** Initialisation *)
Section Init.
Context {T : ts}.
Implicit Types (s : task_state T).

Lemma init_supported c : negb (str_mem (cf_lang c) ["rust"; "python"]%string) = false <->
  (cf_lang c = "rust" \/ cf_lang c = "python")%string.
Proof.
  unfold str_mem. cbn [existsb]. rewrite negb_false_iff, !orb_true_iff, !String.eqb_eq. split; [intros [H|[H|H]]; auto; discriminate|tauto].
Qed.
Definition logs_only (es : list effect) : Prop := Forall (fun e => exists m, e = ELog m) es.
Lemma init_logs c : logs_only (ELog "Initialized" ::
              (if cf_user c then [] else [ELog "Config doesn't exist."]) ++
              (if String.eqb (cf_templates c) "" then [ELog "Template directory not found"] else [])).
Proof.
  destruct (cf_user c), (String.eqb (cf_templates c) ""); cbn; repeat (constructor; [eauto|]); constructor.
Qed.
Lemma read_tree_flags F b uri (a a' : lsp_files T) :
  ls_tt a = ls_tt a' -> ls_bt a = ls_bt a' -> ls_docs a = ls_docs a' -> ls_vars a = ls_vars a' -> ls_config a = ls_config a' ->
  ls_ignore a = ls_ignore a' -> read_tree F b uri a = read_tree F b uri a'.
Proof.
  intros H1 H0 H2 H3 H4 H5. unfold read_tree, trees_of. now rewrite H0, H1, H2, H3, H4, H5.
Qed.
Lemma walk_nodup F es (a a' : lsp_files T) :
  NoDup (map fst (ls_tt a)) -> walk_entries F es a = Ok (Some a') -> NoDup (map fst (ls_tt a')).
Proof.
  revert a. induction es as [|e es IH]; intros a N H; [cbn in H; inversion H; now subst|].
  destruct e as [|p|p]; cbn [walk_entries] in H; [discriminate| |now apply (IH a)].
  destruct (file_ext p) as [l|]; [|now apply (IH a)].
  destruct (read_file F p l a) as [a1|] eqn:E; [|discriminate]. cbn [bind] in H. apply (IH a1); [|exact H].
  unfold read_file in E. destruct (f_canon F p) as [name| |]; try (inversion E; now subst).
  destruct (f_read F name) as [t|]; [|inversion E; now subst].
  apply add_variables_docs in E. destruct E as (_ & E2 & _ & _). cbn [trees_of] in E2. rewrite E2.
  unfold add_tree. destruct (parse _ _ _ _); [|exact N]. destruct l; cbn; [now apply sinsert_nodup|exact N].
Qed.
Lemma walkdir_nodup F b c d (a : lsp_files T) : walkdir T F b c = Ok (Some (d, a)) -> NoDup (map fst (ls_tt a)).
Proof.
  intros H. unfold walkdir in H. rewrite walk_dirs_flat in H.
  destruct (walk_entries F _ (walk_init T c)) as [[s1|]|] eqn:E; cbn [bind] in H; try discriminate.
  destruct (read_trees F b s1) as [d1|] eqn:Er; cbn [bind] in H; [|discriminate]. inversion H; subst d1 s1.
  eapply walk_nodup; [|exact E]. unfold walk_init, update_backend. destruct (String.eqb _ _); constructor.
Qed.
Lemma read_trees_ok F b (a : lsp_files T) d :
  NoDup (map fst (ls_tt a)) -> read_trees F b a = Ok d ->
  forall uri e, sget uri d = Some e <-> (exists tr, sget uri (ls_tt a) = Some tr) /\ read_tree F b uri a = Ok (Some e).
Proof.
  intros N H uri e. unfold read_trees in H.
  destruct (panic_dec F b a (map fst (ls_tt a))) as [Hn|Hp].
  2:{ rewrite (read_trees_in_panic F b a _ [] Hp) in H. discriminate. }
  destruct (read_trees_in_spec F b a (map fst (ls_tt a)) [] Hn N (NoDup_nil _)) as (d' & E & _ & G).
  rewrite H in E. inversion E; subst d'. rewrite G.
  destruct (str_mem uri (map fst (ls_tt a))) eqn:Em.
  - unfold str_mem in Em. apply existsb_exists in Em. destruct Em as (x & Hx & Ex). apply String.eqb_eq in Ex. subst x.
    apply sget_Some_In in Hx. destruct (read_tree F b uri a) as [[y|]|] eqn:Er; cbn; split; try discriminate.
    + intros Q; inversion Q; subst; auto.
    + intros (_ & Q); inversion Q; subst; auto.
    + intros (_ & Q); discriminate.
    + intros (_ & Q); discriminate.
  - cbn. split; [discriminate|]. intros (Hx & _). apply sget_Some_In in Hx. exfalso.
    assert (str_mem uri (map fst (ls_tt a)) = true); [|congruence].
    apply existsb_exists. exists uri. split; [exact Hx|apply String.eqb_refl].
Qed.

Lemma do_initialized_cases F b s s' es :
  parse_total T -> do_initialized F b s = Ok (s', es) ->
  let c := tk_config s in
  (((cf_lang c = "rust" \/ cf_lang c = "python")%string /\ ~ entry F c WErr /\
    tk_config s' = c /\ tk_next s' = tk_next s /\
    indexed F (lang_of c) (entry F c) (tk_data s') /\
    ls_parser (tk_data s') = lang_of c /\ ls_query (tk_data s') = lang_of c /\
    ls_config (tk_data s') = c /\ ls_chan (tk_data s') = true /\ ls_task (tk_data s') = None /\
    ls_vscode (tk_data s') = ls_vscode (tk_data s) /\
    ls_ignore (tk_data s') = (match cf_hide c with Some h => h | None => false end) /\
    exists logs d, es = logs ++ [EDiag d] /\ logs_only logs /\
      forall uri e, sget uri d = Some e <->
        (exists tr, sget uri (ls_tt (tk_data s')) = Some tr) /\ read_tree F b uri (tk_data s') = Ok (Some e))
   \/ ((~ (cf_lang c = "rust" \/ cf_lang c = "python")%string \/ entry F c WErr) /\ s' = s /\ logs_only es)).
Proof.
  intros Hp H c. unfold do_initialized in H. fold c in H. pose proof (init_logs c) as HL.
  set (logs := ELog "Initialized" :: _) in *. clearbody logs.
  destruct (negb (str_mem (cf_lang c) ["rust"; "python"]%string)) eqn:El.
  - right. inversion H; subst. split.
    + left. intros Hl. apply init_supported in Hl. congruence.
    + split; [reflexivity|]. apply Forall_app. split; [exact HL|]. constructor; [eauto|constructor].
  - destruct (walkdir T F b c) as [[[d data]|]|] eqn:Ew; cbn [bind] in H; [| |discriminate].
    + left. destruct (walkdir_indexed F b c d data Hp Ew) as (I & Hno & R & Er).
      destruct R as (r1 & r2 & r3 & r4 & r5 & r6 & r7). destruct (walk_init_indexed (T := T) F c) as (_ & L & Q).
      inversion H; subst s' es. clear H. cbn [tk_config tk_next tk_data ls_parser ls_query ls_config ls_chan ls_task ls_vscode ls_ignore ls_tt].
      split; [now apply init_supported|]. split; [exact Hno|]. split; [reflexivity|]. split; [reflexivity|].
      split; [eapply indexed_set; [..|exact I]; reflexivity|].
      split; [congruence|]. split; [congruence|]. split; [reflexivity|]. split; [reflexivity|].
      assert (Hi : ls_task (walk_init T c) = None /\ ls_ignore (walk_init T c) = (match cf_hide c with Some h => h | None => false end) /\ ls_config (walk_init T c) = c).
      { unfold walk_init, update_backend. destruct (String.eqb _ _); repeat split. }
      destruct Hi as (i1 & i2 & i3). split; [congruence|]. split; [reflexivity|]. split; [congruence|].
      exists logs, d. split; [reflexivity|]. split; [exact HL|]. intros uri e.
      rewrite (read_trees_ok F b data d (walkdir_nodup F b c d data Ew) Er).
      rewrite (read_tree_flags F b uri data
        (mkls (ls_tt data) (ls_bt data) (ls_docs data) (ls_parser data) (ls_query data) c (ls_task data) true
           (ls_vars data) (ls_actions data) (ls_vscode (tk_data s)) (ls_ignore data))); try reflexivity.
      cbn [ls_config]. congruence.
    + right. inversion H; subst. split; [right; eapply walkdir_fails; eauto|]. split; [reflexivity|].
      apply Forall_app. split; [exact HL|]. constructor; [eauto|constructor].
Qed.
Lemma do_initialized_history F b s1 s2 :
  tk_config s1 = tk_config s2 -> ls_vscode (tk_data s1) = ls_vscode (tk_data s2) -> tk_next s1 = tk_next s2 ->
  match do_initialized F b s1, do_initialized F b s2 with
  | Ok (a1, e1), Ok (a2, e2) => e1 = e2 /\ ((exists d, In (EDiag d) e1) -> a1 = a2)
  | Panic, Panic => True
  | _, _ => False
  end.
Proof.
  intros Hc Hv Hn. unfold do_initialized. rewrite Hc, Hv, Hn.
  assert (Hlog : forall l d, In (EDiag d) (ELog "Initialized" ::
     ((if cf_user (tk_config s2) then [] else [ELog "Config doesn't exist."]) ++
      (if String.eqb (cf_templates (tk_config s2)) "" then [ELog "Template directory not found"] else [])) ++ [ELog l]) -> False).
  { intros l d Hi. destruct (cf_user (tk_config s2)), (String.eqb (cf_templates (tk_config s2)) ""); cbn in Hi; intuition discriminate. }
  destruct (negb _).
  - split; [reflexivity|]. intros (d & Hd). exfalso. eapply Hlog. exact Hd.
  - destruct (walkdir T F b (tk_config s2)) as [[[d data]|]|]; cbn [bind]; [|split; [reflexivity|]|exact I].
    + split; [reflexivity|]. intros _. reflexivity.
    + intros (d & Hd). exfalso. eapply Hlog. exact Hd.
Qed.
End Init.

(** ** URIs *)
Lemma percent_plain p : percent p = p <-> Forall (fun a => unreserved a = true) (list_ascii_of_string p).
Proof.
  split.
  - assert (Hlen : forall q, (String.length q <= String.length (percent q))%nat).
    { induction q as [|a q IH]; [cbn; lia|]. cbn [percent]. destruct (unreserved a); cbn [String.length]; lia. }
    induction p as [|a p IH]; [constructor|]. cbn [percent list_ascii_of_string].
    destruct (unreserved a) eqn:E.
    + intros H. inversion H as [H1]. constructor; [exact E|]. rewrite H1. now apply IH.
    + intros H. exfalso. apply (f_equal String.length) in H. cbn [String.length] in H. specialize (Hlen p). lia.
  - induction p as [|a p IH]; intros H; [reflexivity|]. cbn [list_ascii_of_string] in H. inversion H as [|? ? H1 H2]; subst.
    cbn [percent]. rewrite H1. now rewrite IH.
Qed.
Lemma editor_uri_plain p : editor_uri p = file_uri p <-> Forall (fun a => unreserved a = true) (list_ascii_of_string p).
Proof.
  rewrite <- percent_plain. unfold editor_uri, file_uri. split; [|now intros ->].
  intros H. cbn in H. injection H as H. exact H.
Qed.
