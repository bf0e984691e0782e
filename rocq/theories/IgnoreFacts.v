(** * Facts about ignore rules: parsing, last-match semantics, cache independence. *)
From Verif Require Export Success.

(** ** Collapsing double slashes terminates with none left *)
Lemma replace_dslash_cons a b r : replace_dslash (String a (String b r)) =
  if (Ascii.eqb a "/" && Ascii.eqb b "/") then String "/" (replace_dslash r)
  else String a (replace_dslash (String b r)).
Proof. reflexivity. Qed.
Lemma replace_dslash_length s : String.length (replace_dslash s) ≤ String.length s ∧
  (contains "//" s = true → String.length (replace_dslash s) < String.length s).
Proof.
  assert (∀ k s, String.length s ≤ k → String.length (replace_dslash s) ≤ String.length s ∧
    (contains "//" s = true → String.length (replace_dslash s) < String.length s)) as H; [|by apply (H (String.length s))].
  clear s. induction k as [|k IH]; intros s Hk.
  - destruct s; simpl in *; [|lia]. split; [lia|done].
  - destruct s as [|a [|b r]]; [split; [simpl; lia|done]| |].
    { split; [done|]. cbn [contains starts_with]. by rewrite andb_false_r. }
    rewrite replace_dslash_cons. destruct (Ascii.eqb_spec a "/") as [->|Ha]; cbn [andb].
    + destruct (Ascii.eqb_spec b "/") as [->|Hb].
      * destruct (IH r) as [IH1 _]; [simpl in Hk; lia|]. simpl. split; [lia|]. intros _. lia.
      * destruct (IH (String b r)) as [IH1 IH2]; [simpl in *; lia|]. split; [cbn [String.length] in *; lia|].
        intros Hc. change (contains "//" (String "/" (String b r)))
          with (starts_with "//" (String "/" (String b r)) || contains "//" (String b r)) in Hc.
        rewrite orb_true_iff in Hc. destruct Hc as [Hc|Hc].
        -- exfalso. cbn [starts_with] in Hc. rewrite Ascii.eqb_refl in Hc.
           destruct (Ascii.eqb_spec "/" b); [congruence|done].
        -- apply IH2 in Hc. cbn [String.length] in *. lia.
    + destruct (IH (String b r)) as [IH1 IH2]; [simpl in *; lia|]. split; [cbn [String.length] in *; lia|].
      intros Hc. change (contains "//" (String a (String b r)))
          with (starts_with "//" (String a (String b r)) || contains "//" (String b r)) in Hc.
      rewrite orb_true_iff in Hc. destruct Hc as [Hc|Hc].
      * exfalso. cbn [starts_with] in Hc. destruct (Ascii.eqb_spec "/" a); [congruence|done].
      * apply IH2 in Hc. cbn [String.length] in *. lia.
Qed.

Lemma collapse_none s : contains "//" (collapse s) = false.
Proof.
  unfold collapse.
  assert (∀ k s, String.length s ≤ k → contains "//" (collapse_fuel k s) = false) as H; [|by apply H].
  clear s. induction k as [|k IH]; intros s Hk.
  - destruct s; simpl in *; [done|lia].
  - cbn [collapse_fuel]. destruct (contains "//" s) eqn:E; [|done]. apply IH.
    pose proof (proj2 (replace_dslash_length s) E). lia.
Qed.

(** ** Strings without double slashes *)
Definition nodd (s : string) : Prop := contains "//" s = false.
Lemma nodd_spec s : nodd s ↔ ∀ a b, s ≠ a +:+ "//" +:+ b.
Proof.
  unfold nodd. rewrite <-Bool.not_true_iff_false, contains_spec. split.
  - intros H a b E. apply H. by exists a, b.
  - intros H (a & b & E). by apply (H a b).
Qed.
Lemma nodd_suffix a b : nodd (a +:+ b) → nodd b.
Proof.
  rewrite !nodd_spec. intros H x y ->. apply (H (a +:+ x) y). by rewrite !str_app_assoc.
Qed.
Lemma nodd_prefix a b : nodd (a +:+ b) → nodd a.
Proof.
  rewrite !nodd_spec. intros H x y ->. apply (H x (y +:+ b)). by rewrite <-!str_app_assoc.
Qed.
Lemma nodd_tail c s : nodd (String c s) → nodd s.
Proof. apply (nodd_suffix (String c "")). Qed.
Lemma nodd_glob s : nodd s → ends_with "/" s = false → nodd (s +:+ "/**").
Proof.
  intros H He. unfold nodd in *. induction s as [|a s IH]; [done|].
  change (String a s +:+ "/**") with (String a (s +:+ "/**")).
  assert (contains "//" s = false) as Hs by (by apply (nodd_tail a)).
  change (contains "//" (String a (s +:+ "/**"))) with
    (starts_with "//" (String a (s +:+ "/**")) || contains "//" (s +:+ "/**")).
  rewrite orb_false_iff. split.
  - cbn [starts_with]. destruct (Ascii.eqb_spec "/" a) as [<-|Hne]; [|done]. rewrite andb_true_l.
    destruct s as [|b s].
    + exfalso. vm_compute in He. done.
    + change (String b s +:+ "/**") with (String b (s +:+ "/**")). cbn [starts_with].
      destruct (Ascii.eqb_spec "/" b) as [<-|]; [|done]. exfalso. by vm_compute in H.
  - apply IH; [done|]. destruct (ends_with "/" s) eqn:E; [|done]. exfalso.
    apply ends_with_spec in E as [t ->]. rewrite <-Bool.not_true_iff_false in He. apply He.
    apply ends_with_spec. by exists (String a t).
Qed.
Lemma nodd_noslash s : contains "/" s = false → nodd s.
Proof.
  intros H. apply nodd_spec. intros a b ->. rewrite <-Bool.not_true_iff_false in H. apply H.
  apply contains_spec. exists a, ("/" +:+ b). done.
Qed.

(** [trim_end_matches('/')]: what is cut are slashes; nothing ends with a slash. *)
Lemma drop_slashes_spec s : ∃ t, s = t +:+ drop_slashes s ∧ (∀ c, In c (to_bytes t) → c = "/"%char) ∧
  starts_with "/" (drop_slashes s) = false.
Proof.
  induction s as [|c s (t & E & H1 & H2)]; [exists ""; split; [done|]; split; [intros c []|done]|]. cbn [drop_slashes].
  destruct (Ascii.eqb_spec c "/") as [->|Hne].
  - exists (String "/" t). split; [simpl; by rewrite <-E|]. split; [|done].
    intros c [<-|Hc]; [done|by apply H1].
  - exists "". split; [done|]. split; [intros ? []|]. cbn [starts_with]. destruct (Ascii.eqb_spec "/" c); [congruence|done].
Qed.
Lemma trim_end_slashes_spec s : ∃ t, s = trim_end_slashes s +:+ t ∧ ends_with "/" (trim_end_slashes s) = false.
Proof.
  unfold trim_end_slashes. destruct (drop_slashes_spec (str_rev s)) as (t & E & _ & H).
  exists (str_rev t). split.
  - rewrite <-str_rev_app, <-E. by rewrite str_rev_involutive.
  - unfold ends_with. by rewrite str_rev_involutive.
Qed.

Lemma anchor_nodd t : nodd t → nodd (anchor t).
Proof.
  intros H. unfold anchor. destruct (starts_with "/" t) eqn:E.
  - destruct t as [|c t]; [done|]. by apply nodd_tail in H.
  - destruct (contains "/" t) eqn:E2; cbn [negb andb]; [exact H|]. destruct (starts_with "**" t); cbn [negb]; [exact H|].
    unfold nodd. change ("**/" +:+ t) with (String "*" (String "*" (String "/" t))).
    apply nodd_noslash in E2. unfold nodd in E2. cbn [contains] in *.
    rewrite E2. destruct t as [|c t]; [done|]. cbn [starts_with] in *.
    destruct (Ascii.eqb_spec "/" c); [done|]. reflexivity.
Qed.

Lemma parse_line_nodd line p : p ∈ parse_line line → nodd (ip_pattern p).
Proof.
  unfold parse_line. destruct (String.eqb (line_text line) "" || starts_with "#" (line_text line));
    [intros H; by apply elem_of_nil in H|].
  set (body := anchor (collapse (line_body (line_text line)))).
  assert (nodd body) as Hb by (apply anchor_nodd, collapse_none).
  destruct (ends_with "/" body) eqn:Ee.
  - assert (ends_with "/**" body = false) as ->.
    { apply Bool.not_true_iff_false. rewrite ends_with_spec. intros [t Et]. apply ends_with_spec in Ee as [u Eu].
      rewrite Et in Eu. apply (f_equal str_rev) in Eu. rewrite !str_rev_app in Eu. by vm_compute in Eu. }
    simpl. intros Hp. apply elem_of_list_singleton in Hp as ->. simpl.
    destruct (trim_end_slashes_spec body) as (t & E & H). apply nodd_glob; [|done].
    rewrite E in Hb. by apply nodd_prefix in Hb.
  - simpl. intros Hp. apply elem_of_app in Hp as [Hp|Hp].
    + destruct (negb _ && negb _); [|by apply elem_of_nil in Hp].
      apply elem_of_list_singleton in Hp as ->. simpl. by apply nodd_glob.
    + by apply elem_of_list_singleton in Hp as ->.
Qed.

Lemma list_snoc_case {A : Type} (l : list A) : l = [] ∨ ∃ k x, l = k ++ [x].
Proof. destruct l as [|x k _] using rev_ind; [by left|right; eauto]. Qed.

(** ** Last match wins *)
Notation rule := (ignore_pattern * string)%type.

(** All rules concerning the path [base ++ sub], outermost directory first; each with the text of
    the path relative to the directory of its ignore file. *)
Fixpoint rules_from (f : fs) (up lo : path) (todo : list string) : list rule :=
  match todo with
  | [] => []
  | x :: rest => ((λ ip, (ip, join_comps rest)) <$> resolve_ignores f (up ++ [x]) (lo ++ [x]))
                 ++ rules_from f (up ++ [x]) (lo ++ [x]) rest
  end.

Definition fires (glob : string → string → bool) (r : rule) : bool := glob (ip_pattern r.1) r.2.

(** The verdict of a rule list: that of the last rule that matches, "not ignored" if none does. *)
Definition verdict (glob : string → string → bool) (rs : list rule) : bool :=
  foldl (λ acc r, if fires glob r then negb (ip_negate r.1) else acc) false rs.

Lemma verdict_snoc glob rs r :
  verdict glob (rs ++ [r]) = if fires glob r then negb (ip_negate r.1) else verdict glob rs.
Proof. unfold verdict. by rewrite foldl_app. Qed.

Lemma verdict_spec glob rs : verdict glob rs = true ↔
  ∃ l1 r l2, rs = l1 ++ r :: l2 ∧ fires glob r = true ∧ ip_negate r.1 = false ∧ (∀ r', r' ∈ l2 → fires glob r' = false).
Proof.
  induction rs as [|r rs IH] using rev_ind.
  - split; [done|]. intros (l1 & r & l2 & E & _). by destruct l1.
  - rewrite verdict_snoc. destruct (fires glob r) eqn:Ef.
    + split.
      * intros H. exists rs, r, []. split; [done|]. split; [done|]. split; [by apply negb_true_iff|].
        intros r' Hr'. by apply elem_of_nil in Hr'.
      * intros (l1 & r' & l2 & E & Hf & Hn & Hl). destruct (list_snoc_case l2) as [->|(l2' & y & ->)].
        -- apply app_inj_tail in E as [_ <-]. by rewrite Hn.
        -- rewrite app_comm_cons, app_assoc in E. apply app_inj_tail in E as [_ <-].
           rewrite Hl in Ef; [done|]. apply elem_of_app. right. left.
    + rewrite IH. split.
      * intros (l1 & r' & l2 & -> & Hf & Hn & Hl). exists l1, r', (l2 ++ [r]). split; [by rewrite <-app_assoc|].
        split; [done|]. split; [done|]. intros y Hy. apply elem_of_app in Hy as [Hy|Hy]; [by apply Hl|].
        by apply elem_of_list_singleton in Hy as ->.
      * intros (l1 & r' & l2 & E & Hf & Hn & Hl). destruct (list_snoc_case l2) as [->|(l2' & y & ->)].
        -- apply app_inj_tail in E as [_ <-]. congruence.
        -- rewrite app_comm_cons, app_assoc in E. apply app_inj_tail in E as [-> <-].
           exists l1, r', l2'. split; [done|]. split; [done|]. split; [done|]. intros z Hz. apply Hl.
           apply elem_of_app. by left.
Qed.

Lemma apply_patterns_foldl glob rel b ps :
  apply_patterns glob rel b ps =
  foldl (λ acc r, if fires glob r then negb (ip_negate r.1) else acc) b ((λ ip, (ip, rel)) <$> ps).
Proof. revert b. induction ps as [|p ps IH]; intros b; [done|]. simpl. apply IH. Qed.

(** The loop with a cache all of whose relevant entries are right. *)
Lemma ignore_loop_spec (glob : string → string → bool) (f : fs) (inv : cache → Prop) (todo : path) : ∀ (up lo : path) (b : bool) (c : cache),
  inv c →
  (∀ c' q x r ps, inv c' → todo = q ++ x :: r → c' !! (lo ++ q ++ [x]) = Some ps →
     ps = resolve_ignores f (up ++ q ++ [x]) (lo ++ q ++ [x])) →
  (∀ c' q x r, inv c' → todo = q ++ x :: r →
     inv (<[lo ++ q ++ [x] := resolve_ignores f (up ++ q ++ [x]) (lo ++ q ++ [x])]> c')) →
  ∃ c', ignore_loop glob f up lo todo b c =
     (foldl (λ acc r, if fires glob r then negb (ip_negate r.1) else acc) b (rules_from f up lo todo), c') ∧ inv c'.
Proof.
  induction todo as [|x rest IH]; intros up lo b c Hc Hhit Hput; simpl; [by exists c|].
  rewrite foldl_app, <-apply_patterns_foldl.
  assert (∀ c0, inv c0 → ∃ c', ignore_loop glob f (up ++ [x]) (lo ++ [x]) rest
      (apply_patterns glob (join_comps rest) b (resolve_ignores f (up ++ [x]) (lo ++ [x]))) c0 =
     (foldl (λ acc r, if fires glob r then negb (ip_negate r.1) else acc)
        (apply_patterns glob (join_comps rest) b (resolve_ignores f (up ++ [x]) (lo ++ [x])))
        (rules_from f (up ++ [x]) (lo ++ [x]) rest), c') ∧ inv c') as Hgo.
  { intros c0 Hc0. apply IH; [done| |].
    - intros c' q y r ps Hc' E. rewrite <-!app_assoc. simpl. intros H.
      specialize (Hhit c' (x :: q) y r ps Hc'). simpl in Hhit. apply Hhit; [by rewrite E|done].
    - intros c' q y r Hc' E. specialize (Hput c' (x :: q) y r Hc'). simpl in Hput. rewrite <-!app_assoc. simpl.
      apply Hput. by rewrite E. }
  destruct (c !! (lo ++ [x])) as [ps|] eqn:El.
  - rewrite (Hhit c [] x rest ps Hc eq_refl El). simpl. by apply Hgo.
  - apply Hgo. by apply (Hput c [] x rest Hc eq_refl).
Qed.

Definition builtin_hit (glob : string → string → bool) (p : path) : bool := existsb (λ pat, glob pat (path_str p)) BUILT_IN.

(** The verdict on the path [base ++ sub], whatever was visited before. *)
Definition ignored_path (glob : string → string → bool) (f : fs) (ub m s : path) : bool :=
  builtin_hit glob (m ++ s) || verdict glob (rules_from f (upper_dir ub m) m s).

Section sandbox.
  Context (f : fs) (ub : path) (ms : list path) (Hok : sandbox_ok f ub ms).
  Context (glob : string → string → bool).
  Let Hst : storage_ok f ub ms := sb_storage _ _ _ Hok.
  Let Hwf : wf_tree f := so_wf _ _ _ Hst.

  Definition cache_ok (c : cache) : Prop := ∀ cl ps, c !! cl = Some ps →
    ∃ m r n, m ∈ ms ∧ staged_at f ub m r n ∧ cl = m ++ r ∧
      ps = resolve_ignores f (upper_dir ub m ++ r) cl.

  Lemma is_ignored_spec m s n c : m ∈ ms → staged_at f ub m s n → cache_ok c →
    utf8_valid (path_str (m ++ s)) = true →
    ∃ c', is_ignored glob f ub (b32_encode (path_str m)) m s c = (Ok (ignored_path glob f ub m s), c') ∧ cache_ok c'.
  Proof.
    intros Hm Hs Hc Hu. unfold is_ignored, ignored_path, builtin_hit. rewrite Hu. cbn [negb].
    destruct (existsb (λ pat, glob pat (path_str (m ++ s))) BUILT_IN); [by exists c|].
    change (ub ++ [b32_encode (path_str m)]) with (upper_dir ub m).
    assert (∀ q x r, s = q ++ x :: r → ∃ n', staged_at f ub m (q ++ [x]) n') as Hpre.
    { intros q x r E. destruct Hs as [_ Hn]. rewrite E, (cons_app q x r), app_assoc in Hn.
      destruct (wf_is_Some_prefix f _ _ _ Hwf Hn) as [n' Hn']. exists n'. split; [by destruct q|done]. }
    destruct (ignore_loop_spec glob f cache_ok s (upper_dir ub m) m false c Hc) as (c' & E & Hc').
    - intros c' q x r ps Hc' E Hl. destruct (Hc' _ _ Hl) as (m' & r' & n' & Hm' & Hs' & Ecl & ->).
      destruct (Hpre q x r E) as [n0 Hn0].
      assert (m = m') as <-.
      { eapply (owner_unique ms m m' (m ++ q ++ [x])).
        - apply (ho_owner _ _ _ _ _ _ (sb_host _ _ _ Hok m (q ++ [x]) n0 Hm Hn0)).
        - rewrite Ecl. apply (ho_owner _ _ _ _ _ _ (sb_host _ _ _ Hok m' r' n' Hm' Hs')). }
      apply app_inv_head in Ecl as <-. done.
    - intros c' q x r Hc' E cl ps Hl. destruct (decide (cl = m ++ q ++ [x])) as [->|Hne].
      + rewrite lookup_insert in Hl. injection Hl as <-. destruct (Hpre q x r E) as [n0 Hn0].
        by exists m, (q ++ [x]), n0.
      + rewrite lookup_insert_ne in Hl by done. by apply Hc'.
    - exists c'. by rewrite E.
  Qed.
End sandbox.

Section listing.
  Context (f : fs) (ub : path) (ms : list path) (Hok : sandbox_ok f ub ms).
  Context (e : env) (He : env_ok e).
  Context (Hutf : ∀ m s n, m ∈ ms → staged_at f ub m s n → utf8_valid (path_str (m ++ s)) = true).
  Let Hst : storage_ok f ub ms := sb_storage _ _ _ Hok.
  Let Hwf : wf_tree f := so_wf _ _ _ Hst.

  Lemma entries_ignored_loop ps c : (∀ p, p ∈ ps → p ∈ walkdir f ub) → cache_ok f ub ms c →
    ∃ es, upper_entries_loop e f ub false ps c = Ok es ∧
      ∀ x, x ∈ es ↔ ∃ m s n, m ∈ ms ∧ staged_at f ub m s n ∧ (upper_dir ub m ++ s) ∈ ps ∧
        ignored_path (e_glob e) f ub m s = false ∧ x = entry_for f ub m s n.
  Proof.
    revert c. induction ps as [|p ps IH]; intros c Hps Hc; simpl.
    { exists []. split; [done|]. intros x. split; [intros H; by apply elem_of_nil in H|].
      intros (m & s & n & _ & _ & H & _). by apply elem_of_nil in H. }
    destruct (walk_item f ub ms Hok p ltac:(apply Hps; left)) as [->|[(m & Hm & ->)|(m & s & n & Hm & Hs & ->)]].
    - rewrite skip_base. simpl. destruct (IH c ltac:(set_solver) Hc) as (es & -> & H). exists es. split; [done|].
      intros x. rewrite H. split.
      + intros (m & s & n & H1 & H2 & H3 & H4). exists m, s, n. set_solver.
      + intros (m & s & n & H1 & H2 & H3 & H4). exists m, s, n. split; [done|]. split; [done|].
        apply elem_of_cons in H3 as [E|H3]; [|done]. exfalso.
        apply (f_equal length) in E. destruct H2 as [Hne _]. unfold upper_dir in E.
        rewrite !app_length in E. simpl in E. lia.
    - rewrite (skip_root f ub ms Hok) by done. simpl. destruct (IH c ltac:(set_solver) Hc) as (es & -> & H). exists es.
      split; [done|]. intros x. rewrite H. split.
      + intros (m' & s & n & H1 & H2 & H3 & H4). exists m', s, n. set_solver.
      + intros (m' & s & n & H1 & H2 & H3 & H4). exists m', s, n. split; [done|]. split; [done|].
        apply elem_of_cons in H3 as [E|H3]; [|done]. exfalso.
        apply (f_equal length) in E. destruct H2 as [Hne _]. unfold upper_dir in E.
        rewrite !app_length in E. simpl in E. destruct s; [done|]. simpl in E. lia.
    - rewrite (entry_of_staged f ub ms Hok e false m s n) by done.
      destruct (is_ignored_spec f ub ms Hok (e_glob e) m s n c Hm Hs Hc ltac:(by eapply Hutf)) as (c' & -> & Hc').
      destruct (IH c' ltac:(set_solver) Hc') as (es & Ees & H).
      assert (∀ m' s' n', m' ∈ ms → staged_at f ub m' s' n' → upper_dir ub m' ++ s' = upper_dir ub m ++ s →
         m' = m ∧ s' = s ∧ n' = n) as Huniq.
      { intros m' s' n' Hm' Hs' E. apply (upper_dir_inj f ub ms Hok) in E as [-> ->]; [|done|done].
        destruct Hs as [_ Hs], Hs' as [_ Hs']. split; [done|]. split; [done|]. congruence. }
      destruct (ignored_path (e_glob e) f ub m s) eqn:Ei; simpl; rewrite Ees; simpl; eexists; (split; [done|]); intros x.
      + rewrite H. split.
        * intros (m' & s' & n' & H1 & H2 & H3 & H4). exists m', s', n'. set_solver.
        * intros (m' & s' & n' & H1 & H2 & H3 & H4 & H5). exists m', s', n'. split; [done|]. split; [done|].
          split; [|done]. apply elem_of_cons in H3 as [E|H3]; [|done].
          destruct (Huniq m' s' n' H1 H2 E) as (-> & -> & ->). congruence.
      + rewrite elem_of_cons, H. split.
        * intros [->|(m' & s' & n' & H1 & H2 & H3 & H4)]; [exists m, s, n; set_solver|exists m', s', n'; set_solver].
        * intros (m' & s' & n' & H1 & H2 & H3 & H4 & ->). apply elem_of_cons in H3 as [E|H3].
          -- left. by destruct (Huniq m' s' n' H1 H2 E) as (-> & -> & ->).
          -- right. by exists m', s', n'.
  Qed.

  (** With ignore rules on: exactly the changes of the entries that are not ignored. *)
  Lemma changes_not_ignored : ∃ l, changes e f ub false = Ok l ∧
    ∀ c, c ∈ l ↔ ∃ m s n, m ∈ ms ∧ staged_at f ub m s n ∧ ignored_path (e_glob e) f ub m s = false ∧
      (lists_remove f ub m s n c ∨ lists_set f ub m s n c ∨ lists_error f ub m s n c).
  Proof.
    unfold changes, upper_entries.
    destruct (entries_ignored_loop (e_ord e (walkdir f ub)) ∅) as (es & -> & Hes).
    { intros p. by rewrite (He _). }
    { intros cl ps H. by rewrite lookup_empty in H. }
    simpl. assert (∀ x, x ∈ es → ∃ m s n, m ∈ ms ∧ staged_at f ub m s n ∧ x = entry_for f ub m s n) as Hes'.
    { intros x Hx. apply Hes in Hx as (m & s & n & H1 & H2 & _ & _ & H3). by exists m, s, n. }
    rewrite (no_renamed_paths f ub ms Hok) by done. simpl.
    destruct (changes_of_entries f ub ms Hok e es He Hes') as (css & -> & Hspec). simpl.
    eexists. split; [done|]. intros c. rewrite Hspec. split.
    - intros (m & s & n & H1 & H2 & H3 & H4). exists m, s, n. split; [done|]. split; [done|]. split; [|done].
      apply Hes in H3 as (m' & s' & n' & H1' & H2' & _ & Hi & E). apply (f_equal ue_upper) in E. cbn in E.
      apply (upper_dir_inj f ub ms Hok) in E as [-> ->]; done.
    - intros (m & s & n & H1 & H2 & H3 & H4). exists m, s, n. split; [done|]. split; [done|]. split; [|done].
      apply Hes. exists m, s, n. split; [done|]. split; [done|]. split; [|done]. rewrite (He _).
      apply elem_of_walkdir; [done|apply (so_ub _ _ _ Hst)|]. split.
      + unfold upper_dir. rewrite <-app_assoc. apply under_app.
      + destruct H2 as [_ H2]. by eexists.
  Qed.
End listing.
