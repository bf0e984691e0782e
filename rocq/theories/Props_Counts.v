(** * C73: the numbers that `delete` shows before it asks.
    Model: Output.v [count_upper_entries] (changes.rs:210-273). *)
From Verif Require Export Output IgnoreFacts Props_Listing.

(** ** Specification *)
(** What is staged for the mount [m] at [s] counts, unless it is (or leads to) a directory. *)
Definition counts (f : fs) (ub : path) (ms : list path) (m s : path) : Prop :=
  m ∈ ms ∧ (∃ n, staged_at f ub m s n) ∧ is_dir f (upper_dir ub m ++ s) = false.
Definition utf8_sandbox (f : fs) (ub : path) (ms : list path) : Prop :=
  ∀ m s n, m ∈ ms → staged_at f ub m s n → utf8_valid (path_str (m ++ s)) = true.

(** ** Proof *)
Lemma count_base (e : env) (f : fs) (ub : path) (inc : bool) (ps : list path) (c : cache) :
  count_loop e f ub inc (ub :: ps) c = count_loop e f ub inc ps c.
Proof. cbn [count_loop]. rewrite <-(app_nil_r ub) at 2. by rewrite path_strip_app. Qed.

Section counting.
  Context (f : fs) (ub : path) (ms : list path) (Hok : sandbox_ok f ub ms).
  Context (e : env) (He : env_ok e) (Hutf : utf8_sandbox f ub ms).

  Lemma count_root (inc : bool) (m : path) (ps : list path) (c : cache) : m ∈ ms →
    count_loop e f ub inc (upper_dir ub m :: ps) c = count_loop e f ub inc ps c.
  Proof using Hok.
    intros Hm. cbn [count_loop]. unfold upper_dir. rewrite path_strip_app.
    rewrite (decode_mount f ub ms Hok m Hm). done.
  Qed.
  Lemma count_staged (inc : bool) (m s : path) (n : node) (ps : list path) (c : cache) : m ∈ ms → staged_at f ub m s n →
    count_loop e f ub inc ((upper_dir ub m ++ s) :: ps) c =
    if is_dir f (upper_dir ub m ++ s) then count_loop e f ub inc ps c
    else let '(ig, c') := if inc then (Ok false, c) else is_ignored (e_glob e) f ub (b32_encode (path_str m)) m s c in
         rbind ig (λ b : bool, rbind (count_loop e f ub inc ps c') (λ '(n, i), Ok (S n, if b then S i else i))).
  Proof using Hok.
    intros Hm [Hne _]. cbn [count_loop]. unfold upper_dir at 1. rewrite <-app_assoc, path_strip_app.
    cbn [app]. rewrite (decode_mount f ub ms Hok m Hm). destruct s as [|x s]; done.
  Qed.

  Lemma count_loop_spec (inc : bool) (ps : list path) (c : cache) :
    NoDup ps → (∀ p, p ∈ ps → p ∈ walkdir f ub) → cache_ok f ub ms c →
    ∃ L, NoDup L ∧ (∀ m s, (m, s) ∈ L ↔ counts f ub ms m s ∧ (upper_dir ub m ++ s) ∈ ps) ∧
      count_loop e f ub inc ps c = Ok (length L,
        if inc then 0 else length (filter (λ x, ignored_path (e_glob e) f ub x.1 x.2 = true) L)).
  Proof using Hok Hutf.
    revert c. induction ps as [|p ps IH]; intros c Hnd Hps Hc.
    { exists []. split; [apply NoDup_nil_2|]. split.
      - intros m s. split; [intros H; by apply elem_of_nil in H|]. intros [_ H]. by apply elem_of_nil in H.
      - cbn. by destruct inc. }
    apply NoDup_cons in Hnd as [Hnin Hnd].
    assert (∀ q, q ∈ ps → q ∈ walkdir f ub) as Hps' by (intros q Hq; apply Hps; by right).
    destruct (walk_item f ub ms Hok p ltac:(apply Hps; left)) as [-> |[(m & Hm & ->)|(m & s & n & Hm & Hs & ->)]].
    - rewrite count_base. destruct (IH c Hnd Hps' Hc) as (L & H1 & H2 & H3). exists L. split; [done|]. split; [|done].
      intros m s. rewrite H2. split; intros [G1 G2]; (split; [done|]); [by right|].
      apply elem_of_cons in G2 as [E|G2]; [|done]. exfalso. destruct G1 as (_ & (n & Hne & _) & _).
      apply (f_equal length) in E. unfold upper_dir in E. rewrite !app_length in E. cbn in E. lia.
    - rewrite count_root by done. destruct (IH c Hnd Hps' Hc) as (L & H1 & H2 & H3). exists L. split; [done|]. split; [|done].
      intros m' s. rewrite H2. split; intros [G1 G2]; (split; [done|]); [by right|].
      apply elem_of_cons in G2 as [E|G2]; [|done]. exfalso. destruct G1 as (_ & (n & Hne & _) & _).
      apply (f_equal length) in E. unfold upper_dir in E. rewrite !app_length in E. destruct s; [done|]. cbn in E. lia.
    - rewrite (count_staged inc m s n) by done. destruct (is_dir f (upper_dir ub m ++ s)) eqn:Ed.
      { destruct (IH c Hnd Hps' Hc) as (L & H1 & H2 & H3). exists L. split; [done|]. split; [|done].
        intros m' s'. rewrite H2. split; intros [G1 G2]; (split; [done|]); [by right|].
        apply elem_of_cons in G2 as [E|G2]; [|done]. exfalso. destruct G1 as (_ & _ & G3). congruence. }
      assert (∀ c', cache_ok f ub ms c' → ∃ L, NoDup ((m, s) :: L) ∧
        (∀ m' s', (m', s') ∈ (m, s) :: L ↔ counts f ub ms m' s' ∧ (upper_dir ub m' ++ s') ∈ (upper_dir ub m ++ s) :: ps) ∧
        count_loop e f ub inc ps c' = Ok (length L,
          if inc then 0 else length (filter (λ x, ignored_path (e_glob e) f ub x.1 x.2 = true) L))) as HL.
      { intros c' Hc'. destruct (IH c' Hnd Hps' Hc') as (L & H1 & H2 & H3). exists L. split; [|split; [|exact H3]].
        - apply NoDup_cons. split; [|done]. intros H. apply H2 in H as [_ H]. contradiction.
        - intros m' s'. rewrite !elem_of_cons, H2. split.
          + intros [E|[G1 G2]]; [|split; [done|by right]]. injection E as -> ->. split; [|by left].
            split; [done|]. split; [by exists n|done].
          + intros [G1 [E|G2]]; [|by right]. left. destruct G1 as (Hm' & _).
            apply (upper_dir_inj f ub ms Hok) in E as [-> ->]; done. }
      destruct inc.
      + cbn [rbind]. destruct (HL c Hc) as (L & H1 & H2 & H3). exists ((m, s) :: L). split; [done|]. split; [done|].
        rewrite H3. reflexivity.
      + destruct (is_ignored_spec f ub ms Hok (e_glob e) m s n c Hm Hs Hc ltac:(by eapply Hutf)) as (c' & -> & Hc').
        destruct (HL c' Hc') as (L & H1 & H2 & H3). exists ((m, s) :: L). split; [done|]. split; [done|].
        cbn [rbind]. rewrite H3. cbn [rbind]. rewrite filter_cons. cbn [fst snd].
        destruct (ignored_path (e_glob e) f ub m s) eqn:Ei.
        * rewrite decide_True by done. reflexivity.
        * rewrite decide_False by done. reflexivity.
  Qed.
End counting.

Lemma filter_split {A : Type} (P : A → bool) (l : list A) :
  length l - length (filter (λ x, P x = true) l) = length (filter (λ x, P x = false) l).
Proof.
  assert (length l = length (filter (λ x, P x = true) l) + length (filter (λ x, P x = false) l)) as ->.
  { induction l as [|x l IH]; [done|]. rewrite !filter_cons. destruct (P x); cbn [length]; [rewrite decide_True, decide_False by done|rewrite decide_False, decide_True by done]; cbn [length]; lia. }
  lia.
Qed.

(** The numbers: how many of the staged entries that are no directories are not ignored, and how many are;
    with --ignored nothing counts as ignored. *)
Theorem C73_counts_partial (e : env) (f : fs) (ub : path) (ms : list path) :
  env_ok e → sandbox_ok f ub ms →
  ∃ L, NoDup L ∧ (∀ m s, (m, s) ∈ L ↔ counts f ub ms m s) ∧
    count_upper_entries e f ub false = Ok
      (length (filter (λ x, ignored_path (e_glob e) f ub x.1 x.2 = false) L),
       length (filter (λ x, ignored_path (e_glob e) f ub x.1 x.2 = true) L)) ∧
    count_upper_entries e f ub true = Ok (length L, 0).
Proof.
  intros He Hok. pose proof (text_staged f ub ms Hok : utf8_sandbox f ub ms) as Hutf. pose proof (so_wf _ _ _ (sb_storage _ _ _ Hok)) as Hwf.
  pose proof (so_ub _ _ _ (sb_storage _ _ _ Hok)) as Hub.
  assert (NoDup (e_ord e (walkdir f ub))) as Hnd by (rewrite (He _); apply NoDup_walkdir; done).
  assert (∀ p, p ∈ e_ord e (walkdir f ub) → p ∈ walkdir f ub) as Hps by (intros p; by rewrite (He _)).
  assert (cache_ok f ub ms ∅) as Hc by (intros cl ps H; by rewrite lookup_empty in H).
  assert (∀ m s, counts f ub ms m s → upper_dir ub m ++ s ∈ e_ord e (walkdir f ub)) as Hin.
  { intros m s (Hm & (n & Hne & Hn) & _). rewrite (He _). apply elem_of_walkdir; [done|done|].
    split; [unfold upper_dir; rewrite <-app_assoc; apply under_app|by eexists]. }
  destruct (count_loop_spec f ub ms Hok e Hutf false _ ∅ Hnd Hps Hc) as (L & H1 & H2 & H3).
  destruct (count_loop_spec f ub ms Hok e Hutf true _ ∅ Hnd Hps Hc) as (K & G1 & G2 & G3).
  assert (∀ m s, (m, s) ∈ L ↔ counts f ub ms m s) as HL.
  { intros m s. rewrite H2. split; [by intros [? _]|]. intros H. split; [done|by apply Hin]. }
  exists L. split; [done|]. split; [exact HL|]. unfold count_upper_entries. rewrite H3, G3. cbn [rbind]. split.
  - f_equal. f_equal. apply (filter_split (λ x, ignored_path (e_glob e) f ub x.1 x.2)).
  - rewrite Nat.sub_0_r. f_equal. f_equal. apply Permutation_length. apply NoDup_Permutation; [done|done|].
    intros [m s]. rewrite HL, G2. pose proof (Hin m s). tauto.
Qed.
Print Assumptions C73_counts_partial.

Lemma sub_zero (a b c : nat) : a - b = c → b = 0 → c = 0 → a = 0.
Proof. lia. Qed.
(** If no entries are shown, no file contents and no deletion is lost: all that is staged are directories and
    symbolic links. *)
Theorem C73_zero_partial (e : env) (f : fs) (ub : path) (ms : list path) (inc : bool) (m s : path) (n : node) :
  env_ok e → sandbox_ok f ub ms →
  count_upper_entries e f ub inc = Ok (0, 0) → m ∈ ms → staged_at f ub m s n →
  n_kind n = KDir ∨ ∃ t, n_kind n = KLink t.
Proof.
  intros He Hok E Hm Hs. destruct (C73_counts_partial e f ub ms He Hok) as (L & _ & HL & E1 & E2).
  assert (L = []) as ->.
  { destruct inc.
    - rewrite E2 in E. injection E as E. by apply nil_length_inv.
    - rewrite E1 in E. injection E as Ea Eb. apply nil_length_inv.
      pose proof (filter_split (λ x, ignored_path (e_glob e) f ub x.1 x.2) L) as H. exact (sub_zero _ _ _ H Eb Ea). }
  destruct (is_dir f (upper_dir ub m ++ s)) eqn:Ed.
  - destruct (is_klink (n_kind n)) eqn:El.
    + right. destruct (n_kind n); try discriminate El. by eexists.
    + left. destruct Hs as [_ Hs]. unfold is_dir in Ed.
      rewrite (stat_dom f _ n (so_wf _ _ _ (sb_storage _ _ _ Hok)) Hs El) in Ed. by destruct (n_kind n).
  - exfalso. apply (not_elem_of_nil (m, s)). apply HL. split; [done|]. split; [by exists n|done].
Qed.
Print Assumptions C73_zero_partial.

(** In full: if no entries are shown, there is nothing to lose. False: [rm -r d; mkdir d] hides all that was
    in d, and new directories do not count either. *)
Definition C73_full : Prop := ∀ e f ub ms l,
  env_ok e → sandbox_ok f ub ms →
  count_upper_entries e f ub true = Ok (0, 0) → changes e f ub true = Ok l → l = [].
Definition emptied_fs : fs := list_to_map
  [ ([], dir0); (["home"], dir0); (["home"; "d"], dir0); (["home"; "d"; "x"], file_ "1");
    (["sbx"], dir0); (["sbx"; "up"], dir0); (["sbx"; "up"; "F4"], dir0);
    (["sbx"; "up"; "F4"; "home"], dir0); (["sbx"; "up"; "F4"; "home"; "d"], opaque_dir);
    (["sbx"; "up"; "F4"; "opt"], mk KDir 448 5) ].
Theorem C73_refuted : ¬ C73_full.
Proof.
  intros H. assert (∃ c l, changes demo_env emptied_fs demo_ub true = Ok (c :: l)) as (c & l & E).
  { eexists _, _. vm_compute. reflexivity. }
  specialize (H demo_env emptied_fs demo_ub [[]] (c :: l) demo_env_ok).
  assert (c :: l = []) as K; [|discriminate K]. apply H.
  - apply sandbox_okb_spec. vm_compute. reflexivity.
  - vm_compute. reflexivity.
  - exact E.
Qed.
Print Assumptions C73_refuted.

(** Non-vacuity: in the demo sandbox five entries count, one of them ignored by a rule. *)
Definition ignoring_env : env :=
  Env (λ p s, String.eqb p "/**" || (String.eqb p "**/.git/**" && String.eqb s "/home/r/new"))%bool
    (λ l, l) (λ _ _, "uuid") ["home"] 18.
Example C73_nonvacuous :
  env_ok ignoring_env ∧ sandbox_ok demo_fs demo_ub [[]] ∧
  count_upper_entries ignoring_env demo_fs demo_ub false = Ok (4, 1) ∧
  count_upper_entries ignoring_env demo_fs demo_ub true = Ok (5, 0) ∧
  count_upper_entries demo_env emptied_fs demo_ub false = Ok (0, 0).
Proof.
  split; [intros l; reflexivity|]. split; [exact demo_ok|].
  split; [vm_compute; reflexivity|]. split; vm_compute; reflexivity.
Qed.
