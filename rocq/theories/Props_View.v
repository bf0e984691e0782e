(** * C63: accepting changes does not change what the sandbox shows *)
From Verif Require Export Props_Accept.

(** ** Specification *)
(** A selection that takes everything below what it takes ([all] is the listing with --ignored). *)
Definition closed_below (all sel : list change) : Prop :=
  ∀ c c', c ∈ sel → c' ∈ all → under (c_dest c) (c_dest c') = true → c' ∈ sel.
(** Nothing is taken out of a replaced (opaque) directory without the directory itself. *)
Definition with_replaced_parents (f : fs) (ub : path) (ms : list path) (sel : list change) : Prop :=
  ∀ c m s1 r n1, c ∈ sel → is_set c → m ∈ ms → c_dest c = m ++ s1 ++ r → r ≠ [] → owns ms m (c_dest c) →
    staged_at f ub m s1 n1 → opaque n1 = true → ∃ c1, c1 ∈ sel ∧ c_dest c1 = m ++ s1.

(** The full property: whatever is selected. *)
Definition C63_full : Prop := ∀ e f ub ms inc pats, sandbox_ok f ub ms → acceptable f ub ms → env_ok e → fresh_uuids e f →
  let o := accept e ub inc pats f in is_ok (o_res o) = true →
  ∀ m s, owns ms m (m ++ s) → s ≠ [] → under ub (m ++ s) = false →
    same_view (sandbox_view f ub m s) (sandbox_view (o_fs o) ub m s).

(** False when a directory is accepted without its contents... *)
Theorem C63_refuted : ¬ C63_full.
Proof.
  intros H.
  pose proof (H glob1 demo_fs demo_ub [[]] true ["/op*"] demo_ok demo_acceptable glob1_ok glob1_fresh) as H1. clear H. cbv zeta in H1.
  assert (is_ok (o_res (accept glob1 demo_ub true ["/op*"] demo_fs)) = true) as Hoks by (vm_compute; reflexivity).
  specialize (H1 Hoks [] ["opt"; "l"] (owns_root _) ltac:(discriminate)). clear Hoks.
  assert (under demo_ub ([] ++ ["opt"; "l"]) = false) as Hu by (vm_compute; reflexivity).
  specialize (H1 Hu). vm_compute in H1. exact H1.
Qed.
Print Assumptions C63_refuted.

(** ... and when a file in a replaced directory is accepted without the directory: the file is on
    the host then, and no longer visible in the sandbox. *)
Definition C63_closed_full : Prop := ∀ e f ub ms inc pats sel all, sandbox_ok f ub ms → acceptable f ub ms → env_ok e → fresh_uuids e f →
  selected e f ub inc pats = Ok sel → changes e f ub true = Ok all → closed_below all sel →
  let o := accept e ub inc pats f in is_ok (o_res o) = true →
  ∀ m s, owns ms m (m ++ s) → s ≠ [] → under ub (m ++ s) = false →
    same_view (sandbox_view f ub m s) (sandbox_view (o_fs o) ub m s).
Definition demo_all : list change := match changes demo_env demo_fs demo_ub true with Ok l => l | Err _ => [] end.
Definition new_sel : list change := match selected demo_env demo_fs demo_ub true ["/home/r/new"] with Ok l => l | Err _ => [] end.
Theorem C63_closed_refuted : ¬ C63_closed_full.
Proof.
  intros H.
  pose proof (H demo_env demo_fs demo_ub [[]] true ["/home/r/new"] new_sel demo_all demo_ok demo_acceptable demo_env_ok demo_fresh) as H1.
  clear H. cbv zeta in H1.
  specialize (H1 ltac:(vm_compute; reflexivity) ltac:(vm_compute; reflexivity)).
  assert (closed_below demo_all new_sel) as Hc.
  { intros c c' Hin Hin' Hu.
    assert (forallb (λ c, forallb (λ c', negb (under (c_dest c) (c_dest c')) || bool_decide (c_dest c' = ["home"; "r"; "new"])) demo_all) new_sel = true) as Hb
      by (vm_compute; reflexivity).
    rewrite forallb_forall in Hb. specialize (Hb c (proj1 (elem_of_list_In _ _) Hin)). rewrite forallb_forall in Hb.
    specialize (Hb c' (proj1 (elem_of_list_In _ _) Hin')). rewrite Hu in Hb. cbn [negb orb] in Hb. apply bool_decide_eq_true in Hb.
    assert (filter (λ c, c_dest c = ["home"; "r"; "new"]) demo_all = new_sel) as <- by (vm_compute; reflexivity).
    apply elem_of_list_filter. by split. }
  specialize (H1 Hc). clear Hc.
  assert (is_ok (o_res (accept demo_env demo_ub true ["/home/r/new"] demo_fs)) = true) as Hoks by (vm_compute; reflexivity).
  specialize (H1 Hoks [] ["home"; "r"; "new"] (owns_root _) ltac:(discriminate)). clear Hoks.
  assert (under demo_ub ([] ++ ["home"; "r"; "new"]) = false) as Hu by (vm_compute; reflexivity).
  specialize (H1 Hu). vm_compute in H1. exact H1.
Qed.
Print Assumptions C63_closed_refuted.

(** ** What holds *)
Section view.
  Context (e : env) (f : fs) (ub : path) (ms : list path) (inc : bool) (pats : list string) (sel all : list change).
  Context (Hok : sandbox_ok f ub ms) (He : env_ok e) (Hfu : fresh_uuids e f) (Hsel : selected e f ub inc pats = Ok sel).
  Context (Hall : ∀ c, c ∈ all ↔ lists f ub ms c).
  Context (Hcl : closed_below all sel) (Hop : with_replaced_parents f ub ms sel).

  Let Hwf : wf_tree f := so_wf _ _ _ (sb_storage _ _ _ Hok).
  Let o := accept e ub inc pats f.
  Context (Hoks : is_ok (o_res o) = true).

  (** The staged entry [s] of mount [m] was accepted, itself or with a directory above it. *)
  Definition taken (m s : path) : Prop :=
    ∃ s1 r n1 c1, s = s1 ++ r ∧ staged_at f ub m s1 n1 ∧ c1 ∈ sel ∧ c_staged c1 = Some (details_of (upper_dir ub m ++ s1) n1) ∧ c_dest c1 = m ++ s1.

  Lemma sel_lists (c : change) : c ∈ sel → lists f ub ms c.
  Proof. intros Hc. destruct (selected_plan f ub ms Hok e Hfu inc pats sel He Hsel) as [_ Hl]. by apply Hl. Qed.
  Lemma sel_no_error (c : change) (er : change_error) : c ∈ sel → c_op c ≠ OError er.
  Proof.
    intros Hc. destruct (selected_plan f ub ms Hok e Hfu inc pats sel He Hsel) as [Hplan _].
    by apply (accept_ok_no_error e f ub inc pats sel Hsel (pl_norename _ _ _ _ Hplan) Hoks c er).
  Qed.

  Lemma staged_sel (p : path) : p ∈ staged_paths sel → ∃ m s n c, m ∈ ms ∧ staged_at f ub m s n ∧ p = upper_dir ub m ++ s ∧
    c ∈ sel ∧ c_staged c = Some (details_of p n) ∧ c_dest c = m ++ s.
  Proof.
    intros Hp. apply elem_of_staged_paths in Hp as (c & st & Hc & _ & Hst & ->).
    destruct (sel_lists c Hc) as (m & s & n & Hm & Hs & H).
    destruct H as [(_ & q & k & Hu & Hk & Ec)|[(_ & _ & Ec)|(_ & _ & Ec)]]; rewrite Ec in Hst; cbn in Hst.
    - destruct (decide (q = m ++ s)) as [Eq|]; [|done]. injection Hst as <-. exists m, s, n, c.
      split; [done|]. split; [done|]. split; [done|]. split; [exact Hc|]. rewrite Ec. cbn [c_staged c_dest d_path details_of]. destruct (decide (q = m ++ s)); [done|done].
    - injection Hst as <-. exists m, s, n, c. rewrite Ec in Hc |- *. done.
    - injection Hst as <-. exists m, s, n, c. rewrite Ec in Hc |- *. done.
  Qed.

  Lemma storage_under (m s : path) : under ub (upper_dir ub m ++ s) = true.
  Proof. unfold upper_dir. rewrite <-app_assoc. apply under_app. Qed.

  Lemma wf_final : wf_tree (o_fs o).
  Proof. destruct (final_ok e f ub ms inc pats sel Hok He Hfu Hsel Hoks) as (s2 & _ & _ & [[H _] _]). done. Qed.

  Lemma storage_after (m s : path) : m ∈ ms →
    (taken m s → o_fs o !! (upper_dir ub m ++ s) = None) ∧
    (¬ taken m s → o_fs o !! (upper_dir ub m ++ s) = f !! (upper_dir ub m ++ s)).
  Proof.
    intros Hm. split.
    - intros (s1 & r & n1 & c1 & -> & Hs1 & Hc1 & Hst & _).
      destruct (final_ok e f ub ms inc pats sel Hok He Hfu Hsel Hoks) as (s2 & _ & _ & [[Hw _] Hg]). fold o in Hw, Hg.
      assert (o_fs o !! (upper_dir ub m ++ s1) = None) as Hn.
      { apply Hg. apply elem_of_staged_paths. exists c1, (details_of (upper_dir ub m ++ s1) n1).
        split; [done|]. split; [|done]. destruct (sel_lists c1 Hc1) as (m' & s' & n' & _ & _ & H).
        destruct H as [(_ & q & k & _ & _ & ->)|[(_ & _ & ->)|(_ & _ & Ec)]]; [by left|right; by eexists|].
        exfalso. apply (sel_no_error c1 UnsupportedFileType Hc1). by rewrite Ec. }
      destruct (o_fs o !! (upper_dir ub m ++ s1 ++ r)) as [x|] eqn:E; [|done]. rewrite app_assoc in E.
      destruct (wf_is_Some_prefix _ _ _ _ Hw E) as [y Hy]. congruence.
    - intros Hn. apply (staged_intact e f ub ms inc pats sel Hok He Hfu Hsel).
      + unfold states. apply elem_of_app. right. left.
      + apply storage_under.
      + intros p Hp. destruct (staged_sel p Hp) as (m' & s' & n' & c & Hm' & Hs' & -> & Hc & Hst & Hd).
        destruct (under (upper_dir ub m' ++ s') (upper_dir ub m ++ s)) eqn:E; [|done]. exfalso. apply Hn.
        apply under_spec in E as [r E]. rewrite <-app_assoc in E.
        apply (upper_dir_inj f ub ms Hok) in E as [<- ->]; [|done|done]. by exists s', r, n', c.
  Qed.

  (** [taken] can be decided: it depends on a bounded search. *)
  Lemma taken_dec (m s : path) : m ∈ ms → taken m s ∨ ¬ taken m s.
  Proof.
    intros Hm.
    set (b := existsb (λ p, under p (upper_dir ub m ++ s)) (staged_paths sel)). destruct b eqn:Eb; subst b.
    - left. apply existsb_exists in Eb as (p & Hp & Hu). apply elem_of_list_In in Hp.
      destruct (staged_sel p Hp) as (m' & s' & n' & c & Hm' & Hs' & -> & Hc & Hst & Hd).
      apply under_spec in Hu as [r E]. rewrite <-app_assoc in E.
      apply (upper_dir_inj f ub ms Hok) in E as [<- ->]; [|done|done]. by exists s', r, n', c.
    - right. intros (s1 & r & n1 & c1 & -> & Hs1 & Hc1 & Hst & Hd). rewrite <-Bool.not_true_iff_false in Eb. apply Eb.
      apply existsb_exists. exists (upper_dir ub m ++ s1). split; [|rewrite app_assoc; apply under_app].
      apply elem_of_list_In, elem_of_staged_paths. exists c1, (details_of (upper_dir ub m ++ s1) n1).
      split; [done|]. split; [|done]. destruct (sel_lists c1 Hc1) as (m' & s' & n' & _ & _ & H).
      destruct H as [(_ & q & k & _ & _ & ->)|[(_ & _ & ->)|(_ & _ & Ec)]]; [by left|right; by eexists|].
      exfalso. apply (sel_no_error c1 UnsupportedFileType Hc1). by rewrite Ec.
  Qed.

  (** What is taken is taken with everything listed below. *)
  Lemma taken_listed (m s q : path) (c : change) : taken m s → lists f ub ms c → under (m ++ s) (c_dest c) = true → c ∈ sel.
  Proof.
    intros (s1 & r & n1 & c1 & -> & _ & Hc1 & _ & Hd) Hc Hu. apply (Hcl c1); [done|by apply Hall|].
    rewrite Hd. eapply under_trans; [|exact Hu]. rewrite app_assoc. apply under_app.
  Qed.

  Lemma view_kept (m s : path) : owns ms m (m ++ s) → s ≠ [] → under ub (m ++ s) = false →
    same_view (sandbox_view f ub m s) (sandbox_view (o_fs o) ub m s).
  Proof.
    intros Hown Hs Hub. pose proof (proj1 Hown) as Hm.
    destruct (overlay_both f (upper_dir ub m) m s Hwf Hs) as (V1 & V2 & V3).
    fold (sandbox_view f ub m s) in V1, V2, V3.
    destruct (overlay_both (o_fs o) (upper_dir ub m) m s wf_final Hs) as (W1 & W2 & W3).
    fold (sandbox_view (o_fs o) ub m s) in W1, W2, W3.
    destruct (final_ok e f ub ms inc pats sel Hok He Hfu Hsel Hoks) as (s2 & _ & (_ & Hset & Hrest) & [Hcln _]).
    assert (o_fs o !! (m ++ s) = s2 !! (m ++ s)) as Hh by (by apply (cleaning_outside e f ub ms inc pats sel Hok He Hfu Hsel s2)).
    assert (∀ s0 n0, o_fs o !! (upper_dir ub m ++ s0) = Some n0 → ¬ taken m s0 ∧ f !! (upper_dir ub m ++ s0) = Some n0) as Hsub.
    { intros s0 n0 H. destruct (storage_after m s0 Hm) as [H1 H2]. destruct (taken_dec m s0 Hm) as [Ht|Ht].
      - rewrite H1 in H by done. done.
      - split; [done|]. by rewrite <-H2. }
    assert (∀ c, c ∈ sel → is_set c → m ++ s = c_dest c → ∃ n, staged_at f ub m s n ∧ whiteout n = false) as Hsets.
    { intros c Hc Hsc E. apply sel_lists in Hc. apply (set_of f ub ms) in Hsc as (m' & s' & n' & Hm' & Hs' & Hw & _ & Hd & _); [|done].
      rewrite Hd in E.
      assert (m = m') as <-.
      { eapply (owner_unique ms m m' (m ++ s)); [done|].
        rewrite E. apply (ho_owner _ _ _ _ _ _ (sb_host _ _ _ Hok m' s' n' Hm' Hs')). }
      apply app_inv_head in E as ->. by exists n'. }
    assert (f !! (m ++ s) = None → ¬ removed sel (m ++ s)) as Hnone.
    { intros Hn (c & Hc & Hr). apply sel_lists in Hc.
      destruct (remove_of f ub ms c _ Hc Hr) as (m' & s' & n' & k & _ & _ & _ & _ & Hk & _). congruence. }
    destruct (f !! (upper_dir ub m ++ s)) as [n|] eqn:En.
    - (* a staged entry *)
      rewrite (V1 n eq_refl). assert (staged_at f ub m s n) as Hsa by done.
      destruct (taken_dec m s Hm) as [Ht|Ht].
      2: { rewrite (W1 n); [apply same_view_refl|]. rewrite <-En. by apply storage_after. }
      specialize (W2 (proj1 (storage_after m s Hm) Ht)). specialize (W3 (proj1 (storage_after m s Hm) Ht)).
      (* everything listed here was accepted *)
      assert (∀ c, lists f ub ms c → c_dest c = m ++ s → c ∈ sel) as Hhere.
      { intros c Hc Hd. apply (taken_listed m s s); [done|done|]. rewrite Hd. apply under_refl. }
      destruct (whiteout n) eqn:Ew.
      + assert (s2 !! (m ++ s) = None) as Hg.
        { destruct (Hrest (m ++ s)) as [R1 R2].
          { intros c Hc Hsc E. destruct (Hsets c Hc Hsc E) as (n' & [_ Hn'] & Hw). congruence. }
          destruct (f !! (m ++ s)) as [k|] eqn:Ek; [|rewrite R2; [done|by apply Hnone]].
          apply R1.
          exists (Change (m ++ s) ORemove (Some (details_of (m ++ s) k))
            (if decide (m ++ s = m ++ s) then Some (details_of (upper_dir ub m ++ s) n) else None) None).
          split; [|split; [done|by eexists]].
          apply Hhere; [|done]. exists m, s, n. split; [done|]. split; [done|]. left.
          split; [exists k; auto|]. exists (m ++ s), k. split; [apply under_refl|]. done. }
        destruct (hidden_dec (o_fs o) (upper_dir ub m) s) as [H|H]; [by rewrite W2|]. by rewrite W3, Hh, Hg.
      + destruct (supported n) eqn:Esup.
        2: { exfalso.
             set (c := Change (m ++ s) (OError UnsupportedFileType) (source_details f (m ++ s))
                       (Some (details_of (upper_dir ub m ++ s) n)) None).
             apply (sel_no_error c UnsupportedFileType); [|done]. apply Hhere; [|done].
             exists m, s, n. split; [done|]. split; [done|]. right. right. done. }
        set (c := Change (m ++ s) (OSet (set_type_of f ub m s)) (source_details f (m ++ s))
                    (Some (details_of (upper_dir ub m ++ s) n)) None).
        assert (c ∈ sel) as Hc.
        { apply Hhere; [|done]. exists m, s, n. split; [done|]. split; [done|]. right. left. done. }
        destruct (Hset c Hc ltac:(by eexists)) as (st & nst & n' & E1 & E2 & E3 & E4 & _).
        cbn in E1. injection E1 as <-. cbn in E2, E3. rewrite En in E2. injection E2 as <-.
        rewrite W3, Hh, E3; [done|].
        intros s1 x r n1 E H1 Hn1. destruct (hides n1) eqn:Eh; [|done]. exfalso.
        destruct (Hsub s1 n1 Hn1) as [Hnt Hf1].
        assert (n_kind n1 = KDir) as Hk1.
        { rewrite E, app_assoc in En. apply wf_prefix in En as (k & Hk & Hkd); [congruence|done|done]. }
        unfold hides in Eh. rewrite whiteout_dir, Hk1 in Eh by done. cbn in Eh. rewrite orb_false_r in Eh.
        destruct (Hop c m s1 (x :: r) n1 Hc ltac:(by eexists) Hm) as (c1 & Hc1 & Hd1); [by rewrite <-E|done|done|done|done|].
        apply Hnt.
        assert (Change (m ++ s1) (OSet (set_type_of f ub m s1)) (source_details f (m ++ s1))
                  (Some (details_of (upper_dir ub m ++ s1) n1)) None ∈ sel) as Hin.
        { apply (Hcl c1); [done| |rewrite Hd1; apply under_refl]. apply Hall. exists m, s1, n1. split; [done|]. split; [done|].
          right. left. split; [by apply whiteout_dir|]. split; [by unfold supported; rewrite Hk1|done]. }
        exists s1, [], n1. eexists. split; [by rewrite app_nil_r|]. split; [done|]. split; [exact Hin|]. done.
    - (* nothing staged here *)
      specialize (V2 eq_refl). specialize (V3 eq_refl).
      assert (o_fs o !! (upper_dir ub m ++ s) = None) as En'.
      { destruct (o_fs o !! (upper_dir ub m ++ s)) as [x|] eqn:E; [|done]. apply Hsub in E as [_ E]. congruence. }
      specialize (W2 En'). specialize (W3 En').
      destruct (Hrest (m ++ s)) as [R1 R2].
      { intros c Hc Hsc E. destruct (Hsets c Hc Hsc E) as (n' & [_ Hn'] & _). congruence. }
      destruct (hidden_dec f (upper_dir ub m) s) as [H|H].
      + rewrite V2 by done.
        destruct (hidden_dec (o_fs o) (upper_dir ub m) s) as [H'|H']; [by rewrite W2|]. rewrite W3, Hh by done.
        destruct H as (s1 & x & r & n1 & E & H1 & Hn1 & Hhid).
        assert (taken m s1) as Ht.
        { destruct (taken_dec m s1 Hm) as [?|Hnt]; [done|]. exfalso.
          rewrite (H' s1 x r n1 E H1) in Hhid; [done|]. rewrite <-Hn1. by apply storage_after. }
        destruct (f !! (m ++ s)) as [k|] eqn:Ek; [|rewrite R2; [done|by apply Hnone]].
        rewrite R1; [done|].
        assert (is_dir_at f (m ++ s1)) as (k1 & Hk1 & Hk1d).
        { rewrite E in Ek. rewrite app_assoc in Ek. by apply wf_prefix in Ek. }
        exists (Change (m ++ s) ORemove (Some (details_of (m ++ s) k))
          (if decide (m ++ s = m ++ s1) then Some (details_of (upper_dir ub m ++ s1) n1) else None) None).
        split; [|split; [done|by eexists]].
        apply (taken_listed m s1 s); [done| |cbn; rewrite E, app_assoc; apply under_app].
        exists m, s1, n1. split; [done|]. split; [done|]. left. split.
        * exists k1. split; [done|]. unfold hides in Hhid. rewrite !orb_true_iff, negb_true_iff in Hhid.
          destruct Hhid as [[Eh|Eh]|Eh]; auto.
        * exists (m ++ s), k. split; [|done]. rewrite E, app_assoc. apply under_app.
      + rewrite V3 by done. rewrite W3.
        2: { intros s1 x r n1 E H1 Hn1. apply (H s1 x r n1 E H1). by apply Hsub in Hn1 as [_ ?]. }
        rewrite Hh, R2; [apply same_view_refl|].
        intros (c & Hc & Hr). apply sel_lists in Hc.
        destruct (remove_of f ub ms c _ Hc Hr) as (m' & s' & n' & k & Hm' & Hs' & Hroot & Hu & _).
        assert (hides n' = true) as Hhid by (by eapply (removal_hides f ub ms m' s')).
        destruct (root_above f ub ms Hok m s m' s' n' Hown Hm' Hs' Hhid Hu) as [<- [r ->]].
        destruct Hs' as [Hne Hs']. destruct r as [|c0 r].
        * rewrite app_nil_r in En. congruence.
        * rewrite (H s' c0 r n') in Hhid; done.
  Qed.
End view.

Theorem C63_view_kept_partial : ∀ e f ub ms inc pats sel all, sandbox_ok f ub ms → env_ok e → fresh_uuids e f →
  selected e f ub inc pats = Ok sel → changes e f ub true = Ok all →
  closed_below all sel → with_replaced_parents f ub ms sel →
  let o := accept e ub inc pats f in is_ok (o_res o) = true →
  ∀ m s, owns ms m (m ++ s) → s ≠ [] → under ub (m ++ s) = false →
    same_view (sandbox_view f ub m s) (sandbox_view (o_fs o) ub m s).
Proof.
  intros e f ub ms inc pats sel all Hok He Hfu Hsel Hch Hcl Hop o Hoks m s Ho Hs Hu.
  destruct (changes_complete f ub ms Hok e He) as (l & Hl & Hall). assert (l = all) as -> by congruence.
  by apply (view_kept e f ub ms inc pats sel all Hok He Hfu Hsel Hall Hcl Hop Hoks).
Qed.
Print Assumptions C63_view_kept_partial.

(** *** The hypotheses are met: a deletion and a replaced directory are accepted, other changes
    are left in the sandbox. *)
Definition part_env : env := Env (λ p s, String.eqb p s || String.eqb p "/home/r/**" && starts_with "/home/r" s) (λ l, l) (λ _ _, "uuid") ["home"] 18.
Definition part_pats : list string := ["/etc/gone"; "/home/r"].
Definition part_paths : list path := [["etc"; "gone"]; ["home"; "r"]; ["home"; "r"; "new"]; ["home"; "r"; "old"]].
Definition part_sel : list change := match selected part_env demo_fs demo_ub true part_pats with Ok l => l | Err _ => [] end.
Lemma part_closed : closed_below demo_all part_sel.
Proof.
  intros c c' Hin Hin' Hu.
  assert (forallb (λ c, forallb (λ c', negb (under (c_dest c) (c_dest c')) || bool_decide (c_dest c' ∈ part_paths)) demo_all) part_sel = true) as Hb
    by (vm_compute; reflexivity).
  rewrite forallb_forall in Hb. specialize (Hb c (proj1 (elem_of_list_In _ _) Hin)). rewrite forallb_forall in Hb.
  specialize (Hb c' (proj1 (elem_of_list_In _ _) Hin')). rewrite Hu in Hb. cbn [negb orb] in Hb. apply bool_decide_eq_true in Hb.
  assert (filter (λ c, c_dest c ∈ part_paths) demo_all = part_sel) as <- by (vm_compute; reflexivity).
  apply elem_of_list_filter. by split.
Qed.
Lemma part_parents : with_replaced_parents demo_fs demo_ub [[]] part_sel.
Proof.
  intros c m s1 r n1 Hc _ Hm Hd _ _ Hs Ho. apply elem_of_list_singleton in Hm as ->. cbn [app] in *.
  assert (on_staged demo_fs demo_ub [[]] (λ m s n, negb (opaque n) || bool_decide (s = ["home"; "r"])) = true) as Hb by (vm_compute; reflexivity).
  pose proof (on_staged_spec _ _ _ _ Hb [] s1 n1 ltac:(left) Hs) as H. cbv beta in H. rewrite Ho in H. cbn [negb orb] in H.
  apply bool_decide_eq_true in H. subst s1.
  assert (existsb (λ c1, bool_decide (c_dest c1 = ["home"; "r"])) part_sel = true) as He by (vm_compute; reflexivity).
  apply existsb_exists in He as (c1 & H1 & H2). exists c1. split; [by apply elem_of_list_In|]. by apply bool_decide_eq_true in H2.
Qed.
Example C63_nonvacuous : let o := accept part_env demo_ub true part_pats demo_fs in
  selected part_env demo_fs demo_ub true part_pats = Ok part_sel ∧ changes part_env demo_fs demo_ub true = Ok demo_all ∧
  closed_below demo_all part_sel ∧ with_replaced_parents demo_fs demo_ub [[]] part_sel ∧ is_ok (o_res o) = true ∧
  length part_sel = 5 ∧ length demo_all = 14.
Proof.
  cbv zeta. split; [vm_compute; reflexivity|]. split; [vm_compute; reflexivity|]. split; [exact part_closed|]. split; [exact part_parents|].
  repeat split; vm_compute; reflexivity.
Qed.
