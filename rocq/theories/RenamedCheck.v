(** * Executable checks of [renamed_ok], used to show that concrete states meet it *)
From Verif Require Export RenamedView Checkers Rename.

Definition staged_of (f : fs) (ub m : path) : list (path * node) :=
  omap (λ kn : path * node, match path_strip (upper_dir ub m) kn.1 with Some (c :: r) => Some (c :: r, kn.2) | _ => None end) (map_to_list f).
Lemma staged_of_spec (f : fs) (ub m s : path) (n : node) : (s, n) ∈ staged_of f ub m ↔ staged_at f ub m s n.
Proof.
  unfold staged_of. rewrite elem_of_list_omap. split.
  - intros ([k n'] & H & E). apply elem_of_map_to_list in H. cbn [fst snd] in E.
    destruct (path_strip (upper_dir ub m) k) as [[|c r]|] eqn:Ep; try done. injection E as <- <-.
    apply path_strip_spec in Ep as ->. done.
  - intros [Hne Hn]. exists (upper_dir ub m ++ s, n). split; [by apply elem_of_map_to_list|]. cbn [fst snd].
    rewrite path_strip_app. by destruct s.
Qed.

Definition entry_formatb (n : node) : bool :=
  (match n_kind n with KChr r => N.eqb r 0 || negb (N.eqb (N.land r 65535) 0) | _ => true end) &&
  (match n_xattr n !! "trusted.overlay.whiteout" with
   | Some v => is_kfile (n_kind n) && (String.length v <=? 1) | None => true end) &&
  (match n_xattr n !! "trusted.overlay.opaque" with
   | Some v => is_kdir (n_kind n) && String.eqb v "y" | None => true end) &&
  (match redirect n with Some r => is_kdir (n_kind n) && forallb comp_okb (comps r) | None => true end).
Lemma entry_formatb_spec (n : node) : entry_formatb n = true → entry_format n.
Proof.
  unfold entry_formatb. rewrite !andb_true_iff. intros [[[H1 H2] H3] H4]. split.
  - intros r Hr. rewrite Hr in H1. apply orb_true_iff in H1 as [H1|H1].
    + left. by apply N.eqb_eq.
    + right. apply negb_true_iff, N.eqb_neq in H1. done.
  - intros v Hv. rewrite Hv in H2. apply andb_true_iff in H2 as [H2 H2']. split; [done|].
    by apply Nat.leb_le.
  - intros v Hv. rewrite Hv in H3. apply andb_true_iff in H3 as [H3 H3']. split.
    + by destruct (n_kind n).
    + by apply String.eqb_eq.
  - intros r Hr. rewrite Hr in H4. apply andb_true_iff in H4 as [H4 H4']. split; [by destruct (n_kind n)|].
    apply Forall_forall. intros c Hc. apply comp_okb_spec. rewrite forallb_forall in H4'. apply H4'. by apply elem_of_list_In.
Qed.

Section checks.
  Context (f : fs) (ub m : path) (dev : N).
  #[local] Notation src := (kernel_source f ub m).
  Definition each_staged (g : path → node → bool) : bool := forallb (λ sn : path * node, g sn.1 sn.2) (staged_of f ub m).
  Definition some_staged (g : path → node → bool) : bool := existsb (λ sn : path * node, g sn.1 sn.2) (staged_of f ub m).
  Lemma each_staged_spec (g : path → node → bool) : each_staged g = true → ∀ s n, staged_at f ub m s n → g s n = true.
  Proof.
    unfold each_staged. rewrite forallb_forall. intros H s n Hs. apply (H (s, n)), elem_of_list_In. by apply staged_of_spec.
  Qed.
  Lemma some_staged_spec (g : path → node → bool) : some_staged g = true ↔ ∃ s n, staged_at f ub m s n ∧ g s n = true.
  Proof.
    unfold some_staged. rewrite existsb_exists. split.
    - intros ([s n] & H & E). exists s, n. split; [|done]. by apply staged_of_spec, elem_of_list_In.
    - intros (s & n & H & E). exists (s, n). split; [|done]. by apply elem_of_list_In, staged_of_spec.
  Qed.
  Definition renamedb (n : node) : bool := match redirect n with Some _ => true | None => false end.
  Lemma renamedb_spec (n : node) : renamedb n = true ↔ is_Some (redirect n).
  Proof. unfold renamedb. destruct (redirect n); [split; [by eexists|done]|]. split; [done|]. by intros [? ?]. Qed.
  Definition awayb (p : path) : bool := some_staged (λ s n, renamedb n && bool_decide (src s = p)).
  Lemma awayb_spec (p : path) : awayb p = true ↔ renamed_away f ub m p.
  Proof.
    unfold awayb. rewrite some_staged_spec. split.
    - intros (s & n & Hs & H). apply andb_true_iff in H as [H1 H2]. apply renamedb_spec in H1. apply bool_decide_eq_true in H2.
      exists s, n. split; [by split|done].
    - intros (s & n & [Hs Hr] & E). exists s, n. split; [done|]. apply andb_true_iff. split; [by apply renamedb_spec|by apply bool_decide_eq_true].
  Qed.
  Definition replacesb (s : path) (n : node) : bool :=
    match f !! src s with Some k => whiteout n || opaque n || negb (is_kdir (n_kind n)) && is_kdir (n_kind k) | None => false end.
  Lemma replacesb_spec (s : path) (n : node) : replaces f ub m s n → replacesb s n = true.
  Proof.
    intros [_ (k & Hk & H)]. unfold replacesb. rewrite Hk. destruct H as [-> |[-> |[-> ->]]]; [done|by rewrite orb_true_r|by rewrite orb_true_r].
  Qed.
  Definition roots : list path := [] :: omap (λ sn : path * node, if renamedb sn.2 then Some sn.1 else None) (staged_of f ub m).
  Lemma roots_spec (sb r : path) : base f ub m sb r → sb ∈ roots.
  Proof.
    intros [[-> |[n [Hs Hr]]] _]; [left|right]. apply elem_of_list_omap. exists (sb, n). split; [by apply staged_of_spec|]. cbn [fst snd].
    apply renamedb_spec in Hr. by rewrite Hr.
  Qed.
  Definition onceb : bool :=
    forallb (λ sb, forallb (λ sb', bool_decide (sb = sb') ||
      match path_strip (src sb) (src sb') with
      | Some [] => false
      | Some t => (match lower_dir f ub m (sb ++ t) with None => true | Some _ => false end) ||
                  some_staged (λ s' n', renamedb n' && above sb s' && under s' (sb ++ t))
      | None => true
      end) roots) roots.
  Lemma once_half (s s' p sb r sb' r' : path) : storage_ok f ub [m] → onceb = true → base f ub m sb r → base f ub m sb' r' →
    lower_dir f ub m (sb ++ r) = Some p → src sb ++ r = src sb' ++ r' → under (src sb) (src sb') = true → sb ++ r = sb' ++ r'.
  Proof.
    intros Hst Ho Hb Hb' E Er Hu. apply under_spec in Hu as [t Ht]. unfold onceb in Ho.
    rewrite forallb_forall in Ho. specialize (Ho sb (proj1 (elem_of_list_In _ _) (roots_spec _ _ Hb))).
    rewrite forallb_forall in Ho. specialize (Ho sb' (proj1 (elem_of_list_In _ _) (roots_spec _ _ Hb'))).
    rewrite Ht, path_strip_app in Ho. apply orb_true_iff in Ho as [Ho|Ho].
    - apply bool_decide_eq_true in Ho as <-. apply app_inv_head in Er as ->. done.
    - exfalso. rewrite Ht, <-app_assoc in Er. apply app_inv_head in Er as ->. rewrite (base_low f ub m Hst sb t r' p Hb E) in Ho. destruct t as [|x t]; [done|]. cbn [orb] in Ho.
      apply some_staged_spec in Ho as (s1 & n1 & Hs1 & Ho). rewrite !andb_true_iff in Ho. destruct Ho as [[H1 H2] H3].
      apply above_spec in H2 as [H2 Hne]. apply under_spec in H2 as [t1 ->]. rewrite under_app_both in H3. apply under_spec in H3 as [t2 E2].
      apply (proj2 Hb t1 (t2 ++ r') n1).
      + by rewrite app_assoc, <-E2.
      + intros ->. by rewrite app_nil_r in Hne.
      + split; [done|]. by apply renamedb_spec.
  Qed.
  Lemma onceb_spec : storage_ok f ub [m] → onceb = true → ∀ s s' p, lower_dir f ub m s = Some p → lower_dir f ub m s' = Some p → s = s'.
  Proof.
    intros Hst Ho s s' p E E'. destruct (base_exists f ub m s) as (sb & r & -> & Hb). destruct (base_exists f ub m s') as (sb' & r' & -> & Hb').
    destruct (low_src f ub m Hst _ _ E) as [Ep _]. destruct (low_src f ub m Hst _ _ E') as [Ep' _].
    rewrite (base_src f ub m Hst sb r Hb) in Ep. rewrite (base_src f ub m Hst sb' r' Hb') in Ep'. rewrite Ep in Ep'.
    assert (under (src sb) p = true) as H1 by (rewrite Ep; apply under_app).
    assert (under (src sb') p = true) as H2 by (rewrite Ep, Ep'; apply under_app).
    destruct (under_comparable _ _ _ H1 H2) as [H|H].
    - by apply (once_half [] [] p).
    - symmetry. by apply (once_half [] [] p).
  Qed.

  Definition renamed_okb : bool :=
    storage_okb f ub [m] &&
    each_staged (λ s n, entry_formatb n && (whiteout n || match n_kind n with KFile _ | KDir | KLink _ => true | _ => false end)) &&
    on_fs f (λ q k, negb (under m q) || under ub q || N.eqb (n_dev k) dev) &&
    (bool_decide (m = []) || negb (N.eqb (parent_dev f m) dev)) &&
    onceb &&
    each_staged (λ s n, match redirect n with
      | None => true
      | Some r => negb (bool_decide (comps r = [])) && ((N.of_nat (String.length r) <=? 65536)%N && utf8_valid r) && negb (opaque n) &&
          (is_abs r || each_staged (λ a n0, negb (above a s) || negb (renamedb n0) && negb (opaque n0))) &&
          (match f !! src s with
           | Some k => is_kdir (n_kind k) && N.eqb (n_uid k) (n_uid n) && N.eqb (n_gid k) (n_gid n) && N.eqb (n_perm k) (n_perm n)
           | None => false end) &&
          (match last s with
           | Some c => let q := src (removelast s) ++ [c] in (match f !! q with None => true | Some _ => false end) || awayb q
           | None => true end) &&
          on_fs f (λ a k, negb (above a (m ++ s)) || negb (is_klink (n_kind k))) &&
          negb (under (m ++ s) ub) && negb (under (src s) ub)
      end) &&
    each_staged (λ s n, negb (replacesb s n) ||
      (match lower_dir f ub m (removelast s) with Some _ => true | None => false end) &&
      (awayb (src s) || each_staged (λ s' n', negb (renamedb n') || negb (under (src s) (src s')))) &&
      on_fs f (λ q k, negb (under (src s) q) || match n_kind k with KFile _ | KDir | KLink _ => true | _ => false end) &&
      negb (under (src s) ub)) &&
    each_staged (λ s n,
      negb (under ub (m ++ s)) && negb (under ub (src s)) &&
      match f !! src s with
      | None => true
      | Some k =>
          (negb (is_kdir (n_kind n)) || opaque n || is_kdir (n_kind k) || match lower_dir f ub m (removelast s) with None => true | Some _ => false end) &&
          (match n_kind k with
           | KLink _ => negb (is_kdir (n_kind n)) && (negb (whiteout n) || link_targets_fileb f (src s)) && negb (link_targets_dirb f (src s))
           | _ => true end)
      end) &&
    negb (under ub m).

  Lemma renamed_okb_spec : renamed_okb = true → renamed_ok f ub m dev.
  Proof.
    unfold renamed_okb. rewrite !andb_true_iff. intros [[[[[[[[C1 C2] C3] C4] C5] C6] C7] C8] C9].
    apply storage_okb_spec in C1. pose proof (each_staged_spec _ C2) as C2'. pose proof (on_fs_spec _ _ C3) as C3'.
    pose proof (each_staged_spec _ C6) as C6'. pose proof (each_staged_spec _ C7) as C7'. pose proof (each_staged_spec _ C8) as C8'.
    clear C2 C3 C6 C7 C8. cbv beta in *.
    assert (∀ s n, renamed_at f ub m s n → ∃ r, redirect n = Some r) as Hred by (by intros s n [_ [r Hr]]; exists r).
    split.
    - done.
    - intros s n Hs. specialize (C2' s n Hs). apply andb_true_iff in C2' as [H _]. by apply entry_formatb_spec.
    - intros s n Hs. specialize (C2' s n Hs). apply andb_true_iff in C2' as [_ H]. by apply orb_true_iff in H.
    - intros q k Hm Hu Hk. specialize (C3' q k Hk). rewrite Hm, Hu in C3'. cbn in C3'. by apply N.eqb_eq.
    - apply orb_true_iff in C4 as [H|H]; [left; by apply bool_decide_eq_true in H|right]. apply negb_true_iff in H. by apply N.eqb_neq.
    - by apply onceb_spec.
    - intros s n r Hs Hr. specialize (C6' s n Hs). rewrite Hr in C6'. rewrite !andb_true_iff in C6'.
      destruct C6' as [[[[[[[[H1 H2] H3] H4] H5] H6] H7] H8] H9]. split; [apply negb_true_iff, bool_decide_eq_false in H1; done|].
      destruct H2 as [H2 H2']. split; [split; [by apply N.leb_le|done]|]. split; [by apply negb_true_iff|]. intros Ha a b n0 -> Hb Hn0. rewrite Ha in H4. cbn [orb] in H4.
      pose proof (each_staged_spec _ H4 a n0 Hn0) as H. cbv beta in H. rewrite (above_app a b Hb) in H. cbn [negb orb] in H.
      apply andb_true_iff in H as [H H']. split; [|by apply negb_true_iff]. unfold renamedb in H. by destruct (redirect n0).
    - intros s n Hr. destruct (Hred s n Hr) as [r Er]. specialize (C6' s n (proj1 Hr)). rewrite Er in C6'. rewrite !andb_true_iff in C6'.
      destruct C6' as [[[[[[[[H1 H2] H3] H4] H5] H6] H7] H8] H9]. destruct (f !! src s) as [k|]; [|done]. exists k. split; [done|].
      rewrite !andb_true_iff in H5. destruct H5 as [[[K1 K2] K3] K4]. apply N.eqb_eq in K2, K3, K4. split; [by destruct (n_kind k)|done].
    - intros s c n Hr. destruct (Hred _ n Hr) as [r Er]. specialize (C6' _ n (proj1 Hr)). rewrite Er in C6'. rewrite !andb_true_iff in C6'.
      destruct C6' as [[[[[[[[H1 H2] H3] H4] H5] H6] H7] H8] H9]. rewrite last_snoc, removelast_snoc in H6. cbv zeta in H6.
      apply orb_true_iff in H6 as [H|H]; [left|right; by apply awayb_spec]. by destruct (f !! (src s ++ [c])).
    - intros s n Hr a c r' k E Hk. destruct (Hred _ n Hr) as [r Er]. specialize (C6' _ n (proj1 Hr)). rewrite Er in C6'. rewrite !andb_true_iff in C6'.
      destruct C6' as [[[[[[[[H1 H2] H3] H4] H5] H6] H7] H8] H9]. apply (on_fs_spec _ _ H7) in Hk. rewrite E, above_app in Hk by done.
      cbn [negb orb] in Hk. by apply negb_true_iff.
    - intros s c n Hr. specialize (C7' _ n (proj1 Hr)). rewrite (replacesb_spec _ n Hr) in C7'. cbn [negb orb] in C7'. rewrite !andb_true_iff in C7'.
      destruct C7' as [[[H _] _] _]. rewrite removelast_snoc in H. by destruct (lower_dir f ub m s).
    - intros s n s' n' Hr Hna Hr'. specialize (C7' _ n (proj1 Hr)). rewrite (replacesb_spec _ n Hr) in C7'. cbn [negb orb] in C7'. rewrite !andb_true_iff in C7'.
      destruct C7' as [[[_ H] _] _]. apply orb_true_iff in H as [H|H]; [by apply awayb_spec in H|].
      pose proof (each_staged_spec _ H s' n' (proj1 Hr')) as H'. cbv beta in H'. destruct Hr' as [_ Hr']. apply renamedb_spec in Hr'. rewrite Hr' in H'.
      by apply negb_true_iff.
    - intros s n q k Hr Hu Hk. specialize (C7' _ n (proj1 Hr)). rewrite (replacesb_spec _ n Hr) in C7'. cbn [negb orb] in C7'. rewrite !andb_true_iff in C7'.
      destruct C7' as [[[_ _] H] _]. apply (on_fs_spec _ _ H) in Hk. by rewrite Hu in Hk.
    - intros s c n k Hs Hn Ho Hk. specialize (C8' _ n Hs). rewrite !andb_true_iff in C8'. destruct C8' as [_ H]. rewrite Hk in H.
      apply andb_true_iff in H as [H _]. rewrite Hn, Ho, removelast_snoc in H. cbn [is_kdir negb orb] in H. apply orb_true_iff in H as [H|H].
      + left. by destruct (n_kind k).
      + right. by destruct (lower_dir f ub m s).
    - intros s n k t Hs Hn Hk E. specialize (C8' _ n Hs). rewrite !andb_true_iff in C8'. destruct C8' as [_ H]. rewrite Hk in H.
      apply andb_true_iff in H as [_ H]. rewrite E, Hn in H. done.
    - intros s n k t Hs Hw Hk E. specialize (C8' _ n Hs). rewrite !andb_true_iff in C8'. destruct C8' as [_ H]. rewrite Hk in H.
      apply andb_true_iff in H as [_ H]. rewrite E, Hw in H. rewrite !andb_true_iff in H. destruct H as [[_ H] _]. cbn [negb orb] in H.
      unfold link_targets_fileb in H. unfold link_to_file. destruct (stat f (src s)) as [x|]; [|done]. exists x. split; [done|]. by destruct (n_kind x).
    - intros s n k t Hs Hk E (x & Hx & Hxk). specialize (C8' _ n Hs). rewrite !andb_true_iff in C8'. destruct C8' as [_ H]. rewrite Hk in H.
      apply andb_true_iff in H as [_ H]. rewrite E in H. rewrite !andb_true_iff in H. destruct H as [_ H].
      unfold link_targets_dirb in H. by rewrite Hx, Hxk in H.
    - split; [by apply negb_true_iff|]. intros s n Hs. specialize (C8' _ n Hs). rewrite !andb_true_iff in C8'. destruct C8' as [[H1 H2] _].
      split; [by apply negb_true_iff|]. split; [by apply negb_true_iff|]. split.
      + intros Hr. specialize (C7' _ n (proj1 Hr)). rewrite (replacesb_spec _ n Hr) in C7'. cbn [negb orb] in C7'. rewrite !andb_true_iff in C7'.
        destruct C7' as [_ H]. by apply negb_true_iff.
      + intros [r Er]. specialize (C6' s n Hs). rewrite Er in C6'. rewrite !andb_true_iff in C6'.
        destruct C6' as [[_ H8] H9]. by split; apply negb_true_iff.
  Qed.

  Definition cwd_okb (cwd : path) : bool :=
    dirb f cwd && under m cwd && negb (under ub cwd) &&
    each_staged (λ s n, (negb (replacesb s n) || negb (under (src s) cwd)) &&
      (negb (renamedb n) || negb (under (src s) cwd) && negb (under (m ++ s) cwd))).
  Lemma cwd_okb_spec (cwd : path) : cwd_okb cwd = true → cwd_ok f ub m cwd.
  Proof.
    unfold cwd_okb. rewrite !andb_true_iff. intros [[[H1 H2] H3] H4]. split.
    - by apply dirb_spec.
    - split; [done|by apply negb_true_iff].
    - intros s n Hs. pose proof (each_staged_spec _ H4 s n Hs) as H. cbv beta in H. apply andb_true_iff in H as [H H']. split.
      + intros Hr. rewrite (replacesb_spec s n Hr) in H. by apply negb_true_iff.
      + intros Hr. apply renamedb_spec in Hr. rewrite Hr in H'. cbn [negb orb] in H'. apply andb_true_iff in H' as [Ha Hb].
        by split; apply negb_true_iff.
  Qed.
End checks.

(** Identifiers of which none ends in another. *)
Fixpoint as_ (n : nat) : string := match n with O => "" | S n => String "a" (as_ n) end.
Definition demo_id (ph i : nat) : string := "~" +:+ as_ ph +:+ "b" +:+ as_ i.
Lemma as_bytes (n : nat) (c : ascii) : c ∈ to_bytes (as_ n) → c = "a"%char.
Proof. induction n as [|n IH]; cbn; [intros H; by apply elem_of_nil in H|]. intros [-> |H]%elem_of_cons; [done|by apply IH]. Qed.
Lemma as_inj (a b x y : nat) : as_ a +:+ "b" +:+ as_ x = as_ b +:+ "b" +:+ as_ y → a = b ∧ x = y.
Proof.
  revert b. induction a as [|a IH]; intros [|b] E.
  - split; [done|]. assert (as_ x = as_ y) as E' by (cbn in E; by injection E). clear E. revert y E'.
    induction x as [|x IHx]; intros [|y] E'; try done. cbn in E'. f_equal. apply IHx. by injection E'.
  - discriminate E.
  - discriminate E.
  - cbn in E. assert (as_ a +:+ "b" +:+ as_ x = as_ b +:+ "b" +:+ as_ y) as E' by (by injection E). destruct (IH b E') as [-> ->]. done.
Qed.
Lemma demo_id_tail (ph i : nat) (c : ascii) : c ∈ to_bytes (as_ ph +:+ "b" +:+ as_ i) → c = "a"%char ∨ c = "b"%char.
Proof.
  rewrite !to_bytes_app. intros [H|[H|H]%elem_of_app]%elem_of_app; [left; by eapply as_bytes| |left; by eapply as_bytes].
  right. by apply elem_of_list_singleton in H.
Qed.
Lemma demo_id_suffix (ph i : nat) (x : string) : ends_with (demo_id ph i) x = true → "~"%char ∈ to_bytes x.
Proof.
  intros H. apply ends_with_spec in H as [t ->]. unfold demo_id. rewrite !to_bytes_app. apply elem_of_app. right. apply elem_of_app. left.
  by apply elem_of_list_singleton.
Qed.
Definition tilde_free (f : fs) : bool := on_fs f (λ q _, match last q with Some x => negb (bool_decide ("~"%char ∈ to_bytes x)) | None => true end).
Lemma demo_id_ok (f : fs) : tilde_free f = true → identifiers_ok demo_id f.
Proof.
  intros Hf. split.
  - intros ph i. split; [done|]. destruct (contains "/" (demo_id ph i)) eqn:E; [|done]. apply contains_spec in E as (a & b & E).
    assert ("/"%char ∈ to_bytes (demo_id ph i)) as H.
    { rewrite E, !to_bytes_app. apply elem_of_app. right. apply elem_of_app. left. by apply elem_of_list_singleton. }
    unfold demo_id in H. rewrite to_bytes_app in H. apply elem_of_app in H as [H|H]; [by apply elem_of_list_singleton in H|].
    by apply demo_id_tail in H as [?|?].
  - intros ph i q x [k Hk]. destruct (ends_with _ x) eqn:E; [|done]. apply demo_id_suffix in E.
    apply (on_fs_spec _ _ Hf) in Hk. rewrite last_snoc in Hk. apply negb_true_iff, bool_decide_eq_false in Hk. done.
  - intros ph i ph' j Hne. destruct (ends_with _ _) eqn:E; [|done]. exfalso. apply ends_with_spec in E as [t E].
    destruct t as [|c t].
    + unfold demo_id in E. cbn [String.append] in E. assert (as_ ph' +:+ "b" +:+ as_ j = as_ ph +:+ "b" +:+ as_ i) as E' by (by injection E).
      apply as_inj in E' as [-> ->]. done.
    + unfold demo_id in E. cbn [String.append] in E.
      assert (as_ ph' +:+ "b" +:+ as_ j = t +:+ String "~" (as_ ph +:+ "b" +:+ as_ i)) as E' by (by injection E).
      assert ("~"%char ∈ to_bytes (as_ ph' +:+ "b" +:+ as_ j)) as H.
      { rewrite E', to_bytes_app. apply elem_of_app. right. left. }
      by apply demo_id_tail in H as [?|?].
Qed.
