(** * Which host objects a sandbox with renamed directories keeps, deletes and moves *)
From Verif Require Export RenamedView Rename.

(** Deleted on the host: at or below an object that is deleted or replaced. *)
Definition deleted (f : fs) (ub m q : path) : Prop :=
  ∃ s n, replaces f ub m s n ∧ ¬ renamed_away f ub m (kernel_source f ub m s) ∧
    under (kernel_source f ub m s) q = true ∧ is_Some (f !! q).

Section sandbox.
  Context (f : fs) (ub m : path) (dev : N) (Hok : renamed_ok f ub m dev).
  Let Hst : storage_ok f ub [m] := ro_storage _ _ _ _ Hok.
  Let Hwf : wf_tree f := so_wf _ _ _ Hst.
  #[local] Notation U := (upper_dir ub m).
  #[local] Notation src := (kernel_source f ub m).
  #[local] Notation away := (renamed_away f ub m).

  (** [q], seen from the renamed directory [sb], is gone: missing, deleted or moved away. *)
  Definition lost (sb q : path) : Prop :=
    f !! q = None ∨ deleted f ub m q ∨ ∃ y, away y ∧ above (src sb) y = true ∧ under y q = true.

  Lemma replaces_plain (s : path) (n : node) : replaces f ub m s n → redirect n = None.
  Proof.
    intros [Hs (k & _ & Hh)]. destruct (redirect n) as [r|] eqn:Er; [|done]. exfalso.
    destruct (ef_redirect _ (ro_format _ _ _ _ Hok s n Hs) r Er) as [Hd _].
    destruct (ro_redirect _ _ _ _ Hok s n r Hs Er) as (_ & _ & Hop & _).
    destruct Hh as [H|[H|[H _]]]; [by rewrite (dir_not_whiteout n Hd) in H|congruence|by rewrite Hd in H].
  Qed.
  Lemma staged_renamed (s : path) (n n' : node) : staged_at f ub m s n → renamed_at f ub m s n' → is_Some (redirect n).
  Proof. intros [_ H] [[_ H'] Hr]. congruence. Qed.
  Lemma replaces_not_renamed (s : path) (n n' : node) : replaces f ub m s n → ¬ renamed_at f ub m s n'.
  Proof. intros H Hr. pose proof (replaces_plain s n H) as E. destruct (staged_renamed s n n' (proj1 H) Hr). congruence. Qed.
  Lemma replaces_parent (s : path) (c : string) (n : node) : replaces f ub m (s ++ [c]) n →
    lower_dir f ub m s = Some (src s) ∧ kernel_source f ub m (s ++ [c]) = src s ++ [c] ∧ lower_dir f ub m (s ++ [c]) = None.
  Proof.
    intros Hr. destruct (ro_replaces _ _ _ _ Hok s c n Hr) as [lo Hlo].
    destruct (low_src _ _ _ (ro_storage _ _ _ _ Hok) s lo Hlo) as [-> _]. split; [exact Hlo|].
    split; [apply (src_plain _ _ _ (ro_storage _ _ _ _ Hok)); intros n'; by apply (replaces_not_renamed _ n)|].
    destruct (lower_dir f ub m (s ++ [c])) as [p|] eqn:E; [|done]. exfalso.
    rewrite (low_snoc _ _ _ (ro_storage _ _ _ _ Hok)) in E. destruct Hr as [[_ Hn] (k & Hk & Hh)]. rewrite Hn in E.
    destruct Hh as [H|[H|[H _]]]; rewrite H in E; [done| |by destruct (whiteout n)].
    destruct (whiteout n); [done|]. by destruct (is_kdir (n_kind n)).
  Qed.

  (** A merged directory is not at or below a deleted object. *)
  Lemma not_deleted (s a : path) (n : node) : replaces f ub m s n → ¬ away (src s) → lower_dir f ub m a = Some (src a) →
    under (src s) (src a) = false.
  Proof.
    intros Hr Hna Ha. destruct (under (src s) (src a)) eqn:Hu; [|done]. exfalso.
    destruct (base_exists f ub m a) as (sb & r & -> & Hb). rewrite (base_src _ _ _ (ro_storage _ _ _ _ Hok) sb r Hb) in Hu.
    destruct (under (src s) (src sb)) eqn:Hu1.
    { destruct Hb as [[-> |[n' Hn']] _].
      - rewrite src_nil in Hu1. destruct (src_below _ _ _ _ Hok s n (proj1 Hr)) as (x & t & E).
        rewrite E in Hu1. apply under_spec in Hu1 as [t' E']. rewrite <-app_assoc in E'. symmetry in E'. by apply snoc_ne_self in E'.
      - by rewrite (ro_keeps _ _ _ _ Hok s n sb n' Hr Hna Hn') in Hu1. }
    destruct (under_comparable _ _ _ Hu (under_app (src sb) r)) as [Hu2|Hu2]; [congruence|].
    apply under_spec in Hu2 as [t Ht]. apply under_spec in Hu as [t' Ht'].
    rewrite Ht, <-app_assoc in Ht'. apply app_inv_head in Ht'. subst r.
    destruct s as [|c s _] using rev_ind; [by destruct Hr as [[? _] _]|].
    destruct (replaces_parent s c n Hr) as (Hp1 & Hp2 & Hp3).
    destruct t as [|x t0 _] using rev_ind.
    { rewrite app_nil_r in Ht. rewrite Ht, under_refl in Hu1. done. }
    rewrite Hp2 in Ht. rewrite app_assoc in Ht. apply app_inj_tail in Ht as [Ht ->].
    pose proof (base_low _ _ _ (ro_storage _ _ _ _ Hok) sb t0 ([x] ++ t') (src (sb ++ (t0 ++ [x]) ++ t'))) as Hl.
    rewrite app_assoc in Hl. specialize (Hl Hb Ha).
    rewrite <-Ht in Hl. pose proof (ro_once _ _ _ _ Hok _ _ _ Hl Hp1) as <-.
    pose proof (base_low _ _ _ (ro_storage _ _ _ _ Hok) sb (t0 ++ [x]) t' _ Hb Ha) as Hl2. rewrite app_assoc in Hl2. congruence.
  Qed.
  (** A merged directory is not at or below one moved away from inside the renamed directory around it. *)
  Lemma not_moved (sb r y : path) : base f ub m sb r → lower_dir f ub m (sb ++ r) = Some (src (sb ++ r)) →
    away y → above (src sb) y = true → under y (src (sb ++ r)) = false.
  Proof.
    intros Hb Ha (s' & n' & Hr' & <-) Hab. destruct (under _ (src (sb ++ r))) eqn:Hu; [|done]. exfalso.
    apply above_spec in Hab as [Hu2 Hne]. apply under_spec in Hu2 as [t Ht]. apply under_spec in Hu as [t' Ht'].
    rewrite (base_src _ _ _ (ro_storage _ _ _ _ Hok) sb r Hb), Ht, <-app_assoc in Ht'. apply app_inv_head in Ht'. subst r.
    assert (lower_dir f ub m (sb ++ t) = Some (src sb ++ t)) as Hl by exact (base_low _ _ _ (ro_storage _ _ _ _ Hok) sb t t' _ Hb Ha). rewrite <-Ht in Hl.
    pose proof (ro_once _ _ _ _ Hok _ _ _ Hl (renamed_low _ _ _ _ Hok s' n' Hr')) as <-.
    apply (proj2 Hb t t' n' eq_refl); [|done]. intros ->. apply Hne. by rewrite app_nil_r.
  Qed.

  Lemma roots_apart (s s' : path) (n n' : node) : replaces f ub m s n → replaces f ub m s' n' → ¬ away (src s) →
    under (src s) (src s') = true → s = s'.
  Proof.
    intros Hr Hr' Hna Hu. destruct s as [|c s _] using rev_ind; [by destruct Hr as [[? _] _]|].
    destruct s' as [|c' s' _] using rev_ind; [by destruct Hr' as [[? _] _]|].
    destruct (replaces_parent s c n Hr) as (Hp1 & Hp2 & Hp3). destruct (replaces_parent s' c' n' Hr') as (Hq1 & Hq2 & Hq3).
    rewrite Hq2 in Hu. apply under_snoc in Hu as [E|Hu].
    - rewrite Hp2 in E. apply app_inj_tail in E as [E ->]. rewrite E in Hp1. by rewrite (ro_once _ _ _ _ Hok _ _ _ Hp1 Hq1).
    - by rewrite (not_deleted _ s' n Hr Hna Hq1) in Hu.
  Qed.

  Lemma away_dec (p : path) : away p ∨ ¬ away p.
  Proof.
    assert (away p ↔ Exists (λ qn : path * node, ∃ s, qn.1 = U ++ s ∧ renamed_at f ub m s qn.2 ∧ src s = p) (map_to_list f)) as ->.
    { rewrite Exists_exists. split.
      - intros (s & n & Hr & E). exists (U ++ s, n). split; [apply elem_of_map_to_list; apply Hr|]. by exists s.
      - intros ([q n] & _ & s & _ & Hr & E). by exists s, n. }
    induction (map_to_list f) as [|[q n] l [IH|IH]].
    - right. intros H. by apply Exists_nil in H.
    - left. by right.
    - destruct (path_strip U q) as [s|] eqn:E.
      + apply path_strip_spec in E as ->.
        destruct (decide (s ≠ [] ∧ f !! (U ++ s) = Some n ∧ is_Some (redirect n) ∧ src s = p)) as [(H1 & H2 & H3 & H4)|H].
        * left. left. exists s. by split.
        * right. intros Hx. apply Exists_cons in Hx as [(s' & E' & [[H1 H2] H3] & H4)|Hx]; [|done]. cbn [fst snd] in *.
          apply app_inv_head in E' as <-. by apply H.
      + right. intros Hx. apply Exists_cons in Hx as [(s' & E' & _)|Hx]; [|done]. cbn [fst] in E'. rewrite E', path_strip_app in E. done.
  Qed.

  Lemma replaced_lost (sb r t : path) (n : node) : base f ub m sb r → replaces f ub m (sb ++ r) n → lost sb (src (sb ++ r) ++ t).
  Proof.
    intros Hb Hr. destruct (away_dec (src (sb ++ r))) as [Ha|Hna].
    - right. right. exists (src (sb ++ r)). split; [done|]. split; [|apply under_app].
      rewrite (base_src _ _ _ (ro_storage _ _ _ _ Hok) sb r Hb). apply above_app. intros ->.
      rewrite app_nil_r in Hr. destruct (proj1 Hb) as [-> |[n' Hn']]; [by destruct Hr as [[? _] _]|].
      by apply (replaces_not_renamed sb n n' Hr).
    - destruct (f !! (src (sb ++ r) ++ t)) as [k|] eqn:Ek; [|by left]. right. left. exists (sb ++ r), n.
      split; [done|]. split; [done|]. split; [apply under_app|]. by eexists.
  Qed.
  Lemma base_of_staged_plain (sb r : path) (n : node) : base f ub m sb r → staged_at f ub m (sb ++ r) n → redirect n = None → r ≠ [].
  Proof.
    intros Hb Hs Hn ->. rewrite app_nil_r in Hs. destruct (proj1 Hb) as [-> |[n' Hn']]; [by destruct Hs as [? _]|].
    destruct (staged_renamed sb n n' Hs Hn'). congruence.
  Qed.
  Lemma wf_no_child (p t : path) : ¬ is_dir_at f p → t ≠ [] → f !! (p ++ t) = None.
  Proof.
    intros Hd Ht. destruct (f !! (p ++ t)) as [k|] eqn:E; [|done]. destruct Hd.
    destruct (wf_prefix f p t k Hwf E Ht) as (d & ? & ?). by exists d.
  Qed.

  (** Below a directory that is not merged, everything of the host is gone. *)
  Lemma hidden_lost (sb r : path) : base f ub m sb r → lower_dir f ub m (sb ++ r) = None →
    ∀ t, t ≠ [] → lost sb (src (sb ++ r) ++ t).
  Proof.
    induction r as [|c r IH] using rev_ind; intros Hb Hl t Ht.
    { rewrite app_nil_r in *. destruct (proj1 Hb) as [-> |[n Hn]]; [by rewrite low_nil in Hl|].
      by rewrite (renamed_low _ _ _ _ Hok sb n Hn) in Hl. }
    pose proof (base_up _ _ _ _ _ _ Hb) as Hb'. rewrite app_assoc in *.
    assert (∀ n, ¬ renamed_at f ub m ((sb ++ r) ++ [c]) n) as Hnr.
    { intros n Hn. by rewrite (renamed_low _ _ _ _ Hok _ n Hn) in Hl. }
    assert (kernel_source f ub m ((sb ++ r) ++ [c]) = src (sb ++ r) ++ [c]) as Hsrc by (apply (src_plain _ _ _ (ro_storage _ _ _ _ Hok)); exact Hnr).
    destruct (lower_dir f ub m (sb ++ r)) as [lo|] eqn:El.
    2: { rewrite Hsrc, <-app_assoc. by apply IH. }
    destruct (low_src _ _ _ (ro_storage _ _ _ _ Hok) _ lo El) as [-> Hdir].
    assert (¬ is_dir_at f (src ((sb ++ r) ++ [c])) → lost sb (src ((sb ++ r) ++ [c]) ++ t)) as Hnd by (intros H; left; by apply wf_no_child).
    assert (∀ n, replaces f ub m ((sb ++ r) ++ [c]) n → lost sb (src ((sb ++ r) ++ [c]) ++ t)) as Hrep.
    { intros n Hn. rewrite <-app_assoc in *. by apply (replaced_lost sb (r ++ [c]) t n). }
    rewrite (low_snoc _ _ _ (ro_storage _ _ _ _ Hok)) in Hl. unfold below_lower in Hl. rewrite El in Hl.
    rewrite <-Hsrc in Hl.
    destruct (f !! (U ++ (sb ++ r) ++ [c])) as [n|] eqn:En; [|apply Hnd; by apply asd_None in Hl].
    assert (staged_at f ub m ((sb ++ r) ++ [c]) n) as Hs by (split; [by destruct sb, r|done]).
    destruct (is_dir_at_dec f (src ((sb ++ r) ++ [c]))) as [(k & Hk & Hkd)|H]; [|by apply Hnd].
    destruct (whiteout n) eqn:Ew; [apply (Hrep n); split; [done|]; exists k; split; [done|by left]|].
    destruct (is_kdir (n_kind n)) eqn:Ed; [|apply (Hrep n); split; [done|]; exists k; split; [done|right; right; by split]].
    destruct (opaque n) eqn:Eo; [apply (Hrep n); split; [done|]; exists k; split; [done|right; by left]|].
    destruct (redirect n) as [rd|] eqn:Er; [destruct (Hnr n); split; [done|by eexists]|].
    apply asd_None in Hl. by apply Hnd.
  Qed.

  (** What an unchanged directory entry shows is not gone. *)
  Lemma shown_kept (sb r : path) (c : string) (k : node) : base f ub m sb r → lower_dir f ub m (sb ++ r) = Some (src (sb ++ r)) →
    f !! (U ++ (sb ++ r) ++ [c]) = None → f !! (src (sb ++ r) ++ [c]) = Some k → ¬ lost sb (src (sb ++ r) ++ [c]).
  Proof.
    intros Hb Hl Hun Hk [H|[(s & n & Hr & Hna & Hu & _)|(y & Hy & Hab & Hu)]]; [congruence| |].
    - apply under_snoc in Hu as [E|Hu]; [|by rewrite (not_deleted s _ n Hr Hna Hl) in Hu].
      destruct s as [|c' s _] using rev_ind; [by destruct Hr as [[? _] _]|].
      destruct (replaces_parent s c' n Hr) as (Hp1 & Hp2 & _). rewrite Hp2 in E. apply app_inj_tail in E as [E ->].
      rewrite E in Hp1. pose proof (ro_once _ _ _ _ Hok _ _ _ Hp1 Hl) as ->. destruct Hr as [[_ Hn] _]. congruence.
    - apply under_snoc in Hu as [E|Hu]; [|by rewrite (not_moved sb r y Hb Hl Hy Hab) in Hu].
      destruct Hy as (s' & n' & Hr' & <-). 
      assert (lower_dir f ub m ((sb ++ r) ++ [c]) = Some (kernel_source f ub m s')) as Hl2.
      { rewrite (low_snoc _ _ _ (ro_storage _ _ _ _ Hok)). rewrite Hun. unfold below_lower. rewrite Hl. rewrite <-E.
        apply asd_Some. split; [done|]. destruct (low_src _ _ _ (ro_storage _ _ _ _ Hok) _ _ (renamed_low _ _ _ _ Hok s' n' Hr')) as [_ H]. exact H. }
      pose proof (ro_once _ _ _ _ Hok _ _ _ Hl2 (renamed_low _ _ _ _ Hok s' n' Hr')) as <-.
      destruct Hr' as [[_ Hn] _]. congruence.
  Qed.
  (** Neither is a renamed directory. *)
  Lemma renamed_kept (s : path) (n : node) : renamed_at f ub m s n → ¬ lost s (src s).
  Proof.
    intros Hr [H|[(s' & n' & Hr' & Hna & Hu & _)|(y & Hy & Hab & Hu)]].
    - destruct (ro_source _ _ _ _ Hok s n Hr) as (k & Hk & _). congruence.
    - by rewrite (ro_keeps _ _ _ _ Hok s' n' s n Hr' Hna Hr) in Hu.
    - apply above_spec in Hab as [H1 H2]. apply H2. by apply under_antisym.
  Qed.
  (** Nor the mount point itself. *)
  Lemma mount_kept : ¬ lost [] m.
  Proof.
    intros [H|[(s' & n' & Hr' & Hna & Hu & _)|(y & Hy & Hab & Hu)]].
    - destruct (so_mount _ _ _ Hst m ltac:(left)) as [(d & ? & _) _]. congruence.
    - destruct (src_below _ _ _ _ Hok s' n' (proj1 Hr')) as (x & r & E). rewrite E in Hu.
      apply under_spec in Hu as [t E']. rewrite <-app_assoc in E'. symmetry in E'. cbn [app] in E'.
      destruct r, t; simpl in E'; apply (f_equal length) in E'; rewrite app_length in E'; simpl in E'; lia.
    - apply above_spec in Hab as [H1 H2]. apply H2. by apply under_antisym.
  Qed.

  (** What an installed object may find in its place. *)
  Lemma in_place_lost (sb r : path) (c : string) (n k : node) : base f ub m sb (r ++ [c]) →
    staged_at f ub m (sb ++ r ++ [c]) n → f !! src (sb ++ r ++ [c]) = Some k →
    (n_kind n ≠ KDir ∧ n_kind k = KDir ∨ n_kind n = KDir ∧ n_kind k ≠ KDir) → lost sb (src (sb ++ r ++ [c])).
  Proof.
    intros Hb Hs Hk Hd.
    assert (∀ n', replaces f ub m (sb ++ r ++ [c]) n' → lost sb (src (sb ++ r ++ [c]))) as Hrep.
    { intros n' Hn'. pose proof (replaced_lost sb (r ++ [c]) [] n' Hb Hn') as H. by rewrite app_nil_r in H. }
    destruct Hd as [[H1 H2]|[H1 H2]].
    - apply (Hrep n). split; [done|]. exists k. split; [done|]. right. right. split; [|done].
      destruct (is_kdir (n_kind n)) eqn:E; [|done]. by apply is_kdir_true in E.
    - destruct (opaque n) eqn:Eo; [apply (Hrep n); split; [done|]; exists k; split; [done|right; by left]|].
      rewrite app_assoc in Hs, Hk.
      destruct (ro_merged _ _ _ _ Hok (sb ++ r) c n k Hs H1 Eo Hk) as [?|Hl]; [done|].
      assert (src (sb ++ r ++ [c]) = src (sb ++ r) ++ [c]) as ->.
      { rewrite (base_src _ _ _ (ro_storage _ _ _ _ Hok) _ _ Hb), (base_src _ _ _ (ro_storage _ _ _ _ Hok) _ _ (base_up _ _ _ _ _ _ Hb)). by rewrite app_assoc. }
      apply (hidden_lost sb r); [by apply base_up in Hb|done|done].
  Qed.
  (** Whiteouts show that the host object is gone, unless it is shown elsewhere. *)
  Lemma whiteout_lost (sb r : path) (n : node) : base f ub m sb r → staged_at f ub m (sb ++ r) n → whiteout n = true → lost sb (src (sb ++ r)).
  Proof.
    intros Hb Hs Hw. destruct (f !! src (sb ++ r)) as [k|] eqn:Ek; [|by left].
    pose proof (replaced_lost sb r [] n Hb) as H. rewrite app_nil_r in H. apply H. split; [done|]. exists k. split; [done|by left].
  Qed.
End sandbox.
