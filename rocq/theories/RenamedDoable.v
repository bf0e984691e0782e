(** * Accept can do everything a sandbox with renamed directories asks for *)
From Verif Require Export RenamedFound.

(** ** Names *)
Lemma ends_with_app (a b : string) : ends_with b (a +:+ b) = true.
Proof. apply ends_with_spec. by exists a. Qed.
Lemma starts_with_comparable (p q s : string) : starts_with p s = true → starts_with q s = true →
  starts_with p q = true ∨ starts_with q p = true.
Proof.
  revert q s. induction p as [|a p IH]; intros q s Hp Hq; [by left|].
  destruct q as [|b q]; [by right|]. destruct s as [|c s]; [done|].
  apply starts_with_spec in Hp as [t Hp]. apply starts_with_spec in Hq as [t' Hq].
  assert (c = a ∧ s = p +:+ t) as [-> E1] by (by injection Hp). assert (a = b ∧ s = q +:+ t') as [-> E2] by (by injection Hq).
  destruct (IH q s) as [H|H]; [apply starts_with_spec; by exists t|apply starts_with_spec; by exists t'|left|right];
    apply starts_with_spec in H as [u ->]; apply starts_with_spec; by exists u.
Qed.
Lemma ends_with_comparable (p q s : string) : ends_with p s = true → ends_with q s = true → ends_with p q = true ∨ ends_with q p = true.
Proof. unfold ends_with. apply starts_with_comparable. Qed.
Lemma str_app_inv_r (a b c : string) : a +:+ c = b +:+ c → a = b.
Proof.
  intros E. apply (f_equal to_bytes) in E. rewrite !to_bytes_app in E. apply app_inv_tail in E.
  by rewrite <-(of_to_bytes a), <-(of_to_bytes b), E.
Qed.
Lemma dash_dot (a b u : string) : (a +:+ "-") +:+ u ≠ (b +:+ ".") +:+ u.
Proof.
  intros E. apply str_app_inv_r in E. apply (f_equal to_bytes) in E. rewrite !to_bytes_app in E.
  apply app_inj_tail in E as [_ E]. done.
Qed.
Lemma tmp_name_shape (cwd old new : path) (u : string) : ∃ a, tmp_name cwd old new u = cwd ++ [(a +:+ "-") +:+ u].
Proof.
  exists (".rename-" +:+ text_name old +:+ "-to-" +:+ text_name new). unfold tmp_name.
  by rewrite !str_app_assoc.
Qed.

Section sandbox.
  Context (e : env) (f : fs) (ub m : path) (dev : N) (Hok : renamed_ok f ub m dev).
  Context (l : list (path * node)) (all : list change) (Hl : staged_list f ub m l) (Hall : all_listed f ub m l all).
  Context (He : env_ok e) (Hcwd : cwd_ok f ub m (e_cwd e)) (Hid : identifiers_ok (e_uuid e) f).
  Let Hst : storage_ok f ub [m] := ro_storage _ _ _ _ Hok.
  Let Hwf : wf_tree f := so_wf _ _ _ Hst.
  #[local] Notation U := (upper_dir ub m).
  #[local] Notation src := (kernel_source f ub m).
  #[local] Notation away := (renamed_away f ub m).
  #[local] Notation mv := (moves all).
  #[local] Notation f1 := (without f (removals all)).

  Lemma src_under (s : path) (n : node) : staged_at f ub m s n → under m (src s) = true ∧ under ub (src s) = false ∧ under ub (m ++ s) = false.
  Proof.
    intros Hs. destruct (src_below f ub m dev Hok s n Hs) as (x & r & E). split; [rewrite E; apply under_app|].
    destruct (ro_elsewhere _ _ _ _ Hok) as [_ H]. by destruct (H s n Hs) as (? & ? & _).
  Qed.
  Lemma parent_or_root (s0 : path) (c : string) (n : node) : staged_at f ub m (s0 ++ [c]) n →
    under m (src s0) = true ∧ under ub (src s0) = false ∧ (s0 = [] ∨ ∃ d, staged_at f ub m s0 d ∧ n_kind d = KDir).
  Proof.
    intros Hs. destruct s0 as [|x s0].
    - rewrite src_nil. split; [apply under_refl|]. split; [apply (ro_elsewhere _ _ _ _ Hok)|by left].
    - destruct (staged_parent f ub m (ro_storage _ _ _ _ Hok) (x :: s0) c [] n Hs) as (d & _ & Hk & Hd). specialize (Hd ltac:(done)).
      destruct (src_under _ _ Hd) as (H1 & H2 & _). split; [done|]. split; [done|]. right. by exists d.
  Qed.
  Lemma staged_comp (s : path) (n : node) : staged_at f ub m s n → Forall comp_ok s.
  Proof. intros [_ Hn]. apply (wf_comps f _ _ Hwf) in Hn. by apply Forall_app in Hn as [_ ?]. Qed.

  Lemma found_at (s : path) (t : option node) : arranged f1 mv mv (m ++ s) t → ∃ sb r, s = sb ++ r ∧ base f ub m sb r ∧ t = place f ub m all sb r.
  Proof.
    intros H. destruct (base_exists f ub m s) as (sb & r & -> & Hb). exists sb, r. split; [done|]. split; [done|].
    by apply (found_place f ub m l all Hl Hall sb r t Hb).
  Qed.
  Lemma found_dev (s : path) (d : node) : under m (src s) = true → under ub (src s) = false →
    arranged f1 mv mv (m ++ s) (Some d) → n_dev d = dev.
  Proof.
    intros Hm Hu H. destruct (found_at s _ H) as (sb & r & -> & Hb & E). symmetry in E. apply place_Some in E; [|done].
    rewrite <-(base_src f ub m (ro_storage _ _ _ _ Hok) sb r Hb) in E. by apply (ro_device _ _ _ _ Hok _ d Hm Hu).
  Qed.
  Lemma parent_ok (s0 : path) (c : string) (n : node) : staged_at f ub m (s0 ++ [c]) n → parent_there f1 mv all (m ++ s0).
  Proof.
    intros Hs. destruct (parent_or_root s0 c n Hs) as (_ & _ & [-> |(d & Hd & Hk)]).
    - right. split.
      + intros c' Hc' Hset. destruct (sets_installed f ub m l all Hl Hall c' Hc' Hset) as (s & n' & [Hne _] & _ & _ & -> & _).
        intros E. apply app_inv_head in E. done.
      + destruct (mount_dir f ub m dev Hok) as (d & Hd & Hk). exists d. split; [done|].
        assert (base f ub m [] []) as Hb by (split; [by left|intros r1 r2 n' E; by destruct r1]).
        apply (found_place f ub m l all Hl Hall [] [] _ Hb). rewrite (place_kept f ub m dev Hok l all Hl Hall [] [] Hb).
        * rewrite src_nil, app_nil_r. done.
        * rewrite src_nil, app_nil_r. apply (mount_kept f ub m dev Hok).
    - destruct (redirect d) as [r|] eqn:Er.
      + assert (renamed_at f ub m s0 d) as Hr by (split; [done|by eexists]). right. split.
        * intros c' Hc' Hset. destruct (sets_installed f ub m l all Hl Hall c' Hc' Hset) as (s & n' & [Hne Hn'] & Hno & _ & -> & _).
          intros E. apply app_inv_head in E as ->. destruct Hd as [_ Hd]. congruence.
        * destruct (ro_source _ _ _ _ Hok s0 d Hr) as (k & Hks & Hkd & _). exists k. split; [done|].
          assert (base f ub m s0 []) as Hb by (split; [right; by exists d|intros r1 r2 n' E; by destruct r1]).
          pose proof (found_place f ub m l all Hl Hall s0 [] (Some k) Hb) as Hf. rewrite app_nil_r in Hf. apply Hf.
          rewrite (place_kept f ub m dev Hok l all Hl Hall s0 [] Hb); rewrite app_nil_r; [done|]. by apply (renamed_kept f ub m dev Hok s0 d).
      + left. destruct (installed_sets f ub m l all Hl Hall s0 d Hd Er (dir_not_whiteout d Hk)) as (c' & H1 & H2 & H3 & H4).
        exists c', (details_of (U ++ s0) d). split; [done|]. split; [done|]. split; [done|]. split; [done|].
        rewrite d_is_dir_of. by apply is_kdir_true.
  Qed.

  Lemma new_name (ph i : nat) (q : path) (a : string) : f !! (q ++ [a +:+ e_uuid e ph i]) = None.
  Proof.
    destruct (f !! _) as [k|] eqn:E; [|done]. exfalso.
    pose proof (id_new _ _ Hid ph i q _ ltac:(by rewrite E)) as H. by rewrite ends_with_app in H.
  Qed.
  (** a temporary name in the current directory is not above anything staged *)
  Lemma tmp_not_above (ph i : nat) (a : string) (s : path) (n : node) : staged_at f ub m s n →
    under (e_cwd e ++ [a +:+ e_uuid e ph i]) (m ++ s) = false.
  Proof.
    intros Hs. destruct (under _ (m ++ s)) eqn:Hu; [|done]. exfalso.
    destruct (cw_under _ _ _ _ Hcwd) as [Hc _]. apply under_spec in Hc as [t Ht]. rewrite Ht, <-app_assoc, under_app_both in Hu.
    apply under_spec in Hu as [r ->]. destruct Hs as [_ Hn]. rewrite <-!app_assoc, !app_assoc in Hn. rewrite <-(app_assoc U) in Hn.
    destruct (wf_is_Some_prefix f _ _ _ Hwf Hn) as [k Hk]. rewrite app_assoc, new_name in Hk. done.
  Qed.
  Lemma ext_not_staged (s0 : path) (x : string) (ph i : nat) (s : path) (n : node) : staged_at f ub m s n →
    m ++ s0 ++ [file_stem x +:+ "." +:+ e_uuid e ph i] ≠ m ++ s.
  Proof.
    intros [_ Hn] E. apply app_inv_head in E as <-. rewrite str_app_assoc, app_assoc, new_name in Hn. done.
  Qed.

  Lemma removed_facts (p : path) : p ∈ removals all → ∃ s n k, replaces f ub m s n ∧ ¬ away (src s) ∧ under (src s) p = true ∧ f !! p = Some k ∧
    under m (removelast p) = true ∧ under ub p = false ∧ under p ub = false ∧ p ≠ [].
  Proof.
    intros Hp. apply (removals_deleted f ub m l all Hl Hall) in Hp as (s & n & Hr & Hna & Hu & [k Hk]). exists s, n, k.
    split; [done|]. split; [done|]. split; [done|]. split; [done|].
    destruct (src_below f ub m dev Hok s n (proj1 Hr)) as (x & r & E).
    destruct (ro_elsewhere _ _ _ _ Hok) as [_ H]. destruct (H s n (proj1 Hr)) as (_ & H1 & H2 & _). specialize (H2 Hr).
    split; [|split; [|split]].
    - apply under_spec in Hu as [t ->]. rewrite E. destruct (exists_last (l := (x :: r) ++ t)) as (a & b & Eab); [done|].
      rewrite <-app_assoc, Eab, app_assoc, removelast_snoc. apply under_app.
    - destruct (under ub p) eqn:E'; [|done]. destruct (under_comparable _ _ _ E' Hu) as [?|?]; congruence.
    - destruct (under p ub) eqn:E'; [|done]. rewrite <-H2. symmetry. by apply (under_trans _ p).
    - intros ->. apply under_spec in Hu as [t Ht]. rewrite E in Ht. by destruct m.
  Qed.
  Lemma host_dev (p : path) (c : string) (k : node) : f !! (p ++ [c]) = Some k → under m p = true → under ub (p ++ [c]) = false →
    parent_dev f (p ++ [c]) = dev ∧ n_dev k = dev.
  Proof.
    intros Hk Hm Hu. unfold parent_dev. rewrite removelast_snoc. destruct (wf_is_Some_prefix f _ _ _ Hwf Hk) as [d Hd]. rewrite Hd. split.
    - apply (ro_device _ _ _ _ Hok p d); [done| |done]. destruct (under ub p) eqn:E; [|done]. rewrite <-Hu. symmetry.
      apply (under_trans _ p); [done|apply under_app].
    - apply (ro_device _ _ _ _ Hok (p ++ [c]) k); [|done|done]. apply (under_trans _ p); [done|apply under_app].
  Qed.

  Lemma all_doable : doable e f ub dev all.
  Proof.
    split.
    - intros c Hc. destruct (listed_staged f ub m l all Hl Hall c Hc) as (s & n & Hs & [(_ & _ & q & k & _ & _ & ->)|[(_ & k & _ & ->)|(_ & _ & ty & ->)]]).
      + right. right. by eexists.
      + left. by eexists.
      + right. left. by eexists.
    - intros c d Hc Hd. destruct (listed_staged f ub m l all Hl Hall c Hc) as (s & n & Hs & H). exists (b32_encode (path_str m) :: s), n.
      split; [done|]. change (b32_encode (path_str m) :: s) with ([b32_encode (path_str m)] ++ s). rewrite app_assoc. change (ub ++ [b32_encode (path_str m)]) with U.
      split; [apply Hs|]. destruct H as [(_ & _ & q & k & _ & _ & ->)|[(_ & k & _ & ->)|(_ & _ & ty & ->)]]; cbn in Hd.
      + destruct (decide _) in Hd; [|done]. by injection Hd as <-.
      + by injection Hd as <-.
      + by injection Hd as <-.
    - apply (al_arrivals _ _ _ _ _ Hall).
    - apply (al_removals _ _ _ _ _ Hall).
    - intros c p Hc Hp. assert (p ∈ removals all) as Hin by (apply elem_of_removals; by exists c).
      destruct (removed_facts p Hin) as (s & n & k & Hr & Hna & Hu & Hk & Hm & Hub & _ & Hne). split; [done|]. exists k. split; [done|].
      destruct (listed_staged f ub m l all Hl Hall c Hc) as (s' & n' & Hs' & H). destruct (removed_of f ub m s' n' c p H Hp) as ((_ & _ & q & k' & _ & Hk' & ->) & _).
      cbn in Hp. injection Hp as ->. assert (k' = k) as -> by congruence. split; [done|]. split; [by apply (ro_deleted _ _ _ _ Hok s n p k)|].
      intros Hd. split.
      + destruct (path_snoc_case p) as [-> |(p0 & x & ->)]; [done|]. rewrite removelast_snoc in Hm. destruct (host_dev p0 x k Hk Hm Hub) as [-> ->]. done.
      + intros x Hx. apply (removals_deleted f ub m l all Hl Hall). exists s, n. split; [done|]. split; [done|]. split; [|done].
        apply (under_trans _ p); [done|apply under_app].
    - intros p Hp. destruct (removed_facts p Hp) as (s & n & k & Hr & Hna & Hu & Hk & Hm & Hub & Hub' & _).
      split; [|split; [done|split; [done|]]].
      + destruct (under p (e_cwd e)) eqn:E; [|done]. destruct (cw_stays _ _ _ _ Hcwd s n (proj1 Hr)) as [H _]. rewrite <-(H Hr). symmetry.
        by apply (under_trans _ p).
      + intros [y d] Hm'. apply (moves_renamed f ub m l all Hl Hall) in Hm' as (s' & n' & Hr' & -> & ->). cbn [fst].
        destruct (under p (src s')) eqn:E; [|done]. rewrite <-(ro_keeps _ _ _ _ Hok s n s' n' Hr Hna Hr'). symmetry. by apply (under_trans _ p).
    - apply (al_moves _ _ _ _ _ Hall).
    - intros [y d] Hm'. apply (moves_renamed f ub m l all Hl Hall) in Hm' as (s & n & Hr & -> & ->). cbn [fst].
      destruct (ro_source _ _ _ _ Hok s n Hr) as (k & Hk & Hd & _). destruct (src_under s n (proj1 Hr)) as (_ & Hub & _).
      destruct (src_below f ub m dev Hok s n (proj1 Hr)) as (x & r & E). destruct (exists_last (l := x :: r)) as (a & b & Eab); [done|].
      rewrite Eab, app_assoc in E. rewrite E in *. destruct (host_dev (m ++ a) b k Hk ltac:(apply under_app) Hub) as [H1 H2].
      split; [by destruct m, a|]. split; [done|]. by exists k.
    - intros [y d] Hm'. apply (moves_renamed f ub m l all Hl Hall) in Hm' as (s & n & Hr & -> & ->). cbn [fst snd].
      destruct (path_snoc_case s) as [-> |(s0 & x & ->)]; [by destruct Hr as [[? _] _]|].
      exists (m ++ s0), x. split; [by rewrite app_assoc|]. split.
      { pose proof (staged_comp _ _ (proj1 Hr)) as H. apply Forall_app in H as [_ H]. by apply Forall_cons in H as [? _]. }
      destruct (parent_or_root s0 x n (proj1 Hr)) as (H1 & H2 & _). split; [|split].
      + destruct (base_exists f ub m s0) as (sb & r & -> & Hb). rewrite <-app_assoc in Hr |- *.
        apply (free_place f ub m dev Hok l all Hl Hall sb r x Hb); [by exists n|].
        apply (ro_free _ _ _ _ Hok (sb ++ r) x n). by rewrite <-app_assoc.
      + by apply (parent_ok s0 x n), Hr.
      + intros d. by apply found_dev.
    - intros c Hc Hset. destruct (sets_installed f ub m l all Hl Hall c Hc Hset) as (s & n & Hs & Hnr & Hnw & Hd & Hcs).
      destruct (path_snoc_case s) as [-> |(s0 & x & ->)]; [by destruct Hs as [? _]|].
      exists (U ++ s0 ++ [x]), n, (m ++ s0), x. split; [done|]. split; [apply Hs|]. split.
      { destruct (ro_supported _ _ _ _ Hok _ n Hs) as [?|?]; [congruence|done]. }
      split; [by rewrite <-app_assoc|]. split.
      { pose proof (staged_comp _ _ Hs) as H. apply Forall_app in H as [_ H]. by apply Forall_cons in H as [? _]. }
      destruct (src_under _ n Hs) as (H1 & H2 & H3). rewrite Hd. split; [done|]. split; [by apply (parent_ok s0 x n)|].
      destruct (parent_or_root s0 x n Hs) as (H4 & H5 & _). split; [|split].
      + intros t Ht. destruct (found_at _ _ Ht) as (sb & r & Es & Hb & ->). destruct (path_snoc_case r) as [-> |(r0 & y & ->)].
        * exfalso. rewrite app_nil_r in Es. rewrite <-Es in Hb. destruct (proj1 Hb) as [E|[n' Hn']]; [by destruct s0|].
          destruct (staged_renamed f ub m _ n n' Hs Hn'). congruence.
        * unfold in_the_way. destruct (place f ub m all sb (r0 ++ [y])) as [k|] eqn:Ep; [|by intros []].
          pose proof (place_Some f ub m all sb (r0 ++ [y]) k Hb Ep) as Hk. intros Hway.
          rewrite Es in Hs. rewrite <-(base_src f ub m (ro_storage _ _ _ _ Hok) _ _ Hb) in Hk.
          pose proof (in_place_lost f ub m dev Hok sb r0 y n k Hb Hs Hk Hway) as HL. rewrite (base_src f ub m (ro_storage _ _ _ _ Hok) _ _ Hb) in HL.
          rewrite (place_lost f ub m l all Hl Hall sb (r0 ++ [y]) Hb HL) in Ep. done.
      + intros m' _ _. split; intros d; by apply found_dev.
      + intros _ i. split; [apply (id_name _ _ Hid)|]. split; [apply (id_name _ _ Hid)|].
        assert (with_extension (m ++ s0 ++ [x]) (e_uuid e 3 i) = m ++ s0 ++ [file_stem x +:+ "." +:+ e_uuid e 3 i]) as ->.
        { rewrite app_assoc, with_extension_snoc. by rewrite <-app_assoc. }
        split; [|split].
        * destruct (base_exists f ub m s0) as (sb & r & -> & Hb). rewrite <-app_assoc.
          assert (base f ub m sb (r ++ [file_stem x +:+ "." +:+ e_uuid e 3 i])) as Hb'.
          { apply base_snoc; [done|]. intros n' [Hn' _]. rewrite (app_assoc sb) in Hn'. by destruct (ext_not_staged (sb ++ r) x 3 i _ n' Hn'). }
          apply (found_place f ub m l all Hl Hall _ _ _ Hb'). symmetry. apply (place_missing f ub m l all Hl Hall _ _ Hb').
          rewrite app_assoc, str_app_assoc. apply new_name.
        * intros Hin. apply (arrivals_staged f ub m dev Hok l all Hl Hall) in Hin as (s & n' & Hs' & E & _). by apply (ext_not_staged s0 x 3 i s n' Hs').
        * intros ph j m' Hm'. destruct (tmp_name_shape (e_cwd e) m'.1 m'.2 (e_uuid e ph j)) as [a ->].
          match goal with |- ?b = false => destruct b eqn:Hu; [|reflexivity] end. exfalso. rewrite app_assoc in Hu. apply under_snoc in Hu as [E|Hu].
          -- apply app_inj_tail in E as [_ E]. rewrite str_app_assoc in E. destruct (decide ((ph, j) = (3, i))) as [[= -> ->]|Hne].
             ++ by apply dash_dot in E.
             ++ destruct (ends_with_comparable (e_uuid e ph j) (e_uuid e 3 i) ((a +:+ "-") +:+ e_uuid e ph j)) as [H|H].
                ** apply ends_with_app.
                ** rewrite E. apply ends_with_app.
                ** by rewrite (id_distinct _ _ Hid ph j 3 i Hne) in H.
                ** rewrite (id_distinct _ _ Hid 3 i ph j) in H; [done|]. intros E'. by apply Hne.
          -- pose proof (under_trans _ _ _ Hu (under_app (m ++ s0) [x])) as Hu'. rewrite <-app_assoc in Hu'.
             by rewrite (tmp_not_above ph j _ _ n Hs) in Hu'.
    - exists m. split.
      + intros _. destruct (cw_dir _ _ _ _ Hcwd) as (d & Hd & _). destruct (cw_under _ _ _ _ Hcwd) as [H1 H2].
        apply (mount_point f ub m dev Hok); [done|done|]. apply dirpath_nolink. by eapply wf_dirpath.
      + intros [y d] Hm'. apply (moves_renamed f ub m l all Hl Hall) in Hm' as (s & n & Hr & -> & ->). cbn [fst snd].
        destruct (src_under s n (proj1 Hr)) as (H1 & H2 & H3). split.
        * apply (mount_point f ub m dev Hok); [done|done|]. apply (source_nolink f ub m dev Hok s n), Hr.
        * apply (mount_point f ub m dev Hok); [apply under_app|done|]. by apply (dest_nolink f ub m dev Hok s n).
    - destruct (cw_dir _ _ _ _ Hcwd) as (d & Hd & Hk). destruct (cw_under _ _ _ _ Hcwd) as [H1 H2]. exists d. split; [done|]. split; [done|].
      by apply (ro_device _ _ _ _ Hok (e_cwd e) d).
    - intros [y d] Hm'. apply (moves_renamed f ub m l all Hl Hall) in Hm' as (s & n & Hr & -> & ->). cbn [fst snd].
      destruct (cw_stays _ _ _ _ Hcwd s n (proj1 Hr)) as [_ H]. by apply H, Hr.
    - intros [y d] Hm'. apply (moves_renamed f ub m l all Hl Hall) in Hm' as (s & n & Hr & -> & ->). cbn [fst snd].
      destruct (ro_elsewhere _ _ _ _ Hok) as [_ H]. destruct (H s n (proj1 Hr)) as (H1 & H2 & _ & H3). destruct (H3 (proj2 Hr)) as [H4 H5]. done.
    - intros ph i m' Hm'. split; [apply (id_name _ _ Hid)|]. destruct (tmp_name_shape (e_cwd e) m'.1 m'.2 (e_uuid e ph i)) as [a ->]. split.
      + apply new_name.
      + intros q Hq. apply (arrivals_staged f ub m dev Hok l all Hl Hall) in Hq as (s & n & Hs & -> & _). by apply (tmp_not_above ph i _ s n).
    - intros i j m1 m2 _ _ _ Hij E. destruct (tmp_name_shape (e_cwd e) m1.1 m1.2 (e_uuid e 2 i)) as [a Ha].
      destruct (tmp_name_shape (e_cwd e) m2.1 m2.2 (e_uuid e 2 j)) as [b Hb']. rewrite Ha, Hb' in E. apply app_inj_tail in E as [_ E].
      destruct (ends_with_comparable (e_uuid e 2 i) (e_uuid e 2 j) ((a +:+ "-") +:+ e_uuid e 2 i)) as [H|H].
      + apply ends_with_app.
      + rewrite E. apply ends_with_app.
      + rewrite (id_distinct _ _ Hid 2 i 2 j) in H; [done|]. congruence.
      + rewrite (id_distinct _ _ Hid 2 j 2 i) in H; [done|]. congruence.
  Qed.
End sandbox.
