(** * C70: accepting never destroys the only copy of what the sandbox shows *)
From Verif Require Export Props_View Props_Rename RenamedOk.

(** ** Specification *)
(** The contents of the regular file a sandboxed process sees at [m ++ s]. *)
Definition shows (f : fs) (ub m s : path) (c : string) : Prop :=
  ∃ n, renamed_view f ub m s = Some n ∧ n_kind n = KFile c.
(** Some regular file with these contents exists, on the host or in the storage. *)
Definition held (f : fs) (c : string) : Prop := ∃ p n, f !! p = Some n ∧ n_kind n = KFile c.

(** At every moment of an accept of everything, every file the sandbox showed is still held
    somewhere. *)
Definition C70_full : Prop := ∀ e f ub m dev, wf_tree f → storage_ok f ub [m] →
  (∀ s n, staged_at f ub m s n → entry_format n ∧ under ub (m ++ s) = false ∧ under (m ++ s) ub = false) →
  (∀ q k, f !! q = Some k → n_dev k = dev) → env_ok e → fresh_uuids e f → 
  (∀ s, under (m ++ s) (e_cwd e) = true → f !! (upper_dir ub m ++ s) = None ∨ s = []) →
  ∀ st, st ∈ states (accept e ub true ["/"] f) →
  ∀ s c, under ub (m ++ s) = false → shows f ub m s c → held st c.

(** ** What does not hold: in the sandbox, [mv /d/a /b; rm -r /d].  The listing names everything
    below /d as removed, /d/a with the contents of /b too; removals are carried out first. *)
Definition moved_out_fs : fs := list_to_map
  [ ([], dir0); (["home"], dir0); (["d"], dir0); (["d"; "g"], file_ "1"); (["d"; "a"], dir0); (["d"; "a"; "f"], file_ "precious");
    (["sbx"], dir0); (["sbx"; "up"], dir0); (["sbx"; "up"; "F4"], dir0);
    (["sbx"; "up"; "F4"; "b"], rdir "/d/a"); (["sbx"; "up"; "F4"; "d"], wh) ].

Definition heldb (f : fs) (c : string) : bool :=
  negb (on_fs f (λ _ n, match n_kind n with KFile c' => negb (String.eqb c' c) | _ => true end)).
Lemma heldb_false (f : fs) (c : string) : heldb f c = false → ¬ held f c.
Proof.
  unfold heldb. rewrite negb_false_iff. intros H (p & n & Hn & Hk). apply (on_fs_spec _ _ H) in Hn.
  rewrite Hk in Hn. by rewrite String.eqb_refl in Hn.
Qed.
Lemma moved_out_storage : storage_ok moved_out_fs demo_ub [[]].
Proof. apply storage_okb_spec. vm_compute. reflexivity. Qed.
Lemma moved_out_staged (s : path) (n : node) : staged_at moved_out_fs demo_ub [] s n →
  (s = ["b"] ∧ n = rdir "/d/a") ∨ (s = ["d"] ∧ n = wh).
Proof.
  intros Hs.
  assert (on_staged moved_out_fs demo_ub [[]] (λ m s n, bool_decide (s = ["b"] ∨ s = ["d"])) = true) as Hc by (vm_compute; reflexivity).
  pose proof (on_staged_spec _ _ _ _ Hc [] s n ltac:(left) Hs) as H. cbv beta in H. clear Hc.
  apply bool_decide_eq_true in H as [-> | ->]; destruct Hs as [_ Hs]; vm_compute in Hs; injection Hs as <-; [left|right]; split; reflexivity.
Qed.
Lemma rdir_format : entry_format (rdir "/d/a").
Proof.
  split.
  - intros r H. discriminate H.
  - intros v H. vm_compute in H. discriminate H.
  - intros v H. vm_compute in H. discriminate H.
  - intros r H. vm_compute in H. injection H as <-. split; [reflexivity|]. refine (bool_decide_unpack _ _). vm_compute. exact I.
Qed.
Lemma wh_format : entry_format wh.
Proof.
  split.
  - intros r H. injection H as <-. left. reflexivity.
  - intros v H. vm_compute in H. discriminate H.
  - intros v H. vm_compute in H. discriminate H.
  - intros r H. vm_compute in H. discriminate H.
Qed.
Lemma moved_out_entries (s : path) (n : node) : staged_at moved_out_fs demo_ub [] s n →
  entry_format n ∧ under demo_ub ([] ++ s) = false ∧ under ([] ++ s) demo_ub = false.
Proof.
  intros Hs. destruct (moved_out_staged s n Hs) as [[-> ->]|[-> ->]].
  - split; [exact rdir_format|]. split; vm_compute; reflexivity.
  - split; [exact wh_format|]. split; vm_compute; reflexivity.
Qed.
Lemma moved_out_device (q : path) (k : node) : moved_out_fs !! q = Some k → n_dev k = 1%N.
Proof.
  intros Hk. assert (on_fs moved_out_fs (λ _ n, N.eqb (n_dev n) 1) = true) as Hc by (vm_compute; reflexivity).
  apply (on_fs_spec _ _ Hc) in Hk. by apply N.eqb_eq.
Qed.
Lemma moved_out_fresh : fresh_uuids demo_env moved_out_fs.
Proof. apply (fresh_suffixb_spec _ _ "uuid"); [done|]. vm_compute. reflexivity. Qed.
Lemma moved_out_cwd (s : path) : under ([] ++ s) (e_cwd demo_env) = true →
  moved_out_fs !! (upper_dir demo_ub [] ++ s) = None ∨ s = [].
Proof.
  intros Hu. cbn [e_cwd demo_env app] in Hu. apply under_spec in Hu as [r E]. destruct s as [|x s]; [by right|left].
  injection E as <- E. symmetry in E. apply app_eq_nil in E as [-> _]. vm_compute. reflexivity.
Qed.
Theorem C70_refuted : ¬ C70_full.
Proof.
  intros H.
  pose proof (H demo_env moved_out_fs demo_ub [] 1%N (so_wf _ _ _ moved_out_storage) moved_out_storage moved_out_entries
    moved_out_device demo_env_ok moved_out_fresh moved_out_cwd (o_fs (accept demo_env demo_ub true ["/"] moved_out_fs))) as H1.
  clear H. assert (held (o_fs (accept demo_env demo_ub true ["/"] moved_out_fs)) "precious") as H2.
  { apply (H1 ltac:(unfold states; apply elem_of_app; right; left) ["b"; "f"]).
    - vm_compute. reflexivity.
    - exists (file_ "precious"). split; vm_compute; reflexivity. }
  revert H2. apply heldb_false. clear H1. vm_compute. reflexivity.
Qed.
Print Assumptions C70_refuted.

(** ** What holds: without renamed directories, for a selection that takes everything below what
    it takes, every file the sandbox shows is at every moment of every run (also one that fails
    or is killed) on the host or in the storage, at its own place. *)
Lemma no_redirects_lookup (f : fs) (root : path) (s : path) : ∀ (u l : option path),
  (∀ up s1 c r n, u = Some up → s = s1 ++ c :: r → f !! (up ++ s1 ++ [c]) = Some n → redirect n = None) →
  renamed_lookup f root u l s = overlay_lookup f u l s.
Proof.
  induction s as [|c s IH]; intros u l Hr; [done|]. cbn [renamed_lookup overlay_lookup].
  assert (∀ up', (match u with Some up => Some (up ++ [c]) | None => None end) = Some up' →
     ∀ s1 c' r n, s = s1 ++ c' :: r → f !! (up' ++ s1 ++ [c']) = Some n → redirect n = None) as Hr'.
  { intros up' E s1 c' r n Es Hn. destruct u as [up|]; [|done]. injection E as <-.
    apply (Hr up (c :: s1) c' r n); [done|by rewrite Es|]. rewrite <-Hn. f_equal. by rewrite <-app_assoc. }
  destruct (match u with Some up => f !! (up ++ [c]) | None => None end) as [n|] eqn:En.
  - destruct (whiteout n); [done|]. destruct (is_kdir (n_kind n)); [|done].
    destruct u as [up|]; [|done]. rewrite (Hr up [] c s n eq_refl eq_refl En).
    rewrite IH; [|intros up' s1 c' r k E; by apply (Hr' up' E)]. by destruct (opaque n), l.
  - destruct l as [lo|]; [|done]. destruct (f !! (lo ++ [c])) as [k|] eqn:Ek; [|done].
    destruct (is_kdir (n_kind k)) eqn:Ed; [|done]. rewrite IH; [done|]. done.
Qed.

Section loss.
  Context (e : env) (f : fs) (ub : path) (ms : list path) (inc : bool) (pats : list string) (sel all : list change).
  Context (Hok : sandbox_ok f ub ms) (He : env_ok e) (Hfu : fresh_uuids e f) (Hsel : selected e f ub inc pats = Ok sel).
  Context (Hch : changes e f ub true = Ok all) (Hcl : closed_below all sel).

  Lemma renamed_view_eq (m s : path) : m ∈ ms → renamed_view f ub m s = sandbox_view f ub m s.
  Proof.
    intros Hm. apply no_redirects_lookup. intros up s1 c r n [= <-] -> Hn.
    apply (eo_redirect _ (sb_entry _ _ _ Hok m (s1 ++ [c]) n Hm ltac:(split; [by destruct s1|done]))).
  Qed.

  Lemma file_kept (st : fs) (m s : path) (n : node) (c : string) : st ∈ states (accept e ub inc pats f) →
    owns ms m (m ++ s) → s ≠ [] → under ub (m ++ s) = false → sandbox_view f ub m s = Some n → n_kind n = KFile c →
    ∃ p k, (p = m ++ s ∨ p = upper_dir ub m ++ s) ∧ st !! p = Some k ∧ n_kind k = KFile c.
  Proof.
    intros Hst Hown Hs Hub Hv Hk. pose proof (proj1 Hown) as Hm.
    pose proof (so_wf _ _ _ (sb_storage _ _ _ Hok)) as Hwf.
    destruct (selected_plan f ub ms Hok e Hfu inc pats sel He Hsel) as [Hplan Hl].
    destruct (changes_complete f ub ms Hok e He) as (l & Hl' & Hall). assert (l = all) as -> by congruence. clear Hl'.
    destruct (overlay_both f (upper_dir ub m) m s Hwf Hs) as (V1 & V2 & V3).
    fold (sandbox_view f ub m s) in V1, V2, V3. rewrite Hv in V1, V2, V3.
    destruct (f !! (upper_dir ub m ++ s)) as [n'|] eqn:En.
    - specialize (V1 n' eq_refl). destruct (whiteout n') eqn:Ew; [done|]. injection V1 as <-.
      assert (staged_at f ub m s n) as Hsa by done.
      set (c0 := Change (m ++ s) (OSet (set_type_of f ub m s)) (source_details f (m ++ s))
                   (Some (details_of (upper_dir ub m ++ s) n)) None).
      assert (lists f ub ms c0) as Hl0.
      { exists m, s, n. split; [done|]. split; [done|]. right. left. split; [done|]. split; [by unfold supported; rewrite Hk|done]. }
      destruct (staged_until_complete e f ub ms inc pats sel Hok He Hfu Hsel st Hst) as [Hq|[Hset _]].
      { exists (upper_dir ub m ++ s), n. split; [by right|]. split; [|done]. rewrite Hq; [done|]. unfold upper_dir. rewrite <-app_assoc. apply under_app. }
      destruct (existsb (λ p, under p (upper_dir ub m ++ s)) (staged_paths sel)) eqn:Eb.
      + apply existsb_exists in Eb as (p & Hp & Hu). apply elem_of_list_In in Hp.
        apply elem_of_staged_paths in Hp as (c1 & st1 & Hc1 & _ & Hst1 & ->).
        destruct (staged_of f ub ms c1 st1 (Hl c1 Hc1) Hst1) as (m1 & s1 & n1 & Hm1 & Hs1 & -> & Hcase).
        assert (c_dest c1 = m1 ++ s1) as Hd1.
        { destruct Hcase as [(_ & ? & _)|[(_ & _ & _ & ->)|(_ & _ & ->)]]; done. }
        cbn [d_path details_of] in Hu. apply under_spec in Hu as [r E]. rewrite <-app_assoc in E.
        apply (upper_dir_inj f ub ms Hok) in E as [<- ->]; [|done|done].
        assert (c0 ∈ sel) as Hc0.
        { apply (Hcl c1); [done|by apply Hall|]. rewrite Hd1. cbn [c_dest c0]. rewrite app_assoc. apply under_app. }
        destruct (Hset c0 Hc0 ltac:(by eexists)) as (d & nst & n' & E1 & E2 & E3 & E4).
        cbn in E1. injection E1 as <-. cbn in E2, E3. rewrite En in E2. injection E2 as <-.
        exists (m ++ s1 ++ r), n'. split; [by left|]. split; [done|]. destruct E4 as (E4 & _). congruence.
      + exists (upper_dir ub m ++ s), n. split; [by right|]. split; [|done]. rewrite <-En.
        apply (staged_intact e f ub ms inc pats sel Hok He Hfu Hsel); [done| |].
        * unfold upper_dir. rewrite <-app_assoc. apply under_app.
        * intros p Hp. destruct (under p (upper_dir ub m ++ s)) eqn:Eu; [|done]. exfalso.
          rewrite <-Bool.not_true_iff_false in Eb. apply Eb. apply existsb_exists. exists p. split; [by apply elem_of_list_In|done].
    - specialize (V2 eq_refl). specialize (V3 eq_refl).
      destruct (hidden_dec f (upper_dir ub m) s) as [H|H]; [by specialize (V2 H)|]. specialize (V3 H).
      exists (m ++ s), n. split; [by left|]. split; [|done]. rewrite V3.
      apply (run_frame e f ub ms inc pats sel Hok He Hfu Hsel); [done|done|].
      intros c1 Hc1 [[Hr|[Hsc E]]|Ht].
      + destruct (remove_of f ub ms c1 _ (Hl c1 Hc1) Hr) as (m' & s' & n' & k & Hm' & Hs' & Hroot & Hu & _).
        assert (hides n' = true) as Hh by (by eapply (removal_hides f ub ms m' s')).
        destruct (root_above f ub ms Hok m s m' s' n' Hown Hm' Hs' Hh Hu) as [<- [r ->]].
        destruct Hs' as [Hne Hs']. destruct r as [|x r].
        * rewrite app_nil_r in En. congruence.
        * rewrite (H s' x r n') in Hh; done.
      + apply (set_of f ub ms) in Hsc as (m' & s' & n' & Hm' & Hs' & _ & _ & Hd & _); [|by apply Hl].
        rewrite Hd in E. assert (m = m') as <-.
        { eapply (owner_unique ms m m' (m ++ s)); [done|]. rewrite E. apply (ho_owner _ _ _ _ _ _ (sb_host _ _ _ Hok m' s' n' Hm' Hs')). }
        apply app_inv_head in E as ->. destruct Hs' as [_ Hs']. congruence.
      + destruct (pl_tmp _ _ _ _ Hplan c1 _ Hc1 Ht) as [Hn _]. congruence.
  Qed.
End loss.

Theorem C70_nothing_lost_partial : ∀ e f ub ms inc pats sel all,
  sandbox_ok f ub ms → env_ok e → fresh_uuids e f →
  selected e f ub inc pats = Ok sel → changes e f ub true = Ok all → closed_below all sel →
  ∀ st, st ∈ states (accept e ub inc pats f) →
  ∀ m s c, owns ms m (m ++ s) → s ≠ [] → under ub (m ++ s) = false → shows f ub m s c →
  ∃ p k, (p = m ++ s ∨ p = upper_dir ub m ++ s) ∧ st !! p = Some k ∧ n_kind k = KFile c.
Proof.
  intros e f ub ms inc pats sel all Hok He Hfu Hsel Hch Hcl st Hst m s c Hown Hs Hu (n & Hv & Hk).
  rewrite (renamed_view_eq f ub ms Hok) in Hv by apply Hown.
  by apply (file_kept e f ub ms inc pats sel all Hok He Hfu Hsel Hch Hcl st m s n c).
Qed.
Print Assumptions C70_nothing_lost_partial.

(** Before the accept the new file is only in the storage, afterwards only on the host; a file of
    the host that is not concerned is visible as well. *)
Example C70_nonvacuous : selected part_env demo_fs demo_ub true part_pats = Ok part_sel ∧
  changes part_env demo_fs demo_ub true = Ok demo_all ∧ closed_below demo_all part_sel ∧
  (∃ c, shows demo_fs demo_ub [] ["home"; "r"; "new"] c ∧ demo_fs !! ["home"; "r"; "new"] = None) ∧
  shows demo_fs demo_ub [] ["etc"; "kept"] "kept" ∧ 5 ≤ length (states (accept part_env demo_ub true part_pats demo_fs)).
Proof.
  split; [vm_compute; reflexivity|]. split; [vm_compute; reflexivity|]. split; [exact part_closed|].
  split; [eexists; split; [eexists; split; vm_compute; reflexivity|vm_compute; reflexivity]|].
  split; [eexists; split; vm_compute; reflexivity|]. vm_compute. repeat constructor.
Qed.
